(* Hashes, copies, comparisons, and programs that keep to an order. *)
From Coq Require Import ZArith List Bool Lia.
From Verif Require Import Base Hash IndexVar Index IndexSpec IndexFacts IndexFacts2 IndexFacts3 IndexFacts4 IndexFacts5 IndexFacts6.
Import ListNotations.
Local Open Scope Z_scope.

(* ---- the hash of the object that was changed ---- *)
Lemma forget_clear : forall h n, (n < length (nodes h))%nat ->
  iv_hashed (node (forget h n) n) = false /\ iv_normalized (node (forget h n) n) = None.
Proof. intros. unfold forget. rewrite node_set_same by assumption. auto. Qed.

Lemma wipe_clear : forall h n x,
  iv_hashed (node (wipe h n) x) = iv_hashed (node h x) /\ iv_normalized (node (wipe h n) x) = iv_normalized (node h x)
  /\ iv_built (node (wipe h n) x) = iv_built (node h x).
Proof.
  intros. unfold wipe. destruct (Nat.eq_dec n x) as [->|E]; [|rewrite node_set_other by assumption; auto].
  destruct (Nat.lt_ge_cases x (length (nodes h))).
  - rewrite node_set_same by assumption. auto.
  - rewrite !node_out by (rewrite ?len_set; assumption). auto.
Qed.

Lemma push_clear : forall h n c x,
  iv_hashed (node (push h n c) x) = iv_hashed (node h x) /\ iv_normalized (node (push h n c) x) = iv_normalized (node h x)
  /\ iv_built (node (push h n c) x) = iv_built (node h x).
Proof.
  intros. unfold push. destruct (Nat.eq_dec n x) as [->|E]; [|rewrite node_set_other by assumption; auto].
  destruct (Nat.lt_ge_cases x (length (nodes h))).
  - rewrite node_set_same by assumption. auto.
  - rewrite !node_out by (rewrite ?len_set; assumption). auto.
Qed.

Lemma changed_clear : forall h n c h1, (n < length (nodes h))%nat ->
  ((exists i p, c = Add n i p) \/ (exists p, c = Remove n p) \/ (exists s, c = Connect n s false)) ->
  does h c h1 -> iv_hashed (node h1 n) = false /\ iv_normalized (node h1 n) = None
    /\ length (nodes h1) = length (nodes h).
Proof.
  intros h n c h1 L K [f D]. destruct K as [(i & p & ->)|[(p & ->)|(s & ->)]]; simpl in D.
  - destruct (add_inv _ _ _ _ _ D) as (m & _ & ->).
    set (g := Heap (cells h ++ [i]) (nodes h) (next_id h)).
    assert (Lg : (n < length (nodes g))%nat) by exact L.
    destruct (forget_clear g n Lg) as [F1 F2].
    assert (Ln : length (nodes (forget g n)) = length (nodes h)) by (unfold forget; rewrite len_set; reflexivity).
    destruct p.
    + destruct (push_clear (wipe (forget g n) n) m (length (cells h)) n) as (P1 & P2 & _).
      destruct (wipe_clear (forget g n) n n) as (W1 & W2 & _).
      rewrite P1, P2, W1, W2. repeat split; try assumption. unfold push, wipe. rewrite !len_set. assumption.
    + destruct (push_clear (forget g n) m (length (cells h)) n) as (P1 & P2 & _).
      rewrite P1, P2. repeat split; try assumption. unfold push. rewrite !len_set. assumption.
  - destruct (remove_inv _ _ _ _ D) as (m & _ & ->).
    destruct (forget_clear h n L) as [F1 F2]. destruct (wipe_clear (forget h n) m n) as (W1 & W2 & _).
    rewrite W1, W2. repeat split; try assumption. unfold wipe, forget. rewrite !len_set. reflexivity.
  - unfold connect_with in D. simpl in D. injection D as <-. unfold connect. rewrite node_set_same by assumption.
    rewrite len_set. auto.
Qed.

Lemma hash_of_proper : forall h n l, (n < length (nodes h))%nat -> wf h -> shown h n = l -> kept (node h n) l ->
  snd (hash_of h n) = proper_hash l.
Proof.
  intros h n l L W E [A B]. unfold hash_of. simpl. destruct (iv_hashed (node h n)) eqn:H; [auto|].
  unfold do_hashing, normalized. destruct (iv_normalized (node h n)) as [x|] eqn:N.
  - rewrite node_set_same by assumption. simpl. rewrite (B x eq_refl). reflexivity.
  - rewrite node_set_same by (rewrite len_set; assumption). simpl.
    unfold proper_hash. rewrite <- E, shown_len by assumption. reflexivity.
Qed.

Lemma changed_hash : forall h n c h1 l, reached h -> exists_in h c -> (n < length (nodes h))%nat ->
  ((exists i p, c = Add n i p) \/ (exists p, c = Remove n p) \/ (exists s, c = Connect n s false)) ->
  does h c h1 -> content h1 n l ->
  exists h2, does h1 (Build n true) h2 /\ shown h2 n = l /\ snd (hash_of h2 n) = proper_hash l.
Proof.
  intros h n c h1 l R X L K D C.
  destruct (changed_clear h n c h1 L K D) as (F1 & F2 & F3).
  assert (R1 : reached h1) by (eapply reached_call; eassumption).
  assert (L1 : (n < length (nodes h1))%nat) by (rewrite F3; assumption).
  destruct (proj2 (rebuild_returns h1 n R1 L1) (ex_intro _ l C)) as [h2 D2].
  pose proof (rebuilt h1 n l h2 R1 L1 C D2) as B.
  assert (E : shown h2 n = l) by (eapply content_fun; [apply (bb_right _ _ _ _ _ B)|assumption]).
  exists h2. split; [assumption|]. split; [assumption|]. apply hash_of_proper.
  - rewrite (sh_len _ _ (bb_shape _ _ _ _ _ B)). assumption.
  - apply B.
  - assumption.
  - apply (bb_kept _ _ _ _ _ B n l C). split; [rewrite F1; discriminate|rewrite F2; discriminate].
Qed.

(* ---- copies ---- *)
Lemma clone_node : forall h n x, node (fst (clone_iv h n)) x =
  if Nat.eq_dec x (length (nodes h))
  then IV (iv_normalized (node h n)) (iv_positions (node h n))
          (seq (length (cells h)) (length (iv_indices (node h n)))) (iv_hash (node h n)) (iv_hashed (node h n)) [] false
  else node h x.
Proof.
  intros. unfold clone_iv. simpl.
  apply (node_new (Heap (cells h ++ values h (iv_indices (node h n))) (nodes h) (next_id h))).
Qed.

Lemma nth_fresh : forall (b a : list Z), map (fun c => nth c (a ++ b) 0) (seq (length a) (length b)) = b.
Proof.
  induction b as [|x b IH]; intros a; simpl; [reflexivity|]. f_equal.
  - rewrite app_nth2 by lia. rewrite Nat.sub_diag. reflexivity.
  - specialize (IH (a ++ [x])). rewrite app_length in IH. simpl in IH.
    rewrite Nat.add_1_r in IH. rewrite <- IH at 2. apply map_ext. intros c. rewrite <- app_assoc. reflexivity.
Qed.

Lemma clone_shown : forall h n x, wf h -> shown (fst (clone_iv h n)) x =
  if Nat.eq_dec x (length (nodes h)) then shown h n else shown h x.
Proof.
  intros h n x W. unfold shown. rewrite clone_node.
  destruct (Nat.eq_dec x (length (nodes h))) as [E|E]; simpl.
  - f_equal. unfold values, cell. simpl.
    rewrite <- (map_length (cell h) (iv_indices (node h n))). unfold values.
    transitivity (map (fun c => nth c (cells h ++ map (cell h) (iv_indices (node h n))) 0)
        (seq (length (cells h)) (length (map (cell h) (iv_indices (node h n)))))); [reflexivity|].
    rewrite nth_fresh. reflexivity.
  - f_equal. apply (values_more h). intros c. apply (wf_cells h W x).
Qed.

Lemma set_cell_shown : forall h c v x, ~ In c (iv_indices (node h x)) -> shown (set_cell h c v) x = shown h x.
Proof.
  intros h c v x N. unfold shown, set_cell, node, values, cell in *. simpl. f_equal.
  apply map_ext_in. intros d Hd. apply rn_other. intros ->. contradiction.
Qed.

Lemma copy_facts : forall h n h', reached h -> (n < length (nodes h))%nat -> does h (Copy n) h' ->
  let k := length (nodes h) in
  length (nodes h') = Datatypes.S k
  /\ shown h' k = shown h n /\ content h' k (shown h n)
  /\ (forall x, (x < k)%nat -> node h' x = node h x /\ shown h' x = shown h x)
  /\ (forall c v, In c (iv_indices (node h' k)) -> forall x, x <> k -> shown (set_cell h' c v) x = shown h' x)
  /\ (forall c v x, x <> k -> In c (iv_indices (node h' x)) -> shown (set_cell h' c v) k = shown h' k)
  /\ (forall p i, p <> [] -> undefined h' (Add k i p) /\ undefined h' (Remove k p)).
Proof.
  intros h n h' R L [f D] k. simpl in D. injection D as <-.
  pose proof (reached_wf h R) as W.
  change (Heap (cells h ++ values h (iv_indices (node h n)))
      (nodes h ++ [IV (iv_normalized (node h n)) (iv_positions (node h n))
          (seq (length (cells h)) (length (iv_indices (node h n)))) (iv_hash (node h n)) (iv_hashed (node h n)) [] false])
      (next_id h)) with (fst (clone_iv h n)).
  set (h' := fst (clone_iv h n)).
  assert (Nk : iv_successors (node h' k) = []).
  { unfold h'. rewrite clone_node. destruct (Nat.eq_dec k (length (nodes h))); [reflexivity|unfold k in *; congruence]. }
  assert (Ek : shown h' k = shown h n).
  { unfold h'. rewrite clone_shown by assumption. destruct (Nat.eq_dec k (length (nodes h))); [reflexivity|unfold k in *; congruence]. }
  assert (Ik : iv_indices (node h' k) = seq (length (cells h)) (length (iv_indices (node h n)))).
  { unfold h'. rewrite clone_node. destruct (Nat.eq_dec k (length (nodes h))); [reflexivity|unfold k in *; congruence]. }
  assert (Ox : forall x, x <> k -> node h' x = node h x).
  { intros x Ex. unfold h'. rewrite clone_node. destruct (Nat.eq_dec x (length (nodes h))); [unfold k in *; congruence|reflexivity]. }
  repeat split.
  - unfold h', clone_iv. simpl. rewrite app_length. simpl. unfold k. lia.
  - assumption.
  - rewrite <- Ek. apply content_end. assumption.
  - apply Ox. lia.
  - unfold h'. rewrite clone_shown by assumption. destruct (Nat.eq_dec x (length (nodes h))); [unfold k in *; lia|reflexivity].
  - intros c v Hc x Ex. apply set_cell_shown. rewrite (Ox x Ex). rewrite Ik in Hc. apply in_seq in Hc.
    intros X. apply (wf_cells h W) in X. lia.
  - intros c v x Ex Hc. apply set_cell_shown. rewrite (Ox x Ex) in Hc. apply (wf_cells h W) in Hc.
    rewrite Ik. intros X. apply in_seq in X. lia.
  - apply outcome_undefined. intros [m A]. destruct p as [|j p]; [contradiction|].
    inversion A as [|? ? s ? ? [_ S] _]; subst. rewrite Nk in S. destruct (Z.to_nat j); discriminate.
  - apply outcome_undefined. intros [m A]. destruct p as [|j p]; [contradiction|].
    inversion A as [|? ? s ? ? [_ S] _]; subst. rewrite Nk in S. destruct (Z.to_nat j); discriminate.
Qed.

(* ---- joining with generate_pos ---- *)
Lemma connect_pos : forall h f s, reached h -> (f < length (nodes h))%nat -> (s < length (nodes h))%nat ->
  (shown h s <> [] -> undefined h (Connect f s true))
  /\ (shown h s = [] -> exists h', does h (Connect f s true) h' /\ does h (Connect f s false) h').
Proof.
  intros h f s R Lf Ls. pose proof (reached_wf h R) as W.
  assert (I : iv_indices (node h s) = [] <-> shown h s = []).
  { unfold shown, values. pose proof (wf_lists h W s) as E. destruct (iv_indices (node h s)), (iv_positions (node h s)); simpl in *;
      try discriminate; split; auto; discriminate. }
  split; intros X.
  - apply outcome_undefined. intros Y. apply X. apply I. assumption.
  - apply I in X. exists (connect h f s). split; [|exists O; reflexivity]. exists O. simpl. unfold connect_with. simpl.
    rewrite connect_indices, X.
    assert (P : iv_positions (node (connect h f s) s) = []).
    { assert (W1 : wf (connect h f s)) by (apply wf_connect; assumption).
      pose proof (wf_lists _ W1 s) as E. rewrite connect_indices, X in E. destruct (iv_positions _); [reflexivity|discriminate]. }
    rewrite P. simpl. rewrite app_nil_r. f_equal.
    set (g := connect h f s). unfold set_node. destruct g as [cs ns nx] eqn:G. f_equal.
    assert (Lg : (f < length ns)%nat).
    { assert (H : length (nodes g) = length (nodes h)) by (unfold g, connect; apply len_set).
      rewrite G in H. simpl in H. lia. }
    unfold node. simpl. clear -Lg. revert f Lg. induction ns as [|v ns IH]; intros f L; simpl in *; [lia|].
    destruct f; simpl; [destruct v; reflexivity|]. f_equal. apply IH. lia.
Qed.
