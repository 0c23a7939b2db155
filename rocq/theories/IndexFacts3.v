(* Building returns and leaves the right lists. *)
From Coq Require Import ZArith List Bool Lia.
From Verif Require Import Base Hash IndexVar Index IndexSpec IndexFacts IndexFacts2.
Import ListNotations.
Local Open Scope Z_scope.

(* ---- more fuel changes nothing ---- *)
Lemma sons_more : forall f g h n k sons h', (forall a b c, f a b = Ok c -> g a b = Ok c) ->
  build_sons f h n k sons = Ok h' -> build_sons g h n k sons = Ok h'.
Proof.
  intros f g h n k sons h' M. revert h k. induction sons as [|s sons IH]; intros h k H; simpl in *; [assumption|].
  destruct (f h s) as [h1| | |] eqn:E; simpl in H; try discriminate.
  rewrite (M _ _ _ E). simpl. auto.
Qed.

Lemma build_more : forall r f f' h n h', (f <= f')%nat -> build_with r f h n = Ok h' -> build_with r f' h n = Ok h'.
Proof.
  induction f as [|f IH]; intros f' h n h' L H; [discriminate|].
  destruct f' as [|f']; [lia|]. simpl in *.
  destruct (negb r && iv_built (node h n)); [assumption|].
  destruct (build_sons (build_with r f) _ _ _ _) as [h2| | |] eqn:E; simpl in H; try discriminate.
  erewrite sons_more; [| |exact E]; [exact H|].
  intros a b c. apply IH. lia.
Qed.

Lemma build_same : forall r f f' h n h' h'', build_with r f h n = Ok h' -> build_with r f' h n = Ok h'' -> h' = h''.
Proof.
  intros r f f' h n h' h'' A B. destruct (Nat.le_ge_cases f f') as [L|L].
  - rewrite (build_more _ _ _ _ _ _ L A) in B. congruence.
  - rewrite (build_more _ _ _ _ _ _ L B) in A. congruence.
Qed.

(* ---- shapes of the steps ---- *)
Lemma shape_set_inner : forall h0 h n v, shape h0 h -> iv_successors v = iv_successors (node h n) ->
  (iv_successors (node h n) = [] -> iv_positions v = iv_positions (node h n) /\ iv_indices v = iv_indices (node h n)) ->
  shape h0 (set_node h n v).
Proof.
  intros h0 h n v S E F. eapply shape_trans; [exact S|].
  assert (D : forall m, node (set_node h n v) m = node h m \/ m = n /\ node (set_node h n v) m = v).
  { intros m. destruct (Nat.eq_dec n m) as [->|X]; [|left; apply node_set_other; assumption].
    destruct (Nat.lt_ge_cases m (length (nodes h))).
    - right. split; [reflexivity|apply node_set_same; assumption].
    - left. rewrite !node_out by (rewrite ?len_set; assumption). reflexivity. }
  constructor.
  - reflexivity.
  - apply len_set.
  - intros m. destruct (D m) as [->|[-> ->]]; auto.
  - intros m X. destruct (D m) as [->|[-> ->]]; auto.
Qed.

Lemma shape_append : forall h0 h n k s, shape h0 h -> iv_successors (node h n) <> [] ->
  shape h0 (append_son h n k s).
Proof. intros. apply shape_set_inner; [assumption|reflexivity|]. intros X. contradiction. Qed.

Lemma shape_clear : forall h0 h n, shape h0 h -> shape h0 (clear_lists h n).
Proof.
  intros. unfold clear_lists. destruct (iv_successors (node h n)) eqn:E; [assumption|].
  apply shape_set_inner; [assumption|simpl; congruence|]. intros X. congruence.
Qed.

Lemma shape_mark : forall h0 h n, shape h0 h -> shape h0 (mark_built h n).
Proof. intros. apply shape_set_inner; [assumption|reflexivity|]. intros _. split; reflexivity. Qed.

Lemma shape_hash : forall h0 h n, shape h0 h -> shape h0 (hash_iv h n).
Proof.
  intros. unfold hash_iv. destruct (iv_hashed (node h n)); [assumption|].
  apply shape_set_inner; [assumption|reflexivity|]. intros _. split; reflexivity.
Qed.

(* ---- the loop over the components ---- *)
Record looped (r : bool) (h0 h h' : heap) (n : nat) (sons : list nat) (l : list (list Z * Z)) : Prop := {
  lp_shape : shape h0 h';
  lp_wf : wf h';
  lp_shown : shown h' n = shown h n ++ l;
  lp_all : r = true -> forall s m, In s sons -> below h0 s m ->
      right h0 h' m /\ iv_built (node h' m) = true /\ iv_hashed (node h' m) = true;
  lp_keep : forall m, m <> n -> right h0 h m -> right h0 h' m;
  lp_frame : forall m, m <> n -> (forall s, In s sons -> ~ below h0 s m) -> node h' m = node h m;
  lp_new : forall m, m <> n -> iv_built (node h' m) = true -> iv_built (node h m) = true \/ right h0 h' m;
  lp_kept : forall m l, content h0 m l -> kept (node h m) l -> kept (node h' m) l;
  lp_hashed : forall m, iv_hashed (node h m) = true -> iv_hashed (node h' m) = true;
  lp_self : iv_built (node h' n) = iv_built (node h n);
  lp_stays : forall m, iv_built (node h m) = true -> iv_built (node h' m) = true;
  lp_same : forall m, m <> n -> iv_built (node h' m) = false -> node h' m = node h m
}.

Lemma shown_len : forall h n, wf h -> map snd (shown h n) = values h (iv_indices (node h n)).
Proof.
  intros h n W. unfold shown.
  assert (E : length (iv_positions (node h n)) = length (values h (iv_indices (node h n)))).
  { unfold values. rewrite map_length. apply wf_lists; assumption. }
  revert E. generalize (iv_positions (node h n)) (values h (iv_indices (node h n))).
  induction l as [|p ps IH]; intros [|v vs] E; simpl in *; try discriminate; [reflexivity|].
  f_equal. apply IH. lia.
Qed.

Lemma append_fields : forall h n k s m,
  iv_normalized (node (append_son h n k s) m) = iv_normalized (node h m)
  /\ iv_hash (node (append_son h n k s) m) = iv_hash (node h m)
  /\ iv_hashed (node (append_son h n k s) m) = iv_hashed (node h m)
  /\ iv_built (node (append_son h n k s) m) = iv_built (node h m).
Proof.
  intros. unfold append_son. destruct (Nat.eq_dec n m) as [->|E]; [|rewrite node_set_other by assumption; auto].
  destruct (Nat.lt_ge_cases m (length (nodes h))).
  - rewrite node_set_same by assumption. auto.
  - rewrite !node_out by (rewrite ?len_set; assumption). auto.
Qed.

Lemma kept_fields : forall v v' l, iv_normalized v' = iv_normalized v -> iv_hash v' = iv_hash v ->
  iv_hashed v' = iv_hashed v -> kept v l -> kept v' l.
Proof. intros v v' l A B C [D E]. unfold kept. rewrite A, B, C. split; assumption. Qed.

Definition honest (h0 h : heap) (n : nat) : Prop :=
  forall m, below h0 n m -> iv_built (node h m) = true -> right h0 h m.

Section Loop.
Variable r : bool.
Variable h0 : heap.
Variable n : nat.
Hypothesis Hn : Acc (under h0) n.
(* Building the components works. *)
Hypothesis IH : forall s, under h0 s n -> forall h, shape h0 h -> wf h -> (s < length (nodes h))%nat ->
  (r = false -> honest h0 h s) -> exists f h', build_with r f h s = Ok h' /\ built_by r h0 h h' s.

Lemma loop_ok : forall sons k l h, contents h0 k sons l -> (forall s, In s sons -> under h0 s n) ->
  shape h0 h -> wf h -> (n < length (nodes h))%nat ->
  (r = false -> forall s, In s sons -> honest h0 h s) ->
  exists f h', build_sons (build_with r f) h n k sons = Ok h' /\ looped r h0 h h' n sons l.
Proof.
  induction sons as [|s sons IHs]; intros k l h C U S W L Hon.
  - inversion C; subst. exists O, h. split; [reflexivity|].
    constructor; auto.
    + rewrite app_nil_r. reflexivity.
    + intros _ s m [].
  - inversion C as [|? ? ? l1 l2 C1 C2]; subst.
    assert (Us : under h0 s n) by (apply U; left; reflexivity).
    assert (Ls : (s < length (nodes h))%nat).
    { apply (wf_sons h W n). rewrite (sh_sons h0 h S). exact Us. }
    assert (Inner : iv_successors (node h0 n) <> []).
    { unfold under in Us. intros X. rewrite X in Us. contradiction. }
    assert (Nb : ~ below h0 s n).
    { intros B. destruct (under_son _ _ _ Us) as [j J]. destruct B as [p P].
      assert (X : j :: p = []) by (apply (acc_acyclic h0 n Hn); econstructor; eassumption). discriminate. }
    destruct (IH s Us h S W Ls (fun E => Hon E s (or_introl eq_refl))) as (f1 & h1 & B1 & P1).
    set (h2 := append_son h1 n k s).
    assert (S1 : shape h0 h1) by apply P1.
    assert (W1 : wf h1) by apply P1.
    assert (N1 : node h1 n = node h n) by (apply (bb_frame _ _ _ _ _ P1); assumption).
    assert (S2 : shape h0 h2).
    { apply shape_append; [assumption|]. rewrite (sh_sons _ _ S1). assumption. }
    assert (W2 : wf h2) by (apply wf_append; assumption).
    assert (L1 : (n < length (nodes h1))%nat) by (rewrite (sh_len _ _ S1), <- (sh_len _ _ S); assumption).
    assert (L2 : (n < length (nodes h2))%nat) by (unfold h2, append_son; rewrite len_set; assumption).
    assert (O2 : forall m, m <> n -> node h2 m = node h1 m).
    { intros m E. unfold h2, append_son. apply node_set_other. congruence. }
    assert (R2 : forall m, m <> n -> right h0 h1 m -> right h0 h2 m).
    { intros m E X. unfold right in *. rewrite (shown_same h1 h2 m); [assumption|reflexivity| |]; rewrite O2; auto. }
    assert (R2' : forall m, m <> n -> right h0 h2 m -> right h0 h1 m).
    { intros m E X. unfold right in *. rewrite <- (shown_same h1 h2 m); [assumption|reflexivity| |]; rewrite O2; auto. }
    assert (Hon2 : r = false -> forall s', In s' sons -> honest h0 h2 s').
    { intros Er s' Hs' m Bm Bt.
      assert (Em : m <> n).
      { intros ->. destruct (under_son _ _ _ (U s' (or_intror Hs'))) as [j J]. destruct Bm as [p P].
        assert (X : j :: p = []) by (apply (acc_acyclic h0 n Hn); econstructor; eassumption). discriminate. }
      apply R2; [assumption|]. rewrite O2 in Bt by assumption.
      destruct (bb_new _ _ _ _ _ P1 m Bt) as [Bo|Ri]; [|assumption].
      apply (bb_keep _ _ _ _ _ P1). apply (Hon Er s' (or_intror Hs') m Bm Bo). }
    destruct (IHs (k + 1) l2 h2 C2 (fun x X => U x (or_intror X)) S2 W2 L2 Hon2) as (f2 & h3 & B2 & P2).
    exists (Nat.max f1 f2), h3. split.
    + simpl. rewrite (build_more _ f1) with (h' := h1) by (assumption || lia). simpl.
      eapply sons_more; [|exact B2]. intros a b c X. eapply build_more; [|exact X]. lia.
    + assert (Q : shown h1 s = l1).
      { apply (content_fun h0 s); [apply (bb_right _ _ _ _ _ P1)|assumption]. }
      constructor.
      * apply P2.
      * apply P2.
      * rewrite (lp_shown _ _ _ _ _ _ _ P2). unfold h2. rewrite shown_append by assumption.
        rewrite Q, <- app_assoc. f_equal. apply shown_same; [|rewrite N1; reflexivity|rewrite N1; reflexivity].
        rewrite (sh_cells _ _ S1), (sh_cells _ _ S). reflexivity.
      * intros Er x m [<-|Hx] Bm.
        -- destruct (bb_all _ _ _ _ _ P1 Er m Bm) as (X1 & X2 & X3).
           assert (Em : m <> n) by (intros ->; contradiction).
           assert (Y1 : right h0 h3 m) by (apply (lp_keep _ _ _ _ _ _ _ P2); auto).
           split; [exact Y1|]. destruct (append_fields h1 n k s m) as (_ & _ & A3 & A4). split.
           ++ apply (lp_stays _ _ _ _ _ _ _ P2). unfold h2. rewrite A4. assumption.
           ++ apply (lp_hashed _ _ _ _ _ _ _ P2). unfold h2. rewrite A3. assumption.
        -- apply (lp_all _ _ _ _ _ _ _ P2 Er x m Hx Bm).
      * intros m Em X. apply (lp_keep _ _ _ _ _ _ _ P2); [assumption|]. apply R2; [assumption|].
        apply (bb_keep _ _ _ _ _ P1). assumption.
      * intros m Em F. rewrite (lp_frame _ _ _ _ _ _ _ P2 m Em) by (intros x Hx; apply F; right; assumption).
        rewrite O2 by assumption. apply (bb_frame _ _ _ _ _ P1). apply F. left; reflexivity.
      * intros m Em X. destruct (lp_new _ _ _ _ _ _ _ P2 m Em X) as [Y|Y]; [|right; assumption].
        rewrite O2 in Y by assumption. destruct (bb_new _ _ _ _ _ P1 m Y) as [Z0|Z0]; [left; assumption|right].
        apply (lp_keep _ _ _ _ _ _ _ P2); [assumption|]. apply R2; assumption.
      * intros m lm Cm K. apply (lp_kept _ _ _ _ _ _ _ P2 m lm Cm).
        destruct (append_fields h1 n k s m) as (A1 & A2 & A3 & _).
        eapply kept_fields; [exact A1|exact A2|exact A3|]. apply (bb_kept _ _ _ _ _ P1 m lm Cm K).
      * intros m X. apply (lp_hashed _ _ _ _ _ _ _ P2).
        destruct (append_fields h1 n k s m) as (_ & _ & A3 & _). unfold h2. rewrite A3.
        apply (bb_hashed _ _ _ _ _ P1). assumption.
      * rewrite (lp_self _ _ _ _ _ _ _ P2). unfold h2.
        destruct (append_fields h1 n k s n) as (_ & _ & _ & A4). rewrite A4, N1. reflexivity.
      * intros m X. apply (lp_stays _ _ _ _ _ _ _ P2).
        destruct (append_fields h1 n k s m) as (_ & _ & _ & A4). unfold h2. rewrite A4.
        apply (bb_stays _ _ _ _ _ P1). assumption.
      * intros m Em X. pose proof (lp_same _ _ _ _ _ _ _ P2 m Em X) as Y. rewrite Y in *.
        rewrite O2 in * by assumption. apply (bb_same _ _ _ _ _ P1). assumption.
Qed.
End Loop.

(* ---- the end of build ---- *)
Lemma mark_fields : forall h n m,
  iv_normalized (node (mark_built h n) m) = iv_normalized (node h m)
  /\ iv_hash (node (mark_built h n) m) = iv_hash (node h m)
  /\ iv_hashed (node (mark_built h n) m) = iv_hashed (node h m)
  /\ iv_positions (node (mark_built h n) m) = iv_positions (node h m)
  /\ iv_indices (node (mark_built h n) m) = iv_indices (node h m)
  /\ (iv_built (node h m) = true -> iv_built (node (mark_built h n) m) = true)
  /\ (m <> n -> iv_built (node (mark_built h n) m) = iv_built (node h m)).
Proof.
  intros. unfold mark_built. destruct (Nat.eq_dec n m) as [->|E].
  - destruct (Nat.lt_ge_cases m (length (nodes h))).
    + rewrite node_set_same by assumption. simpl. intuition.
    + rewrite !node_out by (rewrite ?len_set; assumption). intuition.
  - rewrite node_set_other by assumption. intuition.
Qed.

Lemma clear_fields : forall h n m,
  iv_normalized (node (clear_lists h n) m) = iv_normalized (node h m)
  /\ iv_hash (node (clear_lists h n) m) = iv_hash (node h m)
  /\ iv_hashed (node (clear_lists h n) m) = iv_hashed (node h m)
  /\ iv_built (node (clear_lists h n) m) = iv_built (node h m)
  /\ iv_successors (node (clear_lists h n) m) = iv_successors (node h m)
  /\ (m <> n -> node (clear_lists h n) m = node h m).
Proof.
  intros. unfold clear_lists. destruct (iv_successors (node h n)) as [|s l] eqn:E0; [intuition|].
  destruct (Nat.eq_dec n m) as [->|E].
  - destruct (Nat.lt_ge_cases m (length (nodes h))).
    + rewrite node_set_same by assumption. simpl. intuition.
    + rewrite !node_out by (rewrite ?len_set; assumption). intuition.
  - rewrite node_set_other by assumption. intuition.
Qed.

Lemma hash_kept : forall h0 h n l, wf h -> (n < length (nodes h))%nat -> content h0 n (shown h n) ->
  content h0 n l -> kept (node h n) l -> kept (node (hash_iv h n) n) l.
Proof.
  intros h0 h n l W L R C K. unfold hash_iv. destruct (iv_hashed (node h n)) eqn:E; [exact K|].
  destruct K as [A B].
  rewrite node_set_same by assumption.
  assert (D : match iv_normalized (node h n) with
       | Some x => x
       | None => normalize (values h (iv_indices (node h n))) end = normalize (map snd l)).
  { destruct (iv_normalized (node h n)) as [x|]; [apply B; reflexivity|].
    rewrite <- shown_len by assumption. rewrite (content_fun _ _ _ _ R C). reflexivity. }
  rewrite D. split; simpl; [reflexivity|]. intros x X. congruence.
Qed.

Lemma hash_hashed : forall h n, (n < length (nodes h))%nat -> iv_hashed (node (hash_iv h n) n) = true.
Proof.
  intros h n L. unfold hash_iv. destruct (iv_hashed (node h n)) eqn:E; [assumption|].
  rewrite node_set_same by assumption. reflexivity.
Qed.

Lemma build_ok : forall r h0 n, Acc (under h0) n -> forall h, shape h0 h -> wf h ->
  (n < length (nodes h))%nat -> (r = false -> honest h0 h n) ->
  exists f h', build_with r f h n = Ok h' /\ built_by r h0 h h' n.
Proof.
  intros r h0 n A. induction A as [n A IH]. intros h S W L Hon.
  destruct (negb r && iv_built (node h n)) eqn:E.
  - apply andb_true_iff in E. destruct E as [Er Eb]. apply negb_true_iff in Er. subst r.
    exists 1%nat, h. split; [simpl; rewrite Eb; reflexivity|].
    constructor; auto.
    + apply (Hon eq_refl n (below_refl _ _) Eb).
    + discriminate.
  - set (h1 := clear_lists h n).
    assert (S1 : shape h0 h1) by (apply shape_clear; assumption).
    assert (W1 : wf h1) by (apply wf_clear; assumption).
    assert (L1 : (n < length (nodes h1))%nat) by (rewrite (sh_len _ _ S1), <- (sh_len _ _ S); assumption).
    destruct (acc_content h0 n (Acc_intro n A)) as [l C].
    (* the lists of n before the loop, and what the loop adds *)
    assert (Q : exists l1, contents h0 0 (iv_successors (node h0 n)) l1 /\ shown h1 n ++ l1 = l).
    { destruct C as [n E0|n s sons l E0 C'].
      - exists []. rewrite E0. split; [constructor|]. rewrite app_nil_r.
        unfold h1, clear_lists. rewrite (sh_sons _ _ S), E0. apply shown_shape; assumption.
      - exists l. rewrite E0. split; [assumption|].
        unfold h1, clear_lists. rewrite (sh_sons _ _ S), E0. unfold shown. rewrite node_set_same by assumption.
        reflexivity. }
    destruct Q as (l1 & C1 & E1).
    assert (Hon1 : r = false -> forall s, In s (iv_successors (node h0 n)) -> honest h0 h1 s).
    { intros Er s Hs m Bm Bt.
      assert (Em : m <> n).
      { intros ->. destruct (under_son _ _ _ Hs) as [j J]. destruct Bm as [p P].
        assert (X : j :: p = []) by (apply (acc_acyclic h0 n (Acc_intro n A)); econstructor; eassumption).
        discriminate. }
      destruct (clear_fields h n m) as (_ & _ & _ & _ & _ & F). unfold right.
      rewrite (shown_same h h1 m).
      - apply (Hon Er m); [eapply below_son; eassumption|]. fold h1 in F. rewrite (F Em) in Bt. assumption.
      - rewrite (sh_cells _ _ S1), (sh_cells _ _ S). reflexivity.
      - unfold h1. rewrite (F Em). reflexivity.
      - unfold h1. rewrite (F Em). reflexivity. }
    destruct (loop_ok r h0 n (Acc_intro n A) IH (iv_successors (node h0 n)) 0 l1 h1 C1 (fun s X => X) S1 W1 L1 Hon1)
      as (f & h2 & B & P).
    assert (S2 : shape h0 h2) by apply P. assert (W2 : wf h2) by apply P.
    assert (L2 : (n < length (nodes h2))%nat) by (rewrite (sh_len _ _ S2), <- (sh_len _ _ S1); assumption).
    set (h3 := mark_built h2 n).
    assert (L3 : (n < length (nodes h3))%nat) by (unfold h3, mark_built; rewrite len_set; assumption).
    assert (W3 : wf h3) by (apply wf_mark; assumption).
    assert (S3 : shape h0 h3) by (apply shape_mark; assumption).
    assert (Sh : forall m, shown (hash_iv h3 n) m = shown h2 m).
    { intros m. destruct (mark_fields h2 n m) as (_ & _ & _ & F4 & F5 & _).
      destruct (hash_keeps h3 n m) as (G1 & G2 & _). apply shown_same.
      - rewrite hash_cells. reflexivity.
      - rewrite G1. exact F4.
      - rewrite G2. exact F5. }
    assert (Rn : right h0 (hash_iv h3 n) n).
    { unfold right. rewrite Sh, (lp_shown _ _ _ _ _ _ _ P), E1. assumption. }
    assert (Ri : forall m, right h0 h2 m -> right h0 (hash_iv h3 n) m).
    { intros m X. unfold right. rewrite Sh. exact X. }
    assert (Bn : iv_built (node (hash_iv h3 n) n) = true).
    { destruct (hash_keeps h3 n n) as (_ & _ & _ & G). rewrite G. unfold h3, mark_built.
      rewrite node_set_same by assumption. reflexivity. }
    assert (Stay : forall m, iv_built (node h2 m) = true -> iv_built (node (hash_iv h3 n) m) = true).
    { intros m X. destruct (hash_keeps h3 n m) as (_ & _ & _ & G). rewrite G.
      destruct (mark_fields h2 n m) as (_ & _ & _ & _ & _ & F & _). apply F. assumption. }
    assert (Hsh : forall m, iv_hashed (node h2 m) = true -> iv_hashed (node (hash_iv h3 n) m) = true).
    { intros m X. destruct (Nat.eq_dec m n) as [->|Em]; [apply hash_hashed; assumption|].
      rewrite hash_node_other by assumption. destruct (mark_fields h2 n m) as (_ & _ & F & _). unfold h3. rewrite F.
      assumption. }
    exists (Datatypes.S f), (hash_iv h3 n). split.
    { simpl. rewrite E. fold h1.
      replace (iv_successors (node h1 n)) with (iv_successors (node h0 n)) by (symmetry; apply (sh_sons _ _ S1)).
      rewrite B. reflexivity. }
    constructor.
    + apply shape_hash. assumption.
    + apply wf_hash. assumption.
    + assumption.
    + assumption.
    + intros Er m Bm. destruct (below_inv _ _ _ Bm) as [->|(s & U & Bs)].
      * split; [assumption|]. split; [assumption|]. apply hash_hashed. assumption.
      * destruct (lp_all _ _ _ _ _ _ _ P Er s m U Bs) as (X1 & X2 & X3). auto.
    + intros m X. destruct (Nat.eq_dec m n) as [->|Em]; [assumption|]. apply Ri.
      apply (lp_keep _ _ _ _ _ _ _ P); [assumption|].
      destruct (clear_fields h n m) as (_ & _ & _ & _ & _ & F). specialize (F Em).
      unfold right. rewrite (shown_same h h1 m); [assumption| | |].
      * rewrite (sh_cells _ _ S1), (sh_cells _ _ S). reflexivity.
      * unfold h1. rewrite F. reflexivity.
      * unfold h1. rewrite F. reflexivity.
    + intros m Nb. assert (Em : m <> n) by (intros ->; apply Nb; apply below_refl).
      rewrite hash_node_other by assumption. unfold h3, mark_built. rewrite node_set_other by congruence.
      rewrite (lp_frame _ _ _ _ _ _ _ P m Em) by (intros s Hs X; apply Nb; eapply below_son; eassumption).
      destruct (clear_fields h n m) as (_ & _ & _ & _ & _ & F). apply F; assumption.
    + intros m X. destruct (Nat.eq_dec m n) as [->|Em]; [right; assumption|].
      destruct (hash_keeps h3 n m) as (_ & _ & _ & G). rewrite G in X.
      destruct (mark_fields h2 n m) as (_ & _ & _ & _ & _ & _ & F). unfold h3 in X. rewrite (F Em) in X.
      destruct (lp_new _ _ _ _ _ _ _ P m Em X) as [Y|Y]; [left|right; auto].
      destruct (clear_fields h n m) as (_ & _ & _ & F' & _). unfold h1 in Y. rewrite F' in Y. assumption.
    + intros m lm Cm K.
      assert (K2 : kept (node h2 m) lm).
      { apply (lp_kept _ _ _ _ _ _ _ P m lm Cm). destruct (clear_fields h n m) as (F1 & F2 & F3 & _).
        eapply kept_fields; [exact F1|exact F2|exact F3|assumption]. }
      assert (K3 : kept (node h3 m) lm).
      { destruct (mark_fields h2 n m) as (F1 & F2 & F3 & _).
        eapply kept_fields; [exact F1|exact F2|exact F3|assumption]. }
      destruct (Nat.eq_dec m n) as [->|Em]; [|rewrite hash_node_other by assumption; assumption].
      apply (hash_kept h0); try assumption.
      unfold right in Rn. rewrite (shown_same h3 (hash_iv h3 n) n) in Rn; [assumption|apply hash_cells| |];
        apply (hash_keeps h3 n n).
    + intros m X. apply Hsh. apply (lp_hashed _ _ _ _ _ _ _ P).
      destruct (clear_fields h n m) as (_ & _ & F3 & _). unfold h1. rewrite F3. assumption.
    + intros m X. apply Stay. apply (lp_stays _ _ _ _ _ _ _ P).
      destruct (clear_fields h n m) as (_ & _ & _ & F4 & _). unfold h1. rewrite F4. assumption.
    + intros m X. assert (Em : m <> n) by (intros ->; congruence).
      assert (Y : node (hash_iv h3 n) m = node h2 m).
      { rewrite hash_node_other by assumption. unfold h3, mark_built. apply node_set_other. congruence. }
      rewrite Y in *. rewrite (lp_same _ _ _ _ _ _ _ P m Em X).
      destruct (clear_fields h n m) as (_ & _ & _ & _ & _ & F). apply F; assumption.
Qed.
