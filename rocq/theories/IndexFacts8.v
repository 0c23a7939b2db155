(* Programs that make no cycle; programs that keep to an order. *)
From Coq Require Import ZArith List Bool Lia.
From Verif Require Import Base Hash IndexVar Index IndexSpec IndexFacts IndexFacts2 IndexFacts3 IndexFacts4
  IndexFacts5 IndexFacts6 IndexFacts7.
Import ListNotations.
Local Open Scope Z_scope.

Lemma sons_set_other : forall h n v, iv_successors v = iv_successors (node h n) ->
  forall x, iv_successors (node (set_node h n v) x) = iv_successors (node h x).
Proof.
  intros h n v E x. destruct (Nat.eq_dec n x) as [->|N]; [|rewrite node_set_other by assumption; reflexivity].
  destruct (Nat.lt_ge_cases x (length (nodes h))).
  - rewrite node_set_same by assumption. assumption.
  - rewrite !node_out by (rewrite ?len_set; assumption). reflexivity.
Qed.

Lemma sons_normalized : forall h n x, iv_successors (node (fst (normalized h n)) x) = iv_successors (node h x).
Proof.
  intros. unfold normalized. destruct (iv_normalized (node h n)); [reflexivity|]. apply sons_set_other. reflexivity.
Qed.

Lemma sons_do_hashing : forall h n x, iv_successors (node (do_hashing h n) x) = iv_successors (node h x).
Proof.
  intros. unfold do_hashing. pose proof (sons_normalized h n) as E. destruct (normalized h n) as [h1 l]. simpl in E.
  rewrite sons_set_other by reflexivity. apply E.
Qed.

Lemma sons_hash_of : forall h n x, iv_successors (node (fst (hash_of h n)) x) = iv_successors (node h x).
Proof. intros. unfold hash_of. simpl. destruct (iv_hashed (node h n)); [reflexivity|apply sons_do_hashing]. Qed.

Lemma sons_equal : forall h n m x, iv_successors (node (fst (equal_iv h n m)) x) = iv_successors (node h x).
Proof.
  intros. unfold equal_iv. pose proof (sons_hash_of h n x) as E1. destruct (hash_of h n) as [h1 a]. simpl in E1.
  pose proof (sons_hash_of h1 m x) as E2. destruct (hash_of h1 m) as [h2 b]. simpl in *. congruence.
Qed.

Lemma sons_clone : forall h n x, iv_successors (node (fst (clone_iv h n)) x) = iv_successors (node h x).
Proof.
  intros. rewrite clone_node. destruct (Nat.eq_dec x (length (nodes h))) as [->|]; [|reflexivity].
  rewrite (node_out h (length (nodes h))) by lia. reflexivity.
Qed.

Lemma node_create : forall h x, node (fst (new_iv h)) x = node h x.
Proof.
  intros. unfold new_iv. simpl. rewrite node_new. destruct (Nat.eq_dec x (length (nodes h))) as [->|]; [|reflexivity].
  rewrite node_out by lia. reflexivity.
Qed.

Lemma exec_sons : forall fuel h c h', (match c with Connect _ _ _ => False | _ => True end) ->
  exec fuel h c = Ok h' -> forall x, iv_successors (node h' x) = iv_successors (node h x).
Proof.
  intros fuel h c h' N E x. destruct c; simpl in *; try contradiction.
  - injection E as <-. f_equal. apply (node_create h).
  - injection E as <-. apply (sons_clone h n).
  - apply (sh_sons _ _ (build_shape _ _ _ _ _ E)).
  - eapply add_sons; eassumption.
  - eapply remove_sons; eassumption.
  - injection E as <-. apply sons_normalized.
  - injection E as <-. apply sons_do_hashing.
  - injection E as <-. apply (sons_hash_of h n).
  - injection E as <-. apply sons_equal.
  - injection E as <-. reflexivity.
Qed.

Lemma connect_sons : forall g h f s h', (f < length (nodes h))%nat -> connect_with g h f s = Ok h' -> forall x,
  iv_successors (node h' x) = if Nat.eq_dec f x then iv_successors (node h x) ++ [s] else iv_successors (node h x).
Proof.
  intros g h f s h' L E x.
  assert (C : iv_successors (node (connect h f s) x) =
     if Nat.eq_dec f x then iv_successors (node h x) ++ [s] else iv_successors (node h x)).
  { unfold connect. destruct (Nat.eq_dec f x) as [->|N].
    - rewrite node_set_same by assumption. reflexivity.
    - rewrite node_set_other by assumption. reflexivity. }
  unfold connect_with in E. destruct g; simpl in E; [|injection E as <-; exact C].
  destruct (iv_indices _); [|discriminate]. injection E as <-. rewrite sons_set_other by reflexivity. exact C.
Qed.

(* A way in the new structure is an old way, or ends in one from s. *)
Section Joined.
Variables (h h' : heap) (f s : nat).
Hypothesis So : forall x,
  iv_successors (node h' x) = if Nat.eq_dec f x then iv_successors (node h x) ++ [s] else iv_successors (node h x).

Lemma joined_son : forall n k z, son h' n k z -> son h n k z \/ n = f /\ z = s.
Proof.
  intros n k z [K E]. rewrite So in E. destruct (Nat.eq_dec f n) as [->|N]; [|left; split; assumption].
  destruct (Nat.lt_ge_cases (Z.to_nat k) (length (iv_successors (node h n)))) as [L|L].
  - rewrite nth_error_app1 in E by assumption. left. split; assumption.
  - right. split; [reflexivity|]. rewrite nth_error_app2 in E by assumption.
    destruct (Z.to_nat k - length (iv_successors (node h n)))%nat as [|[|j]]; simpl in E; congruence.
Qed.

Lemma joined_last : forall n p m, at_position h' n p m -> at_position h n p m \/ exists q, at_position h s q m.
Proof.
  induction 1 as [|n k z p m S _ IH]; [left; constructor|].
  destruct IH as [IH|IH]; [|right; assumption].
  destruct (joined_son n k z S) as [S'|[-> ->]]; [left; econstructor; eassumption|right; eauto].
Qed.

Lemma joined_first : forall n p m, at_position h' n p m -> at_position h n p m \/ exists q, at_position h n q f.
Proof.
  induction 1 as [|n k z p m S _ IH]; [left; constructor|].
  destruct (joined_son n k z S) as [S'|[-> ->]]; [|right; exists []; constructor].
  destruct IH as [IH|[q Q]]; [left|right; exists (k :: q)]; econstructor; eassumption.
Qed.
End Joined.

Lemma acyclic_step : forall h c h', acyclic h -> exists_in h c ->
  (forall f s g, c = Connect f s g -> forall p, ~ at_position h s p f) -> does h c h' -> acyclic h'.
Proof.
  intros h c h' A X N [fuel E] n p P.
  assert (D : (exists f s g, c = Connect f s g) \/ (match c with Connect _ _ _ => False | _ => True end))
    by (destruct c; eauto).
  destruct D as [(f & s & g & ->)|D].
  - assert (L : (f < length (nodes h))%nat) by (apply (proj1 X); left; reflexivity).
    pose proof (connect_sons g h f s h' L E) as So.
    destruct (joined_last h h' f s So n p n P) as [Q|[q Q]]; [apply (A n p Q)|].
    destruct (joined_first h h' f s So n p n P) as [Q'|[q' Q']]; [apply (A n p Q')|].
    exfalso. apply (N f s g eq_refl (q ++ q')). eapply at_app; eassumption.
  - apply (A n p). apply (at_sons h h'); [|assumption]. eapply exec_sons; eassumption.
Qed.

Lemma acyclic_start : acyclic (Heap [] [] 0).
Proof.
  intros n p P. inversion P as [|? k s q ? [_ S] _]; subst; [reflexivity|].
  exfalso. revert S. rewrite node_out by (simpl; lia). simpl. destruct (Z.to_nat k); discriminate.
Qed.

Lemma acyclic_acc : forall h, wf h -> acyclic h -> forall n, Acc (under h) n.
Proof.
  intros h W A n. destruct (Nat.lt_ge_cases n (length (nodes h))).
  - apply no_cycle_acc; [assumption|assumption|]. intros m q _ Q. apply (A m q Q).
  - constructor. intros s U. unfold under in U. rewrite node_out in U by assumption. contradiction.
Qed.

(* ---- programs that keep to an order ---- *)
Lemma in_order_reached : forall h, in_order h -> reached h.
Proof. induction 1; [constructor|econstructor; eassumption]. Qed.

Lemma in_order_acyclic : forall h, in_order h -> acyclic h.
Proof.
  induction 1 as [|h c h' I IH X O D]; [apply acyclic_start|].
  eapply acyclic_step; [exact IH|exact X| |exact D].
  intros f s g -> p. inversion O; subst. auto.
Qed.

Record ordered (h : heap) : Prop := {
  od_right : forall n, iv_built (node h n) = true -> content h n (shown h n);
  od_kept : forall n l, content h n l -> kept (node h n) l;
  od_open : forall n, iv_built (node h n) = false -> ~ is_end h n ->
      iv_hashed (node h n) = false /\ iv_normalized (node h n) = None
}.

(* Objects below which nothing has changed. *)
Lemma content_same : forall h h1 n l, content h n l ->
  (forall p x, at_position h n p x ->
     iv_successors (node h1 x) = iv_successors (node h x) /\ (is_end h x -> shown h1 x = shown h x)) ->
  content h1 n l.
Proof.
  intros h h1.
  apply (content_min h
    (fun n l => (forall p x, at_position h n p x ->
        iv_successors (node h1 x) = iv_successors (node h x) /\ (is_end h x -> shown h1 x = shown h x)) -> content h1 n l)
    (fun k sons l => (forall s p x, In s sons -> at_position h s p x ->
        iv_successors (node h1 x) = iv_successors (node h x) /\ (is_end h x -> shown h1 x = shown h x)) ->
        contents h1 k sons l)).
  - intros n X F. destruct (F [] n (at_here _ _)) as [F1 F2]. rewrite <- (F2 X). apply content_end. rewrite F1. assumption.
  - intros n s sons l X _ IH F. destruct (F [] n (at_here _ _)) as [F1 _].
    eapply content_inner; [rewrite F1; eassumption|]. apply IH.
    intros s' p x Hs A. destruct (under_son h n s') as [k K]; [unfold under; rewrite X; assumption|].
    apply (F (k :: p) x). econstructor; eassumption.
  - intros. constructor.
  - intros k s sons l l' _ IH1 _ IH2 F. constructor.
    + apply IH1. intros p x. apply F. left; reflexivity.
    + apply IH2. intros s' p x Hs. apply F. right; assumption.
Qed.

Lemma no_father_above : forall h f, ~ has_father h f -> forall n p, at_position h n p f -> n = f.
Proof.
  intros h f N n p A. induction A as [|n k s p m S A IH]; [reflexivity|].
  specialize (IH N). subst s. exfalso. apply N. exists n, k. assumption.
Qed.

(* A step that changes one object with no father, and the ints. *)
Lemma ordered_change : forall h h' f, wf h -> acyclic h -> wf h' -> acyclic h' -> ordered h -> ~ has_father h f ->
  (forall x, x <> f -> node h' x = node h x /\ shown h' x = shown h x) ->
  (iv_built (node h' f) = true -> is_end h' f) ->
  iv_hashed (node h' f) = false -> iv_normalized (node h' f) = None -> ordered h'.
Proof.
  intros h h' f W A W' A' O N Ot B Hh Hn.
  assert (C : forall x l, x <> f -> content h x l -> content h' x l).
  { intros x l E C. apply (content_same h h' x l C). intros p y P.
    assert (y <> f) by (intros ->; apply E; eapply no_father_above; eassumption).
    destruct (Ot y H) as [-> ->]. auto. }
  assert (C' : forall x l, x <> f -> content h' x l -> content h x l).
  { intros x l E D. destruct (acc_content h x (acyclic_acc h W A x)) as [l0 D0].
    rewrite (content_fun _ _ _ _ D (C x l0 E D0)). assumption. }
  constructor.
  - intros n X. destruct (Nat.eq_dec n f) as [->|E]; [apply content_end; apply B; assumption|].
    destruct (Ot n E) as [F1 F2]. rewrite F1 in X. rewrite F2. apply C; [assumption|]. apply (od_right h O). assumption.
  - intros n l X. destruct (Nat.eq_dec n f) as [->|E].
    + split; [rewrite Hh; discriminate|rewrite Hn; discriminate].
    + destruct (Ot n E) as [F1 _]. rewrite F1. apply (od_kept h O). apply C'; assumption.
  - intros n X Y. destruct (Nat.eq_dec n f) as [->|E]; [auto|].
    destruct (Ot n E) as [F1 _]. unfold is_end in Y. rewrite F1 in *. apply (od_open h O); assumption.
Qed.

(* A step that only computes the hash or the normalised list of one object. *)
Lemma ordered_hash : forall h h' f, ordered h -> shape h h' ->
  (forall x, iv_positions (node h' x) = iv_positions (node h x) /\ iv_indices (node h' x) = iv_indices (node h x)
     /\ iv_built (node h' x) = iv_built (node h x)) ->
  (forall x, x <> f -> node h' x = node h x) ->
  (iv_built (node h f) = true \/ is_end h f) ->
  (forall l, shown h f = l -> kept (node h f) l -> kept (node h' f) l) -> ordered h'.
Proof.
  intros h h' f O S K Ot R Kf.
  assert (Sh : forall x, shown h' x = shown h x).
  { intros x. destruct (K x) as (K1 & K2 & _). apply shown_same; [apply (sh_cells _ _ S)| |]; assumption. }
  constructor.
  - intros n X. destruct (K n) as (_ & _ & K3). rewrite K3 in X. rewrite Sh.
    apply (content_shape h h' S). apply (od_right h O). assumption.
  - intros n l X. apply (content_shape h' h (shape_sym _ _ S)) in X.
    destruct (Nat.eq_dec n f) as [->|E]; [|rewrite (Ot n E); apply (od_kept h O); assumption].
    apply Kf; [|apply (od_kept h O); assumption].
    destruct R as [R|R]; [apply (content_fun h f); [apply (od_right h O); assumption|assumption]|].
    symmetry. apply content_of_end; assumption.
  - intros n X Y. destruct (K n) as (_ & _ & K3). rewrite K3 in X.
    unfold is_end in Y. rewrite (sh_sons _ _ S) in Y.
    destruct (Nat.eq_dec n f) as [->|E]; [|rewrite (Ot n E); apply (od_open h O); assumption].
    exfalso. destruct R as [R|R]; [congruence|contradiction].
Qed.

Lemma hash_step : forall h n, ordered h -> wf h -> (n < length (nodes h))%nat ->
  (iv_built (node h n) = true \/ is_end h n) ->
  (ordered (fst (normalized h n)) /\ shape h (fst (normalized h n))
     /\ forall x, iv_built (node (fst (normalized h n)) x) = iv_built (node h x))
  /\ (ordered (do_hashing h n) /\ shape h (do_hashing h n)
     /\ forall x, iv_built (node (do_hashing h n) x) = iv_built (node h x)).
Proof.
  intros h n O W L R.
  assert (G : forall v, iv_successors v = iv_successors (node h n) -> iv_positions v = iv_positions (node h n) ->
     iv_indices v = iv_indices (node h n) -> iv_built v = iv_built (node h n) ->
     (forall l, shown h n = l -> kept (node h n) l -> kept v l) ->
     ordered (set_node h n v) /\ shape h (set_node h n v)
     /\ forall x, iv_built (node (set_node h n v) x) = iv_built (node h x)).
  { intros v E1 E2 E3 E4 Kv.
    assert (S : shape h (set_node h n v)) by (apply shape_set_inner; [apply shape_refl|assumption|auto]).
    assert (Kx : forall x, iv_positions (node (set_node h n v) x) = iv_positions (node h x)
       /\ iv_indices (node (set_node h n v) x) = iv_indices (node h x)
       /\ iv_built (node (set_node h n v) x) = iv_built (node h x)).
    { intros x. destruct (Nat.eq_dec n x) as [->|E]; [rewrite node_set_same by assumption; auto|].
      rewrite node_set_other by assumption. auto. }
    split; [|split; [assumption|apply Kx]].
    apply (ordered_hash h (set_node h n v) n O S).
    - apply Kx.
    - intros x E. apply node_set_other. congruence.
    - assumption.
    - rewrite node_set_same by assumption. assumption. }
  assert (P : ordered (fst (normalized h n)) /\ shape h (fst (normalized h n))
     /\ forall x, iv_built (node (fst (normalized h n)) x) = iv_built (node h x)).
  { unfold normalized. destruct (iv_normalized (node h n)) eqn:E.
    { split; [assumption|]. split; [apply shape_refl|reflexivity]. }
    apply G; try reflexivity. intros l <- [K1 K2]. split; [exact K1|]. simpl. intros x X.
    injection X as <-. rewrite shown_len by assumption. reflexivity. }
  split; [exact P|].
  unfold do_hashing, normalized. destruct (iv_normalized (node h n)) as [x|] eqn:E; simpl.
  - apply G; try reflexivity. intros l <- [K1 K2]. split; simpl.
    + intros _. rewrite (K2 x E). reflexivity.
    + intros y Y. apply K2. assumption.
  - (* two writes to the same object are one *)
    assert (T : forall v w, set_node (set_node h n v) n w = set_node h n w).
    { intros v w. unfold set_node. simpl. f_equal. clear. generalize (nodes h).
      revert n. intros n l. revert n. induction l as [|a l IH]; intros [|n]; simpl; auto. f_equal. apply IH. }
    rewrite T. rewrite node_set_same by assumption. simpl.
    apply G; try reflexivity. intros l <- [K1 K2]. split; simpl.
    + intros _. unfold proper_hash. rewrite shown_len by assumption. reflexivity.
    + intros y Y. injection Y as <-. rewrite shown_len by assumption. reflexivity.
Qed.

Lemma hash_of_step : forall h n, ordered h -> wf h -> (n < length (nodes h))%nat ->
  (iv_built (node h n) = true \/ is_end h n) ->
  ordered (fst (hash_of h n)) /\ shape h (fst (hash_of h n))
   /\ forall x, iv_built (node (fst (hash_of h n)) x) = iv_built (node h x).
Proof.
  intros h n O W L R. unfold hash_of. simpl. destruct (iv_hashed (node h n)).
  - split; [assumption|]. split; [apply shape_refl|reflexivity].
  - apply (hash_step h n O W L R).
Qed.

Lemma ordered_step : forall h c h', in_order h -> ordered h -> exists_in h c -> orderly h c -> does h c h' -> ordered h'.
Proof.
  intros h c h' I O X Y D.
  assert (R : reached h) by (apply in_order_reached; assumption).
  assert (W : wf h) by (apply reached_wf; assumption).
  assert (A : acyclic h) by (apply in_order_acyclic; assumption).
  assert (I' : in_order h') by (econstructor; eassumption).
  assert (W' : wf h') by (apply reached_wf; apply in_order_reached; assumption).
  assert (A' : acyclic h') by (apply in_order_acyclic; assumption).
  destruct D as [fuel E]. destruct X as [X _].
  destruct Y as [|n|f s Nf Ns|n r|n i Nf Ne|n Nf Ne|n Q|n Q|n Q|n m Q1 Q2]; simpl in E, X.
  - injection E as <-. change (ordered (fst (new_iv h))).
    assert (N : forall x, node (fst (new_iv h)) x = node h x) by (apply node_create).
    assert (Sh : forall x, shown (fst (new_iv h)) x = shown h x)
      by (intros x; apply shown_same; [reflexivity| |]; rewrite N; reflexivity).
    assert (C : forall x l, content h x l -> content (fst (new_iv h)) x l).
    { intros x l C. apply (content_same h _ x l C). intros p y _. rewrite N, Sh. auto. }
    assert (C' : forall x l, content (fst (new_iv h)) x l -> content h x l).
    { intros x l C0. apply (content_same (fst (new_iv h)) h x l C0). intros p y _. rewrite N, Sh. auto. }
    constructor.
    + intros n B. rewrite N in B. rewrite Sh. apply C. apply (od_right h O). assumption.
    + intros n l C0. rewrite N. apply (od_kept h O). apply C'. assumption.
    + intros n B Q. unfold is_end in Q. rewrite N in *. apply (od_open h O); assumption.
  - injection E as <-. change (ordered (fst (clone_iv h n))). change (wf (fst (clone_iv h n))) in W'.
    set (k := length (nodes h)).
    assert (Ot : forall x, x <> k -> node (fst (clone_iv h n)) x = node h x /\ shown (fst (clone_iv h n)) x = shown h x).
    { intros x Ex. rewrite clone_node, clone_shown by assumption.
      destruct (Nat.eq_dec x (length (nodes h))); [contradiction|auto]. }
    assert (So : forall x, iv_successors (node (fst (clone_iv h n)) x) = iv_successors (node h x)) by apply sons_clone.
    assert (Nk : forall x p, at_position h x p k -> x = k).
    { apply no_father_above. intros (f & j & S). apply son_under in S. apply (wf_sons h W) in S. unfold k in S. lia. }
    assert (C : forall x l, x <> k -> content h x l -> content (fst (clone_iv h n)) x l).
    { intros x l Ex C. apply (content_same h _ x l C). intros p y P. rewrite So. split; [reflexivity|].
      intros _. apply Ot. intros ->. apply Ex. eapply Nk; eassumption. }
    assert (C' : forall x l, x <> k -> content (fst (clone_iv h n)) x l -> content h x l).
    { intros x l Ex D. destruct (acc_content h x (acyclic_acc h W A x)) as [l0 D0].
      rewrite (content_fun _ _ _ _ D (C x l0 Ex D0)). assumption. }
    assert (Ek : is_end (fst (clone_iv h n)) k).
    { unfold is_end. rewrite So. unfold k. rewrite node_out by lia. reflexivity. }
    constructor.
    + intros x B. destruct (Nat.eq_dec x k) as [->|Ex]; [apply content_end; assumption|].
      destruct (Ot x Ex) as [F1 F2]. rewrite F1 in B. rewrite F2. apply C; [assumption|]. apply (od_right h O); assumption.
    + intros x l C0. destruct (Nat.eq_dec x k) as [->|Ex].
      * apply (content_of_end _ _ _ Ek) in C0. rewrite clone_shown in C0 by assumption.
        destruct (Nat.eq_dec k (length (nodes h))) as [_|Z0]; [|contradiction]. subst l.
        rewrite clone_node. destruct (Nat.eq_dec k (length (nodes h))) as [_|Z0]; [|contradiction].
        assert (K : kept (node h n) (shown h n)).
        { destruct (iv_built (node h n)) eqn:B; [apply (od_kept h O); apply (od_right h O); assumption|].
          destruct (list_eq_dec Nat.eq_dec (iv_successors (node h n)) []) as [Z1|Z1].
          - apply (od_kept h O). apply content_end. assumption.
          - destruct (od_open h O n B Z1) as [H1 H2]. split; [rewrite H1; discriminate|rewrite H2; discriminate]. }
        destruct K as [K1 K2]. split; assumption.
      * destruct (Ot x Ex) as [F1 _]. rewrite F1. apply (od_kept h O). apply C'; assumption.
    + intros x B Q. destruct (Nat.eq_dec x k) as [->|Ex]; [contradiction|].
      unfold is_end in Q. destruct (Ot x Ex) as [F1 _]. rewrite F1 in *. apply (od_open h O); assumption.
  - unfold connect_with in E. simpl in E. injection E as <-.
    assert (L : (f < length (nodes h))%nat) by (apply X; left; reflexivity).
    apply (ordered_change h (connect h f s) f W A W' A' O Nf).
    + intros x Ex. assert (F : node (connect h f s) x = node h x) by (unfold connect; apply node_set_other; congruence).
      split; [assumption|]. apply shown_same; [reflexivity| |]; rewrite F; reflexivity.
    + unfold connect. rewrite node_set_same by assumption. discriminate.
    + unfold connect. rewrite node_set_same by assumption. reflexivity.
    + unfold connect. rewrite node_set_same by assumption. reflexivity.
  - assert (L : (n < length (nodes h))%nat) by (apply X; left; reflexivity).
    destruct (build_ok r h n (acyclic_acc h W A n) h (shape_refl h) W L) as (g & h'' & E' & B).
    { intros _ m _ Bm. apply (od_right h O). assumption. }
    rewrite <- (build_same _ _ _ _ _ _ _ E E') in B. assert (S : shape h h') by apply B.
    constructor.
    + intros m Bm. apply (content_shape h h' S).
      destruct (bb_new _ _ _ _ _ B m Bm) as [Bo|Ri]; [|exact Ri].
      apply (bb_keep _ _ _ _ _ B). apply (od_right h O). assumption.
    + intros m l C. apply (content_shape h' h (shape_sym _ _ S)) in C.
      apply (bb_kept _ _ _ _ _ B m l C). apply (od_kept h O). assumption.
    + intros m Bm Q. unfold is_end in Q. pose proof (bb_same _ _ _ _ _ B m Bm) as Em.
      rewrite Em in Bm, Q |- *. apply (od_open h O); assumption.
  - assert (L : (n < length (nodes h))%nat) by (apply X; left; reflexivity).
    destruct (add_shown h n i [] h' W L E) as (m & Am & Sh).
    assert (n = m) as <- by (inversion Am; reflexivity).
    destruct (changed_clear h n (Add n i []) h' L) as (F1 & F2 & _); [left; eauto|exists fuel; exact E|].
    apply (ordered_change h h' n W A W' A' O Nf); [| |assumption|assumption].
    + intros x Ex. split; [|rewrite Sh; destruct (Nat.eq_dec n x); [congruence|reflexivity]].
      destruct (add_inv _ _ _ _ _ E) as (m & Am' & ->). assert (n = m) as <- by (inversion Am'; reflexivity).
      unfold push, wipe, forget. rewrite !node_set_other by congruence. reflexivity.
    + intros _. unfold is_end. rewrite (add_sons _ _ _ _ _ E). assumption.
  - assert (L : (n < length (nodes h))%nat) by (apply X; left; reflexivity).
    destruct (remove_shown h n [] h' E) as (m & Am & Sh).
    assert (n = m) as <- by (inversion Am; reflexivity).
    destruct (changed_clear h n (Remove n []) h' L) as (F1 & F2 & _); [right; left; eauto|exists fuel; exact E|].
    apply (ordered_change h h' n W A W' A' O Nf); [| |assumption|assumption].
    + intros x Ex. split; [|rewrite Sh; destruct (Nat.eq_dec n x); [congruence|reflexivity]].
      destruct (remove_inv _ _ _ _ E) as (m & Am' & ->). assert (n = m) as <- by (inversion Am'; reflexivity).
      unfold wipe, forget. rewrite !node_set_other by congruence. reflexivity.
    + intros _. unfold is_end. rewrite (remove_sons _ _ _ _ E). assumption.
  - injection E as <-. apply (hash_step h n O W); [apply X; left; reflexivity|assumption].
  - injection E as <-. apply (hash_step h n O W); [apply X; left; reflexivity|assumption].
  - injection E as <-. apply (hash_of_step h n O W); [apply X; left; reflexivity|assumption].
  - injection E as <-. change (ordered (fst (equal_iv h n m))). clear I' W' A'.
    destruct (hash_of_step h n O W) as (O1 & S1 & B1); [apply X; left; reflexivity|assumption|].
    pose proof (wf_hash_of h n W) as W1.
    unfold equal_iv. destruct (hash_of h n) as [h1 a]. simpl in O1, S1, B1, W1.
    destruct (hash_of_step h1 m O1 W1) as (O2 & _).
    + rewrite (sh_len _ _ S1). apply X. right; left; reflexivity.
    + rewrite B1. unfold is_end. rewrite (sh_sons _ _ S1). assumption.
    + destruct (hash_of h1 m) as [h2 b]. exact O2.
Qed.

Lemma in_order_ordered : forall h, in_order h -> ordered h.
Proof.
  induction 1 as [|h c h' I IH X Y D]; [|eapply ordered_step; eassumption].
  assert (N : forall n, node (Heap [] [] 0) n = empty_iv) by (intros n; apply node_out; simpl; lia).
  constructor.
  - intros n B. rewrite N in B. discriminate.
  - intros n l _. rewrite N. split; discriminate.
  - intros n _ Q. exfalso. apply Q. unfold is_end. rewrite N. reflexivity.
Qed.

(* In such a program every build gives the right lists and the right hash. *)
Lemma in_order_build : forall h n r, in_order h -> (n < length (nodes h))%nat ->
  exists l h', content h n l /\ does h (Build n r) h' /\ shown h' n = l /\ content h' n l
    /\ snd (hash_of h' n) = proper_hash l.
Proof.
  intros h n r I L. pose proof (in_order_reached h I) as R. pose proof (reached_wf h R) as W.
  pose proof (in_order_ordered h I) as O. pose proof (in_order_acyclic h I) as A.
  destruct (acc_content h n (acyclic_acc h W A n)) as [l C].
  destruct (build_ok r h n (acyclic_acc h W A n) h (shape_refl h) W L) as (g & h' & E & B).
  { intros _ m _ Bm. apply (od_right h O). assumption. }
  assert (S : shape h h') by apply B.
  assert (Q : shown h' n = l) by (eapply content_fun; [apply (bb_right _ _ _ _ _ B)|assumption]).
  exists l, h'. split; [assumption|]. split; [exists g; exact E|]. split; [assumption|].
  split; [apply (content_shape h h' S); assumption|].
  apply hash_of_proper; [rewrite (sh_len _ _ S); assumption|apply B|assumption|].
  apply (bb_kept _ _ _ _ _ B n l C). apply (od_kept h O). assumption.
Qed.

(* Comparing two finished objects compares the hashes of their entries. *)
Lemma in_order_equal : forall h n m ln lm, in_order h -> (n < length (nodes h))%nat -> (m < length (nodes h))%nat ->
  (iv_built (node h n) = true \/ is_end h n) -> (iv_built (node h m) = true \/ is_end h m) ->
  content h n ln -> content h m lm -> snd (equal_iv h n m) = (proper_hash ln =? proper_hash lm).
Proof.
  intros h n m ln lm I L1 L2 Q1 Q2 C1 C2.
  pose proof (in_order_reached h I) as R. pose proof (reached_wf h R) as W. pose proof (in_order_ordered h I) as O.
  assert (S1 : shown h n = ln).
  { destruct Q1 as [Q|Q]; [eapply content_fun; [apply (od_right h O); exact Q|exact C1]|].
    symmetry. apply content_of_end; assumption. }
  pose proof (hash_of_proper h n ln L1 W S1 (od_kept h O n ln C1)) as P1.
  destruct (hash_of_step h n O W L1 Q1) as (O1 & Sh & B1). pose proof (wf_hash_of h n W) as W1.
  unfold equal_iv. destruct (hash_of h n) as [h1 a] eqn:E. cbn [fst snd] in P1, O1, Sh, B1, W1.
  assert (C2' : content h1 m lm) by (apply (content_shape h h1 Sh); assumption).
  assert (S2 : shown h1 m = lm).
  { destruct Q2 as [Q|Q].
    - eapply content_fun; [|exact C2']. apply (od_right h1 O1). rewrite B1. assumption.
    - symmetry. apply content_of_end; [unfold is_end; rewrite (sh_sons _ _ Sh)|]; assumption. }
  assert (L2' : (m < length (nodes h1))%nat) by (rewrite (sh_len _ _ Sh); assumption).
  pose proof (hash_of_proper h1 m lm L2' W1 S2 (od_kept h1 O1 m lm C2')) as P2.
  destruct (hash_of h1 m) as [h2 b]. cbn [fst snd] in P2 |- *. rewrite P1, P2. reflexivity.
Qed.
