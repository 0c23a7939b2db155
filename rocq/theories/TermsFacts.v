(* Facts about sorted component sequences and the set operations on them. *)
From Coq Require Import ZArith List Bool Lia Sorting Permutation.
From Verif Require Import Base Hash Enums Term TermSpec TermFacts Terms.
Import ListNotations.
Local Open Scope Z_scope.

Definition hlt (x y : term) : Prop := thash x < thash y.
Definition sorted (l : list term) : Prop := StronglySorted hlt l.
Definition vf (t : term) : Prop := has_var t = false.

(* A class of variable-free terms on which the hash is injective. *)
Definition faithful (U : term -> Prop) : Prop :=
  (forall x, U x -> vf x) /\ (forall x y, U x -> U y -> thash x = thash y -> x = y).

Lemma vf_iff t : vf t <-> var_free t.
Proof. unfold vf. symmetry. apply var_free_has_var. Qed.

Lemma tlt_vf x y : vf x -> vf y -> tlt x y = (thash x <? thash y).
Proof. apply tlt_var_free. Qed.

(* ---- insertion ---- *)
Lemma sinsert_in z x s : In z (sinsert x s) -> z = x \/ In z s.
Proof.
  induction s as [|y s IH]; simpl; [intuition congruence|].
  destruct (tlt x y); [simpl; intuition congruence|].
  destruct (tlt y x); simpl; intuition congruence.
Qed.

Lemma sinsert_keep z x s : In z s -> In z (sinsert x s).
Proof.
  induction s as [|y s IH]; simpl; [intros []|].
  destruct (tlt x y); [simpl; tauto|].
  destruct (tlt y x); simpl; tauto.
Qed.

Lemma sinsert_hash x s : vf x -> Forall vf s -> exists z, In z (sinsert x s) /\ thash z = thash x.
Proof.
  intros Hx Hs. induction Hs as [|y s Hy Hs IH]; simpl; [exists x; simpl; tauto|].
  rewrite !tlt_vf by assumption.
  destruct (Z.ltb_spec (thash x) (thash y)); [exists x; simpl; tauto|].
  destruct (Z.ltb_spec (thash y) (thash x)).
  - destruct IH as [z [Hin E]]. exists z; simpl; tauto.
  - exists y; simpl; split; [tauto | lia].
Qed.

Lemma sinsert_forall (P : term -> Prop) x s : P x -> Forall P s -> Forall P (sinsert x s).
Proof.
  intros Hx Hs. apply Forall_forall. intros z Hz. apply sinsert_in in Hz.
  destruct Hz as [->|Hz]; [exact Hx | eapply Forall_In; eassumption].
Qed.

Lemma sinsert_sorted x s : vf x -> Forall vf s -> sorted s -> sorted (sinsert x s).
Proof.
  intros Hx Hs Ss. induction Ss as [|y s Ss IH Hy]; simpl; [repeat constructor|].
  inversion Hs as [|? ? Hvy Hvs]; subst.
  rewrite !tlt_vf by assumption.
  destruct (Z.ltb_spec (thash x) (thash y)).
  - constructor; [constructor; assumption|]. constructor; [exact H|].
    eapply Forall_impl; [| exact Hy]. unfold hlt; intros; lia.
  - destruct (Z.ltb_spec (thash y) (thash x)).
    + constructor; [apply IH; assumption|]. apply sinsert_forall; [exact H0 | exact Hy].
    + constructor; assumption.
Qed.

(* ---- terms_set ---- *)
Lemma fold_sinsert_in l : forall s z,
  In z (fold_left (fun s x => sinsert x s) l s) -> In z s \/ In z l.
Proof.
  induction l as [|x l IH]; simpl; intros s z H; [tauto|].
  apply IH in H. destruct H as [H|H]; [|tauto].
  apply sinsert_in in H. intuition congruence.
Qed.

Lemma terms_set_in l z : In z (terms_set l) -> In z l.
Proof. intro H. apply fold_sinsert_in in H. destruct H as [[]|H]; exact H. Qed.

Lemma fold_sinsert_keep l : forall s z,
  In z s -> In z (fold_left (fun s x => sinsert x s) l s).
Proof. induction l as [|x l IH]; simpl; intros s z H; [exact H|]. apply IH, sinsert_keep, H. Qed.

Lemma fold_sinsert_sorted l : forall s,
  Forall vf l -> Forall vf s -> sorted s ->
  sorted (fold_left (fun s x => sinsert x s) l s).
Proof.
  induction l as [|x l IH]; simpl; intros s Hl Hs Ss; [exact Ss|].
  inversion Hl; subst. apply IH; [assumption | apply sinsert_forall; assumption
                                  | apply sinsert_sorted; assumption].
Qed.

Lemma terms_set_sorted l : Forall vf l -> sorted (terms_set l).
Proof. intro H. apply fold_sinsert_sorted; [exact H | constructor | constructor]. Qed.

Lemma terms_set_forall (P : term -> Prop) l : Forall P l -> Forall P (terms_set l).
Proof.
  intro H. apply Forall_forall. intros x Hx. apply terms_set_in in Hx.
  eapply Forall_In; eassumption.
Qed.

Lemma fold_sinsert_hash l : forall s x,
  Forall vf l -> Forall vf s -> In x l ->
  exists z, In z (fold_left (fun s x => sinsert x s) l s) /\ thash z = thash x.
Proof.
  induction l as [|y l IH]; simpl; intros s x Hl Hs Hin; [destruct Hin|].
  inversion Hl; subst. destruct Hin as [->|Hin].
  - destruct (sinsert_hash x s) as [z [Hz E]]; try assumption.
    exists z; split; [apply fold_sinsert_keep; exact Hz | exact E].
  - apply IH; [assumption | apply sinsert_forall; assumption | exact Hin].
Qed.

Lemma terms_set_hash l x : Forall vf l -> In x l ->
  exists z, In z (terms_set l) /\ thash z = thash x.
Proof. intros Hl Hin. apply fold_sinsert_hash; [exact Hl | constructor | exact Hin]. Qed.

Lemma terms_set_iff U l x :
  faithful U -> Forall U l -> In x (terms_set l) <-> In x l.
Proof.
  intros [V I] H. split; [apply terms_set_in|]. intro Hin.
  assert (Hv : Forall vf l) by (eapply Forall_impl; [exact V | exact H]).
  destruct (terms_set_hash l x Hv Hin) as [z [Hz E]].
  assert (z = x); [| subst; exact Hz].
  apply I; [| | exact E]; eapply Forall_In; try eassumption. apply terms_set_in; exact Hz.
Qed.

(* ---- uniqueness of sorted sequences ---- *)
Lemma sorted_unique l1 : forall l2,
  sorted l1 -> sorted l2 -> (forall x, In x l1 <-> In x l2) -> l1 = l2.
Proof.
  induction l1 as [|x l1 IH]; intros l2 S1 S2 H.
  - destruct l2 as [|y l2]; [reflexivity|]. exfalso. apply (H y). left; reflexivity.
  - destruct l2 as [|y l2]; [exfalso; apply (H x); left; reflexivity|].
    inversion S1 as [|? ? S1' F1]; subst. inversion S2 as [|? ? S2' F2]; subst.
    rewrite Forall_forall in F1, F2. unfold hlt in F1, F2.
    assert (E : x = y).
    { assert (Hx : In x (y :: l2)) by (apply H; left; reflexivity).
      assert (Hy : In y (x :: l1)) by (apply H; left; reflexivity).
      destruct Hx as [Hx|Hx]; [symmetry; exact Hx|].
      destruct Hy as [Hy|Hy]; [exact Hy|].
      apply F1 in Hy. apply F2 in Hx. lia. }
    subst y. f_equal. apply IH; [assumption | assumption|].
    intro z. specialize (H z). simpl in H. split; intro Hz.
    + destruct H as [H _]. destruct (H (or_intror Hz)) as [E|E]; [|exact E].
      subst z. apply F1 in Hz. lia.
    + destruct H as [_ H]. destruct (H (or_intror Hz)) as [E|E]; [|exact E].
      subst z. apply F2 in Hz. lia.
Qed.

Lemma terms_set_ext U l1 l2 :
  faithful U -> Forall U l1 -> Forall U l2 -> (forall x, In x l1 <-> In x l2) ->
  terms_set l1 = terms_set l2.
Proof.
  intros F H1 H2 E.
  assert (V : forall l, Forall U l -> Forall vf l)
    by (intros l H; eapply Forall_impl; [apply F | exact H]).
  apply sorted_unique; try (apply terms_set_sorted, V; assumption).
  intro x. rewrite (terms_set_iff U) by assumption. rewrite (terms_set_iff U l2) by assumption.
  apply E.
Qed.

Lemma sinsert_last l x : sorted (l ++ [x]) -> Forall vf (l ++ [x]) -> sinsert x l = l ++ [x].
Proof.
  induction l as [|y l IH]; simpl; intros S V; [reflexivity|].
  inversion S as [|? ? S' F]; subst. inversion V; subst.
  assert (Hx : In x (l ++ [x])) by (apply in_or_app; right; left; reflexivity).
  rewrite Forall_forall in F. pose proof (F x Hx) as Hlt. unfold hlt in Hlt.
  assert (Vx : vf x) by (eapply Forall_In; eassumption).
  rewrite !tlt_vf by assumption.
  destruct (Z.ltb_spec (thash x) (thash y)); [lia|].
  destruct (Z.ltb_spec (thash y) (thash x)); [|lia].
  f_equal. apply IH; assumption.
Qed.

Lemma terms_set_id l : sorted l -> Forall vf l -> terms_set l = l.
Proof.
  intros S V. induction l as [|x l IH] using rev_ind; [reflexivity|].
  unfold terms_set in *. rewrite fold_left_app. simpl.
  assert (S' : sorted l).
  { clear - S. induction l as [|y l IH]; [constructor|]. simpl in S.
    inversion S as [|? ? S' F]; subst. constructor; [apply IH; exact S'|].
    rewrite Forall_app in F. apply F. }
  rewrite Forall_app in V. rewrite IH by tauto. apply sinsert_last; [exact S|].
  rewrite Forall_app; exact V.
Qed.

Lemma sorted_nodup l : sorted l -> NoDup l.
Proof.
  induction 1 as [|x l S IH F]; constructor; [|exact IH].
  intro Hin. rewrite Forall_forall in F. apply F in Hin. unfold hlt in Hin. lia.
Qed.

(* ---- set operations ---- *)
Lemma set_union_nil_l l : set_union [] l = l.
Proof. destruct l; reflexivity. Qed.
Lemma set_union_nil_r l : set_union l [] = l.
Proof. destruct l; reflexivity. Qed.
Lemma set_union_cons x l1 y l2 :
  set_union (x :: l1) (y :: l2) =
    if tlt x y then x :: set_union l1 (y :: l2)
    else if tlt y x then y :: set_union (x :: l1) l2
    else x :: set_union l1 l2.
Proof. reflexivity. Qed.
Lemma set_inter_nil_l l : set_intersection [] l = [].
Proof. destruct l; reflexivity. Qed.
Lemma set_inter_nil_r l : set_intersection l [] = [].
Proof. destruct l; reflexivity. Qed.
Lemma set_inter_cons x l1 y l2 :
  set_intersection (x :: l1) (y :: l2) =
    if tlt x y then set_intersection l1 (y :: l2)
    else if tlt y x then set_intersection (x :: l1) l2
    else x :: set_intersection l1 l2.
Proof. reflexivity. Qed.
Lemma set_diff_nil_l l : set_difference [] l = [].
Proof. destruct l; reflexivity. Qed.
Lemma set_diff_nil_r l : set_difference l [] = l.
Proof. destruct l; reflexivity. Qed.
Lemma set_diff_cons x l1 y l2 :
  set_difference (x :: l1) (y :: l2) =
    if tlt x y then x :: set_difference l1 (y :: l2)
    else if tlt y x then set_difference (x :: l1) l2
    else set_difference l1 l2.
Proof. reflexivity. Qed.

Arguments set_union : simpl never.
Arguments set_intersection : simpl never.
Arguments set_difference : simpl never.

Section TwoLists.
  (* Induction over two lists, dropping the head of either or both. *)
  Lemma two_lists_ind (P : list term -> list term -> Prop) :
    (forall l, P [] l) -> (forall l, P l []) ->
    (forall x l1 y l2, P l1 (y :: l2) -> P (x :: l1) l2 -> P l1 l2 -> P (x :: l1) (y :: l2)) ->
    forall l1 l2, P l1 l2.
  Proof.
    intros Hl Hr Hc. induction l1 as [|x l1 IH1]; [exact Hl|].
    induction l2 as [|y l2 IH2]; [apply Hr|]. apply Hc; [apply IH1 | exact IH2 | apply IH1].
  Qed.
End TwoLists.

Lemma set_union_sub l1 l2 z : In z (set_union l1 l2) -> In z l1 \/ In z l2.
Proof.
  revert l1 l2. apply (two_lists_ind (fun l1 l2 => In z (set_union l1 l2) -> In z l1 \/ In z l2)).
  - intro l; rewrite set_union_nil_l; tauto.
  - intro l; rewrite set_union_nil_r; tauto.
  - intros x l1 y l2 H1 H2 H3. rewrite set_union_cons.
    destruct (tlt x y); [simpl in *; intuition congruence|].
    destruct (tlt y x); simpl in *; intuition congruence.
Qed.

Lemma set_inter_sub l1 l2 z : In z (set_intersection l1 l2) -> In z l1.
Proof.
  revert l1 l2. apply (two_lists_ind (fun l1 l2 => In z (set_intersection l1 l2) -> In z l1)).
  - intro l; rewrite set_inter_nil_l; intros [].
  - intro l; rewrite set_inter_nil_r; intros [].
  - intros x l1 y l2 H1 H2 H3. rewrite set_inter_cons.
    destruct (tlt x y); [simpl in *; intuition congruence|].
    destruct (tlt y x); simpl in *; intuition congruence.
Qed.

Lemma set_diff_sub l1 l2 z : In z (set_difference l1 l2) -> In z l1.
Proof.
  revert l1 l2. apply (two_lists_ind (fun l1 l2 => In z (set_difference l1 l2) -> In z l1)).
  - intro l; rewrite set_diff_nil_l; intros [].
  - intro l; rewrite set_diff_nil_r; tauto.
  - intros x l1 y l2 H1 H2 H3. rewrite set_diff_cons.
    destruct (tlt x y); [simpl in *; intuition congruence|].
    destruct (tlt y x); simpl in *; intuition congruence.
Qed.

Lemma set_union_iff U : faithful U -> forall l1 l2, Forall U l1 -> Forall U l2 ->
  sorted l1 -> sorted l2 -> forall z, In z (set_union l1 l2) <-> In z l1 \/ In z l2.
Proof.
  intros [V I]. apply (two_lists_ind (fun l1 l2 => Forall U l1 -> Forall U l2 ->
    sorted l1 -> sorted l2 -> forall z, In z (set_union l1 l2) <-> In z l1 \/ In z l2)).
  - intros l _ _ _ _ z. rewrite set_union_nil_l. simpl; tauto.
  - intros l _ _ _ _ z. rewrite set_union_nil_r. simpl; tauto.
  - intros x l1 y l2 H1 H2 H3 U1 U2 S1 S2 z. rewrite set_union_cons.
    inversion U1; subst. inversion U2; subst. inversion S1; subst. inversion S2; subst.
    rewrite !tlt_vf by (apply V; assumption).
    destruct (Z.ltb_spec (thash x) (thash y)).
    + simpl. rewrite H1 by assumption. simpl. tauto.
    + destruct (Z.ltb_spec (thash y) (thash x)).
      * simpl. rewrite H2 by assumption. simpl. tauto.
      * assert (x = y) by (apply I; try assumption; lia). subst y.
        simpl. rewrite H3 by assumption. tauto.
Qed.

Lemma sorted_lt_notin x l : Forall (hlt x) l -> ~ In x l.
Proof. intros F Hin. eapply Forall_In in F; [| exact Hin]. unfold hlt in F. lia. Qed.

Lemma set_inter_iff U : faithful U -> forall l1 l2, Forall U l1 -> Forall U l2 ->
  sorted l1 -> sorted l2 -> forall z, In z (set_intersection l1 l2) <-> In z l1 /\ In z l2.
Proof.
  intros [V I]. apply (two_lists_ind (fun l1 l2 => Forall U l1 -> Forall U l2 ->
    sorted l1 -> sorted l2 -> forall z, In z (set_intersection l1 l2) <-> In z l1 /\ In z l2)).
  - intros l _ _ _ _ z. rewrite set_inter_nil_l. simpl; tauto.
  - intros l _ _ _ _ z. rewrite set_inter_nil_r. simpl; tauto.
  - intros x l1 y l2 H1 H2 H3 U1 U2 S1 S2 z. rewrite set_inter_cons.
    inversion U1; subst. inversion U2; subst.
    inversion S1 as [|? ? S1' F1]; subst. inversion S2 as [|? ? S2' F2]; subst.
    rewrite !tlt_vf by (apply V; assumption).
    destruct (Z.ltb_spec (thash x) (thash y)) as [L|L].
    + rewrite H1 by assumption. simpl. split; [tauto|].
      intros [[E|Hz] Hy]; [|tauto]. subst z. exfalso. destruct Hy as [E|Hy].
      * subst y. lia.
      * eapply Forall_In in F2; [| exact Hy]. unfold hlt in F2. lia.
    + destruct (Z.ltb_spec (thash y) (thash x)) as [M|M].
      * rewrite H2 by assumption. simpl. split; [tauto|].
        intros [Hz [E|Hy]]; [|tauto]. subst z. exfalso. destruct Hz as [E|Hz].
        -- subst y. lia.
        -- eapply Forall_In in F1; [| exact Hz]. unfold hlt in F1. lia.
      * assert (x = y) by (apply I; try assumption; lia). subst y.
        simpl. rewrite H3 by assumption. split; [tauto|].
        intros [[E|Hz] [E'|Hy]]; tauto.
Qed.

Lemma set_diff_iff U : faithful U -> forall l1 l2, Forall U l1 -> Forall U l2 ->
  sorted l1 -> sorted l2 -> forall z, In z (set_difference l1 l2) <-> In z l1 /\ ~ In z l2.
Proof.
  intros [V I]. apply (two_lists_ind (fun l1 l2 => Forall U l1 -> Forall U l2 ->
    sorted l1 -> sorted l2 -> forall z, In z (set_difference l1 l2) <-> In z l1 /\ ~ In z l2)).
  - intros l _ _ _ _ z. rewrite set_diff_nil_l. simpl; tauto.
  - intros l _ _ _ _ z. rewrite set_diff_nil_r. simpl; tauto.
  - intros x l1 y l2 H1 H2 H3 U1 U2 S1 S2 z. rewrite set_diff_cons.
    inversion U1; subst. inversion U2; subst.
    inversion S1 as [|? ? S1' F1]; subst. inversion S2 as [|? ? S2' F2]; subst.
    rewrite !tlt_vf by (apply V; assumption).
    destruct (Z.ltb_spec (thash x) (thash y)) as [L|L].
    + simpl. rewrite H1 by assumption. simpl.
      assert (Hx : ~ In x (y :: l2)).
      { intros [E|Hy]; [subst y; lia|]. eapply Forall_In in F2; [| exact Hy]. unfold hlt in F2. lia. }
      simpl in Hx. split; [| tauto]. intros [E|Hz]; [subst z; tauto | tauto].
    + destruct (Z.ltb_spec (thash y) (thash x)) as [M|M].
      * rewrite H2 by assumption. simpl.
        assert (Hy : ~ In y (x :: l1)).
        { intros [E|Hz]; [subst y; lia|]. eapply Forall_In in F1; [| exact Hz]. unfold hlt in F1. lia. }
        simpl in Hy. split; [| tauto]. intros [Hz Hn]. split; [exact Hz|].
        intros [E|Hz2]; [subst z; tauto | tauto].
      * assert (x = y) by (apply I; try assumption; lia). subst y.
        rewrite H3 by assumption. simpl. pose proof (sorted_lt_notin _ _ F1) as Nx.
        split; [intros [Hz Hn]; split; [tauto|]; intros [E|E]; [subst z|]; tauto | tauto].
Qed.

(* ---- the three static operations ---- *)
Definition op_sub (op : list term -> list term -> list term) : Prop :=
  forall l1 l2 z, In z (op l1 l2) -> In z l1 \/ In z l2.
Lemma union_op_sub : op_sub set_union.
Proof. intros l1 l2 z; apply set_union_sub. Qed.
Lemma inter_op_sub : op_sub set_intersection.
Proof. intros l1 l2 z H; left; eapply set_inter_sub; exact H. Qed.
Lemma diff_op_sub : op_sub set_difference.
Proof. intros l1 l2 z H; left; eapply set_diff_sub; exact H. Qed.

Lemma fold_terms_forall (P : term -> Prop) op : op_sub op -> forall rest acc s,
  Forall P acc -> Forall (fun t => Forall P (t_elems t)) rest ->
  fold_terms op acc rest = Ok s -> Forall P s.
Proof.
  intro Hop. induction rest as [|t rest IH]; simpl; intros acc s Ha Hr E.
  - injection E as <-. exact Ha.
  - destruct (t_comm t); [| discriminate E]. inversion Hr; subst.
    eapply IH; [| eassumption | exact E]. apply terms_set_forall.
    apply Forall_forall. intros z Hz. apply Hop in Hz.
    destruct Hz as [Hz|Hz]; (eapply Forall_In; [| eassumption]; assumption).
Qed.

Lemma terms_op_forall (P : term -> Prop) op all s : op_sub op ->
  Forall (fun t => Forall P (t_elems t)) all -> terms_op op all = Ok s -> Forall P s.
Proof.
  intros Hop H E. destruct all as [|t rest]; [discriminate E|]. simpl in E.
  destruct (fold_terms op (terms_unordered t) rest) as [s'| | |] eqn:F; try discriminate E.
  injection E as <-. apply terms_set_forall. inversion H; subst.
  eapply fold_terms_forall; [exact Hop | | eassumption | exact F].
  unfold terms_unordered. destruct (t_comm t); [assumption | constructor].
Qed.

Lemma terms_op_sorted op all s :
  op_sub op -> Forall (fun t => Forall vf (t_elems t)) all -> terms_op op all = Ok s -> sorted s.
Proof.
  intros Hop H E. destruct all as [|t rest]; [discriminate E|]. simpl in E.
  destruct (fold_terms op (terms_unordered t) rest) as [s'| | |] eqn:F; try discriminate E.
  injection E as <-. apply terms_set_sorted. inversion H; subst.
  eapply fold_terms_forall; [exact Hop | | eassumption | exact F].
  unfold terms_unordered. destruct (t_comm t); [assumption | constructor].
Qed.

(* Error behaviour of the three operations: an error exactly when there is no
   operand or an operand after the first is not commutative. *)
Lemma fold_terms_ok op : forall rest acc,
  (exists s, fold_terms op acc rest = Ok s) <-> Forall (fun t => t_comm t = true) rest.
Proof.
  induction rest as [|t rest IH]; simpl; intro acc.
  - split; [constructor | intros _; exists acc; reflexivity].
  - destruct (t_comm t) eqn:C.
    + rewrite IH. split; [intro H; constructor; assumption | intro H; inversion H; assumption].
    + split; [intros [s H]; discriminate H | intro H; inversion H; congruence].
Qed.

Lemma fold_terms_cases op : forall rest acc,
  (exists s, fold_terms op acc rest = Ok s) \/ fold_terms op acc rest = Throw.
Proof.
  induction rest as [|t rest IH]; simpl; intro acc; [left; exists acc; reflexivity|].
  destruct (t_comm t); [apply IH | right; reflexivity].
Qed.

Lemma terms_op_ok op all :
  (exists s, terms_op op all = Ok s) <->
  (exists t rest, all = t :: rest /\ Forall (fun t => t_comm t = true) rest).
Proof.
  destruct all as [|t rest]; simpl.
  - split; [intros [s H]; discriminate H | intros (t & r & H & _); discriminate H].
  - split.
    + intros [s H]. exists t, rest. split; [reflexivity|].
      apply (fold_terms_ok op rest (terms_unordered t)).
      destruct (fold_terms op (terms_unordered t) rest); try discriminate H. eexists; reflexivity.
    + intros (t' & r' & E & H). injection E as <- <-.
      apply (fold_terms_ok op rest (terms_unordered t)) in H. destruct H as [s ->].
      eexists; reflexivity.
Qed.

Lemma terms_op_throw op all : (forall s, terms_op op all <> Ok s) -> terms_op op all = Throw.
Proof.
  destruct all as [|t rest]; simpl; intro H; [reflexivity|].
  destruct (fold_terms_cases op rest (terms_unordered t)) as [[s E]|E].
  - rewrite E in H. exfalso. eapply H. reflexivity.
  - rewrite E. reflexivity.
Qed.

Section FoldOps.
  Variable U : term -> Prop.
  Hypothesis F : faithful U.
  Let ok (t : terms) : Prop := Forall U (t_elems t) /\ sorted (t_elems t).

  Lemma U_vf l : Forall U l -> Forall vf l.
  Proof. intro H; eapply Forall_impl; [apply F | exact H]. Qed.

  Lemma fold_terms_inv op (R : list term -> list term -> term -> Prop) :
    op_sub op ->
    (forall l1 l2, Forall U l1 -> Forall U l2 -> sorted l1 -> sorted l2 ->
       forall z, In z (op l1 l2) <-> R l1 l2 z) ->
    forall rest acc, Forall U acc -> sorted acc ->
      Forall (fun t => t_comm t = true) rest -> Forall ok rest ->
      exists s, fold_terms op acc rest = Ok s /\ sorted s /\ Forall U s.
  Proof.
    intros Hop Hiff. induction rest as [|t rest IH]; simpl; intros acc Ua Sa Hc Hr.
    - exists acc; auto.
    - inversion Hc; subst. inversion Hr; subst. rewrite H1. destruct H3 as [Ut St].
      assert (Uop : Forall U (op acc (t_elems t))).
      { apply Forall_forall. intros z Hz. apply Hop in Hz.
        destruct Hz; (eapply Forall_In; [| eassumption]; assumption). }
      apply IH; [apply terms_set_forall; exact Uop | apply terms_set_sorted, U_vf, Uop
                | assumption | assumption].
  Qed.

  Lemma fold_union rest : forall acc, Forall U acc -> sorted acc ->
    Forall (fun t => t_comm t = true) rest -> Forall ok rest ->
    exists s, fold_terms set_union acc rest = Ok s /\ sorted s /\ Forall U s /\
      forall z, In z s <-> In z acc \/ exists t, In t rest /\ In z (t_elems t).
  Proof.
    induction rest as [|t rest IH]; simpl; intros acc Ua Sa Hc Hr.
    - exists acc. split; [reflexivity|]. split; [exact Sa|]. split; [exact Ua|]. intro z. split; [tauto|].
      intros [H|[t [[] _]]]. exact H.
    - inversion Hc; subst. inversion Hr; subst. rewrite H1. destruct H3 as [Ut St].
      assert (Uop : Forall U (set_union acc (t_elems t))).
      { apply Forall_forall. intros z Hz. apply set_union_sub in Hz.
        destruct Hz; (eapply Forall_In; [| eassumption]; assumption). }
      destruct (IH (terms_set (set_union acc (t_elems t)))) as (s & E & Ss & Us & Hs);
        try assumption; [apply terms_set_forall; exact Uop | apply terms_set_sorted, U_vf, Uop |].
      exists s. repeat (split; [assumption|]). intro z. rewrite Hs.
      rewrite (terms_set_iff U) by assumption. rewrite (set_union_iff U) by assumption.
      split.
      + intros [[H|H]|[t' [Hin H]]]; [tauto | right; exists t; tauto | right; exists t'; tauto].
      + intros [H|[t' [[<-|Hin] H]]]; [tauto | tauto | right; exists t'; tauto].
  Qed.

  Lemma fold_inter rest : forall acc, Forall U acc -> sorted acc ->
    Forall (fun t => t_comm t = true) rest -> Forall ok rest ->
    exists s, fold_terms set_intersection acc rest = Ok s /\ sorted s /\ Forall U s /\
      forall z, In z s <-> In z acc /\ forall t, In t rest -> In z (t_elems t).
  Proof.
    induction rest as [|t rest IH]; simpl; intros acc Ua Sa Hc Hr.
    - exists acc. split; [reflexivity|]. split; [exact Sa|]. split; [exact Ua|]. intro z. split; [|tauto].
      intro H; split; [exact H | intros t []].
    - inversion Hc; subst. inversion Hr; subst. rewrite H1. destruct H3 as [Ut St].
      assert (Uop : Forall U (set_intersection acc (t_elems t))).
      { apply Forall_forall. intros z Hz. apply set_inter_sub in Hz.
        (eapply Forall_In; [| eassumption]; assumption). }
      destruct (IH (terms_set (set_intersection acc (t_elems t)))) as (s & E & Ss & Us & Hs);
        try assumption; [apply terms_set_forall; exact Uop | apply terms_set_sorted, U_vf, Uop |].
      exists s. repeat (split; [assumption|]). intro z. rewrite Hs.
      rewrite (terms_set_iff U) by assumption. rewrite (set_inter_iff U) by assumption.
      split.
      + intros [[H H'] Hall]. split; [exact H|]. intros t' [<-|Hin]; [exact H' | auto].
      + intros [H Hall]. repeat split; auto.
  Qed.

  Lemma fold_diff rest : forall acc, Forall U acc -> sorted acc ->
    Forall (fun t => t_comm t = true) rest -> Forall ok rest ->
    exists s, fold_terms set_difference acc rest = Ok s /\ sorted s /\ Forall U s /\
      forall z, In z s <-> In z acc /\ forall t, In t rest -> ~ In z (t_elems t).
  Proof.
    induction rest as [|t rest IH]; simpl; intros acc Ua Sa Hc Hr.
    - exists acc. split; [reflexivity|]. split; [exact Sa|]. split; [exact Ua|]. intro z. split; [|tauto].
      intro H; split; [exact H | intros t []].
    - inversion Hc; subst. inversion Hr; subst. rewrite H1. destruct H3 as [Ut St].
      assert (Uop : Forall U (set_difference acc (t_elems t))).
      { apply Forall_forall. intros z Hz. apply set_diff_sub in Hz.
        (eapply Forall_In; [| eassumption]; assumption). }
      destruct (IH (terms_set (set_difference acc (t_elems t)))) as (s & E & Ss & Us & Hs);
        try assumption; [apply terms_set_forall; exact Uop | apply terms_set_sorted, U_vf, Uop |].
      exists s. repeat (split; [assumption|]). intro z. rewrite Hs.
      rewrite (terms_set_iff U) by assumption. rewrite (set_diff_iff U) by assumption.
      split.
      + intros [[H H'] Hall]. split; [exact H|]. intros t' [<-|Hin]; [exact H' | auto].
      + intros [H Hall]. repeat split; auto.
  Qed.

  (* The three operations on commutative operands whose elements are in U. *)
  Lemma terms_union_spec t rest : t_comm t = true ->
    Forall (fun t => t_comm t = true) rest -> ok t -> Forall ok rest ->
    exists s, terms_union (t :: rest) = Ok s /\ sorted s /\ Forall U s /\
      forall z, In z s <-> exists u, In u (t :: rest) /\ In z (t_elems u).
  Proof.
    intros Hc Hcr [Ut St] Hr. unfold terms_union, terms_op, terms_unordered. rewrite Hc.
    destruct (fold_union rest (t_elems t)) as (s & -> & Ss & Us & Hs); try assumption.
    exists s. cbn [bind]. rewrite (terms_set_id s Ss (U_vf _ Us)).
    split; [reflexivity|]. split; [exact Ss|]. split; [exact Us|]. intro z. rewrite Hs. split.
    - intros [H|[u [Hin H]]]; [exists t; simpl; tauto | exists u; simpl; tauto].
    - intros [u [[<-|Hin] H]]; [tauto | right; exists u; tauto].
  Qed.

  Lemma terms_intersection_spec t rest : t_comm t = true ->
    Forall (fun t => t_comm t = true) rest -> ok t -> Forall ok rest ->
    exists s, terms_intersection (t :: rest) = Ok s /\ sorted s /\ Forall U s /\
      forall z, In z s <-> forall u, In u (t :: rest) -> In z (t_elems u).
  Proof.
    intros Hc Hcr [Ut St] Hr. unfold terms_intersection, terms_op, terms_unordered. rewrite Hc.
    destruct (fold_inter rest (t_elems t)) as (s & -> & Ss & Us & Hs); try assumption.
    exists s. cbn [bind]. rewrite (terms_set_id s Ss (U_vf _ Us)).
    split; [reflexivity|]. split; [exact Ss|]. split; [exact Us|]. intro z. rewrite Hs. split.
    - intros [H Hall] u [<-|Hin]; [exact H | auto].
    - intro H. split; [apply H; left; reflexivity | intros u Hin; apply H; right; exact Hin].
  Qed.

  Lemma terms_difference_spec t rest : t_comm t = true ->
    Forall (fun t => t_comm t = true) rest -> ok t -> Forall ok rest ->
    exists s, terms_difference (t :: rest) = Ok s /\ sorted s /\ Forall U s /\
      forall z, In z s <-> In z (t_elems t) /\ forall u, In u rest -> ~ In z (t_elems u).
  Proof.
    intros Hc Hcr [Ut St] Hr. unfold terms_difference, terms_op, terms_unordered. rewrite Hc.
    destruct (fold_diff rest (t_elems t)) as (s & -> & Ss & Us & Hs); try assumption.
    exists s. cbn [bind]. rewrite (terms_set_id s Ss (U_vf _ Us)).
    split; [reflexivity|]. split; [exact Ss|]. split; [exact Us|]. exact Hs.
  Qed.
End FoldOps.
