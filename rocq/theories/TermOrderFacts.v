(* The order of terms that contain variables: where it fails and where it
   does not. *)
From Coq Require Import ZArith List Bool Lia.
From Verif Require Import Base Hash Enums Term TermSpec TermFacts TermOrderSpec.
Import ListNotations.
Local Open Scope Z_scope.

Lemma renaming_has_var t1 : forall t2, renaming t1 t2 -> has_var t1 = has_var t2.
Proof.
  induction t1 as [op a|k i|n|c s p IHs IHp|c l IHl] using term_ind';
    intros t2 H; inversion H; subst; try reflexivity.
  - cbn [has_var existsb].
    match goal with
    | Hs : renaming s _, Hp : renaming p _ |- _ => rewrite (IHs _ Hs), (IHp _ Hp)
    end. reflexivity.
  - cbn [has_var]. f_equal.
    match goal with HF : Forall2 renaming l _ |- _ => revert HF end.
    clear H. revert l'. induction IHl as [|x l Hx Hl IH]; intros l' HF; inversion HF; subst.
    + reflexivity.
    + cbn [map]. f_equal; [apply Hx; assumption | apply IH; assumption].
Qed.

Lemma renaming_var_free_below t1 : forall t2,
  renaming t1 t2 -> has_var t1 = false -> below t2 t1.
Proof.
  induction t1 as [op a|k i|n|c s p IHs IHp|c l IHl] using term_ind';
    intros t2 H V; inversion H; subst; try constructor; try discriminate V.
  - apply IHs; [assumption|]. cbn [has_var existsb] in V.
    destruct (has_var s); [discriminate V | reflexivity].
  - apply IHp; [assumption|]. cbn [has_var existsb] in V.
    destruct (has_var s), (has_var p); try discriminate V; reflexivity.
  - cbn [has_var] in V.
    match goal with HF : Forall2 renaming l _ |- _ => revert HF end.
    clear H. revert l'. induction IHl as [|x l Hx Hl IH]; intros l' HF; inversion HF; subst.
    + constructor.
    + cbn [map existsb] in V. apply orb_false_iff in V. destruct V as [V1 V2].
      constructor; [apply Hx; assumption | apply IH; assumption].
Qed.

(* The loop of operator< over components. *)
Fixpoint any_lt (l1 l2 : list term) : bool :=
  match l1, l2 with
  | x :: l1', y :: l2' => if tlt x y then true else any_lt l1' l2'
  | _, _ => false
  end.
Lemma tlt_comp c l1 l2 :
  thash (Comp c l1) = thash (Comp c l2) -> length l1 = length l2 ->
  has_var (Comp c l1) = true -> has_var (Comp c l2) = true ->
  tlt (Comp c l1) (Comp c l2) = any_lt l1 l2.
Proof.
  intros H L V1 V2. apply Z.eqb_eq in H. cbn [tlt]. rewrite H, V1, V2.
  cbn [negb ttype Z.eqb]. rewrite L, Z.eqb_refl, con_eqb_refl. cbn [negb]. clear. revert l2. induction l1 as [|x l1 IH]; intros [|y l2]; try reflexivity.
Qed.
Lemma tlt_stmt c s1 p1 s2 p2 :
  thash (Stmt c s1 p1) = thash (Stmt c s2 p2) ->
  has_var (Stmt c s1 p1) = true -> has_var (Stmt c s2 p2) = true ->
  tlt (Stmt c s1 p1) (Stmt c s2 p2) = tlt s1 s2 || tlt p1 p2.
Proof.
  intros H V1 V2. apply Z.eqb_eq in H. cbn [tlt]. rewrite H, V1, V2.
  cbn [negb ttype]. rewrite Z.eqb_refl, (Z.ltb_irrefl (cop_code c)). cbn [negb].
  destruct (tlt s1 s2), (tlt p1 p2); reflexivity.
Qed.

(* Between terms that differ in variable indices only, [a < b] says exactly
   that somewhere an index of a is below that of b. *)
Lemma renaming_not_less t1 : forall t2,
  renaming t1 t2 -> tlt t1 t2 = false <-> below t2 t1.
Proof.
  induction t1 as [op a|k i|n|c s p IHs IHp|c l IHl] using term_ind'; intros t2 H.
  - inversion H; subst. split; intros _; [constructor|].
    rewrite tlt_var_free by reflexivity. apply Z.ltb_irrefl.
  - inversion H; subst.
    assert (E : tlt (Var k i) (Var k j) = (i <? j)).
    { cbn [tlt thash has_var ttype atom_lt]. rewrite Z.eqb_refl, vk_eqb_refl. reflexivity. }
    rewrite E, Z.ltb_ge. split; [intro; constructor; assumption | intro B; inversion B; assumption].
  - inversion H; subst. split; intros _; [constructor|].
    rewrite tlt_var_free by reflexivity. apply Z.ltb_irrefl.
  - pose proof (renaming_has_var _ _ H) as V. pose proof (renaming_hash _ _ H) as Q.
    destruct (has_var (Stmt c s p)) eqn:V1.
    + inversion H; subst. rewrite tlt_stmt by congruence. rewrite orb_false_iff.
      split.
      * intros [A B]. constructor; [apply IHs | apply IHp]; assumption.
      * intro B; inversion B; subst. split; [apply IHs | apply IHp]; assumption.
    + split; intros _; [apply renaming_var_free_below; assumption|].
      rewrite tlt_var_free by congruence. rewrite Q. apply Z.ltb_irrefl.
  - pose proof (renaming_has_var _ _ H) as V. pose proof (renaming_hash _ _ H) as Q.
    destruct (has_var (Comp c l)) eqn:V1.
    + inversion H; subst.
      match goal with HF : Forall2 renaming l _ |- _ => rename HF into F end.
      rewrite tlt_comp by (try congruence; exact (Forall2_len _ _ _ F)).
      assert (G : any_lt l l' = false <-> Forall2 below l' l).
      { clear -F IHl. revert l' F.
        induction IHl as [|x l Hx Hl IH]; intros l' F; inversion F; subst.
        - split; [constructor | reflexivity].
        - cbn [any_lt]. specialize (Hx y ltac:(assumption)).
          specialize (IH l'0 ltac:(assumption)).
          destruct (tlt x y).
          + split; [discriminate|]. intro B; inversion B; subst. apply Hx; assumption.
          + rewrite IH. split.
            * intro B. constructor; [apply Hx; reflexivity | assumption].
            * intro B; inversion B; subst; assumption. }
      rewrite G. split; [intro; constructor; assumption | intro B; inversion B; assumption].
    + split; intros _; [apply renaming_var_free_below; assumption|].
      rewrite tlt_var_free by congruence. rewrite Q. apply Z.ltb_irrefl.
Qed.

Lemma below_renaming t1 : forall t2, below t1 t2 -> renaming t1 t2.
Proof.
  induction t1 as [op a|k i|n|c s p IHs IHp|c l IHl] using term_ind';
    intros t2 H; inversion H; subst; constructor; auto.
  match goal with HF : Forall2 below l _ |- _ => revert HF end.
  clear H. revert l'. induction IHl as [|x l Hx Hl IH]; intros l' HF; inversion HF; subst.
  - constructor.
  - constructor; auto.
Qed.
Lemma renaming_sym t1 : forall t2, renaming t1 t2 -> renaming t2 t1.
Proof.
  induction t1 as [op a|k i|n|c s p IHs IHp|c l IHl] using term_ind';
    intros t2 H; inversion H; subst; constructor; auto.
  match goal with HF : Forall2 renaming l _ |- _ => revert HF end.
  clear H. revert l'. induction IHl as [|x l Hx Hl IH]; intros l' HF; inversion HF; subst.
  - constructor.
  - constructor; auto.
Qed.
Lemma below_trans t1 : forall t2 t3, below t1 t2 -> below t2 t3 -> below t1 t3.
Proof.
  induction t1 as [op a|k i|n|c s p IHs IHp|c l IHl] using term_ind';
    intros t2 t3 H; inversion H; subst; intro K; inversion K; subst; constructor; eauto.
  - lia.
  - match goal with HF : Forall2 below l ?m, HG : Forall2 below ?m _ |- _ => revert HF HG end.
    clear H K. revert l' l'0. induction IHl as [|x l Hx Hl IH]; intros l' l'0 HF HG;
      inversion HF; subst; inversion HG; subst.
    + constructor.
    + constructor; eauto.
Qed.

Lemma not_var_free t : ~ var_free t <-> has_var t = true.
Proof.
  rewrite var_free_has_var. destruct (has_var t); split; congruence.
Qed.

(* Failures of the laws lie among terms with variables and equal hashes. *)
Lemma tlt_split x y :
  tlt x y = true <->
  thash x < thash y \/
  (thash x = thash y /\ has_var x = true /\ (has_var y = true -> tlt x y = true)).
Proof.
  destruct (Z.eq_dec (thash x) (thash y)) as [E|E].
  - destruct (has_var x) eqn:X, (has_var y) eqn:Y.
    + split; [intro; right; auto | intros [F|(_ & _ & F)]; [lia | auto]].
    + rewrite (tlt_v_nv x y E X Y). split; [intros _; right; repeat split; auto; discriminate | auto].
    + rewrite (tlt_nv_v x y E X Y). split; [discriminate | intros [F|(_ & F & _)]; [lia | discriminate]].
    + rewrite (tlt_var_free x y X Y), Z.ltb_lt. split; [lia | intros [F|(_ & F & _)]; [lia | discriminate]].
  - rewrite tlt_hash_ne by assumption. rewrite Z.ltb_lt. split; [auto | intros [F|F]; [lia | tauto]].
Qed.
Lemma tlt_split_false x y :
  tlt x y = false <->
  thash y < thash x \/
  (thash x = thash y /\ (has_var x = false \/ (has_var y = true /\ tlt x y = false))).
Proof.
  assert (N : tlt x y = false <-> ~ tlt x y = true) by (destruct (tlt x y); split; congruence).
  rewrite N at 1. rewrite tlt_split.
  destruct (Z.eq_dec (thash x) (thash y)) as [E|E].
  - destruct (has_var x), (has_var y), (tlt x y); intuition (try lia; try discriminate).
  - intuition (try lia).
Qed.

Lemma order_by_classes (P : term -> Prop) :
  (forall h, strict_weak_order (fun t => P t /\ thash t = h /\ ~ var_free t) tlt) ->
  strict_weak_order P tlt.
Proof.
  intro H. split; [|split; [|split]].
  - intros x Px. apply tlt_split_false. right. split; [reflexivity|].
    destruct (has_var x) eqn:X; [right; split; [reflexivity|] | left; reflexivity].
    apply (proj1 (H (thash x))). split; [assumption|]. split; [reflexivity | apply not_var_free; assumption].
  - intros x y Px Py L. apply tlt_split in L. apply tlt_split_false.
    destruct L as [L|(E & X & L)]; [left; assumption|]. right. split; [congruence|].
    destruct (has_var y) eqn:Y; [right; split; [assumption|] | left; reflexivity].
    apply (proj1 (proj2 (H (thash x)))); auto.
    + split; [assumption|]. split; [reflexivity | apply not_var_free; assumption].
    + split; [assumption|]. split; [congruence | apply not_var_free; assumption].
  - intros x y z Px Py Pz L1 L2. apply tlt_split in L1, L2. apply tlt_split.
    destruct L1 as [L1|(E1 & X & L1)], L2 as [L2|(E2 & Y & L2)]; try (left; lia).
    right. split; [congruence|]. split; [assumption|]. intro Z.
    apply (proj1 (proj2 (proj2 (H (thash x))))) with (y := y); auto.
    + split; [assumption|]. split; [reflexivity | apply not_var_free; assumption].
    + split; [assumption|]. split; [congruence | apply not_var_free; assumption].
    + split; [assumption|]. split; [congruence | apply not_var_free; assumption].
  - intros x y z Px Py Pz A B C D.
    pose proof A as A0; pose proof B as B0; pose proof C as C0; pose proof D as D0.
    apply tlt_split_false in A, B, C, D.
    assert (E1 : thash x = thash y) by lia. assert (E2 : thash y = thash z) by lia.
    destruct A as [A|(_ & A)]; [lia|]. destruct B as [B|(_ & B)]; [lia|].
    destruct C as [C|(_ & C)]; [lia|]. destruct D as [D|(_ & D)]; [lia|].
    assert (V1 : has_var x = has_var y).
    { destruct (has_var x), (has_var y); intuition congruence. }
    assert (V2 : has_var y = has_var z).
    { destruct (has_var y), (has_var z); intuition congruence. }
    destruct (has_var x) eqn:X.
    + destruct (proj2 (proj2 (proj2 (H (thash x)))) x y z) as [R S0]; auto;
        (split; [assumption|]; split; [congruence | apply not_var_free; congruence]).
    + split; apply tlt_split_false; right; (split; [congruence|]); left; congruence.
Qed.

(* Where equal hashes come from renaming only, the laws hold exactly if any
   two terms with equal hashes have indices that are ordered everywhere. *)
Lemma order_iff_chain (P : term -> Prop) :
  (forall t1 t2, P t1 -> P t2 -> ~ var_free t1 -> ~ var_free t2 ->
     thash t1 = thash t2 -> renaming t1 t2) ->
  strict_weak_order P tlt <->
  (forall t1 t2, P t1 -> P t2 -> renaming t1 t2 -> below t1 t2 \/ below t2 t1).
Proof.
  intro U. split.
  - intros (_ & AS & _) t1 t2 P1 P2 R.
    destruct (tlt t1 t2) eqn:L.
    + left. apply (renaming_not_less t2 t1 (renaming_sym _ _ R)). apply AS; assumption.
    + right. apply (renaming_not_less t1 t2 R). assumption.
  - intro C. apply order_by_classes. intro h.
    set (Q := fun t => P t /\ thash t = h /\ ~ var_free t).
    assert (R : forall x y, Q x -> Q y -> renaming x y).
    { intros x y (Px & Hx & Vx) (Py & Hy & Vy). apply U; try assumption. congruence. }
    assert (F : forall x y, Q x -> Q y -> tlt x y = false <-> below y x).
    { intros x y Qx Qy. apply renaming_not_less. apply R; assumption. }
    assert (T : forall x y, Q x -> Q y -> tlt x y = true <-> ~ below y x).
    { intros x y Qx Qy. rewrite <- (F x y Qx Qy). destruct (tlt x y); split; congruence. }
    assert (D : forall x y, Q x -> Q y -> below x y \/ below y x).
    { intros x y Qx Qy. apply C; [apply Qx | apply Qy | apply R; assumption]. }
    split; [|split; [|split]].
    + intros x Qx. rewrite F by assumption. destruct (D x x Qx Qx); assumption.
    + intros x y Qx Qy L. rewrite T in L by assumption. rewrite F by assumption.
      destruct (D x y Qx Qy); [assumption | contradiction].
    + intros x y z Qx Qy Qz L1 L2. rewrite T in * by assumption. intro B.
      destruct (D x y Qx Qy) as [B1|B1]; [|contradiction].
      apply L2. eapply below_trans; eassumption.
    + intros x y z Qx Qy Qz L1 L2 L3 L4. rewrite F in L1, L2, L3, L4 by assumption.
      split; rewrite F by assumption; eapply below_trans; eassumption.
Qed.

Lemma one_index_below_gen i j t1 : forall t2,
  (forall k n, occurs (Var k n) t1 -> n = i) ->
  (forall k n, occurs (Var k n) t2 -> n = j) ->
  renaming t1 t2 -> i <= j -> below t1 t2.
Proof.
  induction t1 as [op a|k n|n|c s p IHs IHp|c l IHl] using term_ind';
    intros t2 V1 V2 H L; inversion H; subst; constructor.
  - rewrite (V1 k n) by constructor. rewrite (V2 k j0) by constructor. assumption.
  - apply IHs; auto; intros k n O; [apply (V1 k) | apply (V2 k)]; apply occ_subj; assumption.
  - apply IHp; auto; intros k n O; [apply (V1 k) | apply (V2 k)]; apply occ_pred; assumption.
  - match goal with HF : Forall2 renaming l _ |- _ => rename HF into F end.
    assert (W1 : forall x k n, In x l -> occurs (Var k n) x -> n = i).
    { intros x k n I O. apply (V1 k). eapply occ_comp; eassumption. }
    assert (W2 : forall x k n, In x l' -> occurs (Var k n) x -> n = j).
    { intros x k n I O. apply (V2 k). eapply occ_comp; eassumption. }
    clear V1 V2 H. revert l' F W2.
    induction IHl as [|x l Hx Hl IH]; intros l' F W2; inversion F; subst.
    + constructor.
    + constructor.
      * apply Hx; auto; intros k n O; [eapply W1 | eapply W2]; try eassumption; left; reflexivity.
      * apply IH; auto; intros; [eapply W1 | eapply W2]; try eassumption; right; assumption.
Qed.
Lemma one_index_all t : one_index t -> exists i, forall k n, occurs (Var k n) t -> n = i.
Proof.
  intro O. destruct (has_var t) eqn:V.
  - apply has_var_spec in V. destruct V as (k & i & V). exists i.
    intros k' n W. eapply O; eassumption.
  - exists 0. intros k n W. exfalso. apply var_free_has_var in V. exact (V k n W).
Qed.
Lemma one_index_chain t1 t2 : one_index t1 -> one_index t2 -> renaming t1 t2 ->
  below t1 t2 \/ below t2 t1.
Proof.
  intros O1 O2 R. apply one_index_all in O1, O2. destruct O1 as [i O1], O2 as [j O2].
  destruct (Z.le_ge_cases i j).
  - left. eapply one_index_below_gen; eassumption.
  - right. eapply one_index_below_gen; try eassumption. apply renaming_sym; assumption.
Qed.
Lemma order_one_index (P : term -> Prop) :
  (forall t, P t -> one_index t) ->
  (forall t1 t2, P t1 -> P t2 -> ~ var_free t1 -> ~ var_free t2 ->
     thash t1 = thash t2 -> renaming t1 t2) ->
  strict_weak_order P tlt.
Proof.
  intros O U. apply order_iff_chain; [assumption|].
  intros t1 t2 P1 P2 R. apply one_index_chain; auto.
Qed.

Lemma renaming_less t1 t2 : renaming t1 t2 -> tlt t1 t2 = true <-> ~ below t2 t1.
Proof.
  intro R. rewrite <- (renaming_not_less t1 t2 R). destruct (tlt t1 t2); split; congruence.
Qed.
