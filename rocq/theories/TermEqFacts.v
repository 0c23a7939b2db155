(* What comparing terms that differ in variable indices only does. *)
From Coq Require Import ZArith List Bool Lia.
From Verif Require Import Base Hash Enums Term TermSpec TermFacts TermOrderSpec.
Import ListNotations.
Local Open Scope Z_scope.

(* The comparison as a walk over the leaves. *)
Fixpoint scan (l1 l2 : list term) : res bool :=
  match l1, l2 with
  | Var k i :: l1', Var _ j :: l2' =>
      if vk_eqb k Independent then (if i =? j then scan l1' l2' else Ok false) else UB
  | _ :: l1', _ :: l2' => scan l1' l2'
  | _, _ => Ok true
  end.

(* Pairs of leaves in the same place of terms equal up to indices. *)
Inductive leaf_pair : term -> term -> Prop :=
| lp_var k i j : leaf_pair (Var k i) (Var k j)
| lp_atom op a : leaf_pair (Atom op a) (Atom op a)
| lp_itv n : leaf_pair (Itv n) (Itv n).

Lemma renaming_leaves t1 : forall t2, renaming t1 t2 -> Forall2 leaf_pair (leaves t1) (leaves t2).
Proof.
  induction t1 as [op a|k i|n|c s p IHs IHp|c l IHl] using term_ind';
    intros t2 H; inversion H; subst; cbn [leaves]; try (repeat constructor; fail).
  - apply Forall2_app; auto.
  - match goal with HF : Forall2 renaming l _ |- _ => revert HF end.
    clear H. revert l'. induction IHl as [|x l Hx Hl IH]; intros l' HF; inversion HF; subst.
    + constructor.
    + cbn [flat_map]. apply Forall2_app; auto.
Qed.

Lemma scan_app l1 l2 : Forall2 leaf_pair l1 l2 -> forall m1 m2,
  scan (l1 ++ m1) (l2 ++ m2) = bind (scan l1 l2) (fun b => if b then scan m1 m2 else Ok false).
Proof.
  intros H m1 m2. induction H as [|x y l1 l2 P F IH]; [reflexivity|].
  destruct P; cbn [app scan]; try exact IH.
  destruct (vk_eqb k Independent); [|reflexivity].
  destruct (i =? j); [exact IH | reflexivity].
Qed.

Lemma teq_scan t1 : forall t2, renaming t1 t2 -> teq t1 t2 = scan (leaves t1) (leaves t2).
Proof.
  induction t1 as [op a|k i|n|c s p IHs IHp|c l IHl] using term_ind'; intros t2 H;
    pose proof (renaming_hash _ _ H) as Q; inversion H; subst.
  - rewrite teq_atomic by reflexivity. rewrite Z.eqb_refl. cbn [negb].
    unfold atom_eq. cbn [is_var orb]. rewrite Z.eqb_refl. reflexivity.
  - rewrite teq_atomic by reflexivity. rewrite Q, Z.eqb_refl. cbn [negb].
    destruct k; cbn [leaves scan vk_eqb]; try reflexivity.
    unfold atom_eq. cbn. destruct (i =? j); reflexivity.
  - rewrite teq_atomic by reflexivity. rewrite Z.eqb_refl. cbn [negb].
    unfold atom_eq. cbn [is_var orb]. rewrite Z.eqb_refl. reflexivity.
  - rewrite teq_stmt, Q, Z.eqb_refl. cbn [negb leaves].
    rewrite scan_app by (apply renaming_leaves; assumption).
    rewrite (IHs s'), (IHp p') by assumption.
    destruct (scan (leaves s) (leaves s')) as [[|]| | |]; try reflexivity. cbn [bind].
    destruct (scan (leaves p) (leaves p')) as [[|]| | |]; try reflexivity. cbn [bind].
    rewrite cop_eqb_refl. reflexivity.
  - match goal with HF : Forall2 renaming l _ |- _ => rename HF into F end.
    rewrite teq_comp, Q, Z.eqb_refl, (Forall2_len _ _ _ F), Z.eqb_refl, con_eqb_refl.
    cbn [negb leaves].
    clear H Q. revert l' F. induction IHl as [|x l Hx Hl IH]; intros l' F; inversion F; subst.
    + reflexivity.
    + cbn [teq_list flat_map]. rewrite scan_app by (apply renaming_leaves; assumption).
      rewrite (Hx y) by assumption.
      destruct (scan (leaves x) (leaves y)) as [[|]| | |]; try reflexivity. cbn [bind].
      apply IH; assumption.
Qed.

(* The walk in terms of the first place that decides. *)
Definition split_at (l1 l2 : list term) (k : vkind) (i j : Z) : Prop :=
  exists before rest1 rest2,
    l1 = before ++ Var k i :: rest1 /\ l2 = before ++ Var k j :: rest2
    /\ forall k' n, In (Var k' n) before -> k' = Independent.

Lemma split_at_cons x l1 l2 k i j :
  (forall k' n, x = Var k' n -> k' = Independent) ->
  split_at l1 l2 k i j -> split_at (x :: l1) (x :: l2) k i j.
Proof.
  intros X (b & r1 & r2 & -> & -> & V). exists (x :: b), r1, r2.
  split; [reflexivity|]. split; [reflexivity|].
  intros k' n [E|I]; [eapply X; exact E | eapply V; exact I].
Qed.

Lemma scan_cases l1 l2 : Forall2 leaf_pair l1 l2 ->
  (scan l1 l2 = UB /\ exists k i j, k <> Independent /\ split_at l1 l2 k i j)
  \/ (scan l1 l2 = Ok false /\ exists i j, i <> j /\ split_at l1 l2 Independent i j)
  \/ (scan l1 l2 = Ok true /\ l1 = l2 /\ forall k n, In (Var k n) l1 -> k = Independent).
Proof.
  intro H. induction H as [|x y l1 l2 P F IH].
  - right; right. split; [reflexivity|]. split; [reflexivity|]. intros k n [].
  - assert (Same : x = y -> (forall k' n, x = Var k' n -> k' = Independent) ->
      scan (x :: l1) (y :: l2) = scan l1 l2 ->
      (scan (x :: l1) (y :: l2) = UB /\ exists k i j, k <> Independent /\ split_at (x :: l1) (y :: l2) k i j)
      \/ (scan (x :: l1) (y :: l2) = Ok false /\ exists i j, i <> j /\ split_at (x :: l1) (y :: l2) Independent i j)
      \/ (scan (x :: l1) (y :: l2) = Ok true /\ x :: l1 = y :: l2
          /\ forall k n, In (Var k n) (x :: l1) -> k = Independent)).
    { intros <- X E. rewrite E. destruct IH as [(R & k & i & j & K & S0)|[(R & i & j & K & S0)|(R & L & V)]].
      - left. split; [exact R|]. exists k, i, j. split; [exact K|]. apply split_at_cons; assumption.
      - right; left. split; [exact R|]. exists i, j. split; [exact K|]. apply split_at_cons; assumption.
      - right; right. split; [exact R|]. split; [congruence|].
        intros k n [Q|I]; [eapply X; exact Q | eapply V; exact I]. }
    destruct P.
    + destruct k.
      all: cbn [scan vk_eqb] in *.
      all: try (left; split; [reflexivity|]; eexists _, i, j; split; [|exists [], l1, l2;
             split; [reflexivity|]; split; [reflexivity | intros ? ? []]]; discriminate).
      destruct (Z.eqb_spec i j) as [->|N].
      * apply Same; [reflexivity | intros k' n E; congruence | reflexivity].
      * right; left. split; [reflexivity|]. exists i, j. split; [exact N|].
        exists [], l1, l2. split; [reflexivity|]. split; [reflexivity | intros ? ? []].
    + apply Same; [reflexivity | discriminate | reflexivity].
    + apply Same; [reflexivity | discriminate | reflexivity].
Qed.

Lemma split_at_not_equal l1 l2 i j : i <> j -> split_at l1 l2 Independent i j -> l1 <> l2.
Proof.
  intros N (b & r1 & r2 & -> & -> & _) E. apply app_inv_head in E. congruence.
Qed.
Lemma split_at_unique l1 l2 k i j : k <> Independent -> split_at l1 l2 k i j ->
  forall k' i' j', (k' = Independent -> i' <> j') -> split_at l1 l2 k' i' j' -> k' = k.
Proof.
  intros K (b & r1 & r2 & E1 & E2 & V) k' i' j' D (b' & r1' & r2' & F1 & F2 & V').
  rewrite E1 in F1. rewrite E2 in F2. clear E1 E2.
  revert b' V' F1 F2. induction b as [|x b IH]; intros [|y b'] V' F1 F2; cbn [app] in *.
  - congruence.
  - injection F1 as <- F1. exfalso. apply K. eapply V'. left; reflexivity.
  - injection F1 as F1 _. injection F2 as F2 _. subst x. injection F2 as F2.
    assert (I : k' = Independent) by (eapply V; left; reflexivity). exfalso. apply (D I). congruence.
  - injection F1 as _ F1. injection F2 as _ F2. apply (IH) with (b' := b'); try assumption.
    + intros k0 n I. eapply V. right; exact I.
    + intros k0 n I. eapply V'. right; exact I.
Qed.

Lemma leaf_occurs t : forall k i, In (Var k i) (leaves t) <-> occurs (Var k i) t.
Proof.
  induction t as [op a|k i|n|c s p IHs IHp|c l IHl] using term_ind'; intros k0 i0; cbn [leaves].
  - split; [intros [E|[]]; discriminate | intro O; inversion O].
  - split; [intros [E|[]]; rewrite E; constructor | intro O; inversion O; left; reflexivity].
  - split; [intros [E|[]]; discriminate | intro O; inversion O].
  - rewrite in_app_iff, IHs, IHp. split.
    + intros [O|O]; [apply occ_subj | apply occ_pred]; assumption.
    + intro O; inversion O; subst; auto.
  - rewrite in_flat_map. split.
    + intros (x & I & O). apply (occ_comp _ c l x I). apply (Forall_In _ _ _ IHl I). exact O.
    + intro O; inversion O; subst.
      match goal with I : In ?x l, Oc : occurs _ ?x |- _ =>
        exists x; split; [exact I | apply (Forall_In _ _ _ IHl I); exact Oc] end.
Qed.

Lemma renaming_same_leaves t1 : forall t2, renaming t1 t2 -> leaves t1 = leaves t2 -> t1 = t2.
Proof.
  induction t1 as [op a|k i|n|c s p IHs IHp|c l IHl] using term_ind';
    intros t2 H; inversion H; subst; cbn [leaves]; intro E; try congruence.
  - assert (L : length (leaves s) = length (leaves s')).
    { eapply Forall2_len. apply renaming_leaves. assumption. }
    all: assert (E1 : leaves s = leaves s' /\ leaves p = leaves p')
      by (clear -E L; revert L E; generalize (leaves s) (leaves s') (leaves p) (leaves p');
          induction l as [|x l IH]; intros [|y m] q r L E; try discriminate; cbn in *;
          [auto | injection E as -> E; injection L as L; destruct (IH m q r L E); subst; auto]).
    all: destruct E1; f_equal; auto.
  - f_equal.
    match goal with HF : Forall2 renaming l _ |- _ => rename HF into F end.
    clear H. revert l' F E. induction IHl as [|x l Hx Hl IH]; intros l' F E; inversion F; subst.
    + reflexivity.
    + cbn [flat_map] in E.
      assert (L : length (leaves x) = length (leaves y)).
      { eapply Forall2_len. apply renaming_leaves. assumption. }
      assert (E1 : leaves x = leaves y /\ flat_map leaves l = flat_map leaves l'0).
      { clear -E L; revert L E. generalize (leaves x) (leaves y) (flat_map leaves l) (flat_map leaves l'0).
        induction l0 as [|z l0 IH]; intros [|w m] q r L E; try discriminate; cbn in *;
          [auto | injection E as -> E; injection L as L; destruct (IH m q r L E); subst; auto]. }
      destruct E1. f_equal; auto.
Qed.

Lemma teq_renaming t1 t2 : renaming t1 t2 ->
  (teq t1 t2 = UB <-> exists k i j, k <> Independent /\ parted t1 t2 k i j)
  /\ (teq t1 t2 = Ok false <-> exists i j, i <> j /\ parted t1 t2 Independent i j)
  /\ (teq t1 t2 = Ok true <-> t1 = t2 /\ only_ivars t1).
Proof.
  intro R. rewrite (teq_scan _ _ R). pose proof (renaming_leaves _ _ R) as F.
  change (parted t1 t2) with (split_at (leaves t1) (leaves t2)).
  destruct (scan_cases _ _ F) as [(E & k & i & j & K & S0)|[(E & i & j & K & S0)|(E & L & V)]]; rewrite E.
  - split; [|split].
    + split; [intros _; exists k, i, j; auto | reflexivity].
    + split; [discriminate|]. intros (i' & j' & N & S1). exfalso. apply K. symmetry.
      eapply split_at_unique; [exact K | exact S0 | intros _; exact N | exact S1].
    + split; [discriminate|]. intros [-> O]. exfalso. apply K.
      destruct S0 as (b & r1 & r2 & E1 & _). apply (O k i). apply leaf_occurs. rewrite E1.
      apply in_or_app. right; left; reflexivity.
  - split; [|split].
    + split; [discriminate|]. intros (k & i' & j' & N & S1). exfalso. apply N. symmetry.
      eapply split_at_unique; [exact N | exact S1 | intros _; exact K | exact S0].
    + split; [intros _; exists i, j; auto | reflexivity].
    + split; [discriminate|]. intros [-> O]. exfalso. apply (split_at_not_equal _ _ _ _ K S0). reflexivity.
  - split; [|split].
    + split; [discriminate|]. intros (k & i & j & N & b & r1 & r2 & E1 & _). exfalso. apply N.
      apply (V k i). rewrite E1. apply in_or_app. right; left; reflexivity.
    + split; [discriminate|]. intros (i & j & N & S0). exfalso. exact (split_at_not_equal _ _ _ _ N S0 L).
    + split; [intros _ | reflexivity]. split; [apply renaming_same_leaves; assumption|].
      intros k i O. apply (V k i). apply leaf_occurs. exact O.
Qed.

(* Different hashes settle it. *)
Lemma teq_other_hash t1 t2 : thash t1 <> thash t2 -> teq t1 t2 = Ok false.
Proof.
  intro N. apply Z.eqb_neq in N. destruct t1; cbn [teq]; rewrite N;
    destruct (ttype _ =? ttype t2); reflexivity.
Qed.
