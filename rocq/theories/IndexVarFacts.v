(* Facts about index normalisation. *)
From Coq Require Import ZArith List Bool Lia Sorting Permutation.
From Verif Require Import Base Hash IndexVar.
Import ListNotations.
Local Open Scope Z_scope.

Notation zsorted := (StronglySorted Z.lt).

Lemma zinsert_In : forall x s y, In y (zinsert x s) <-> y = x \/ In y s.
Proof.
  induction s as [|z s IH]; intros y; simpl.
  - intuition.
  - destruct (Z.ltb_spec x z); simpl; [intuition|].
    destruct (Z.ltb_spec z x); simpl.
    + rewrite IH. intuition.
    + assert (x = z) by lia. subst. intuition.
Qed.

Lemma zinsert_sorted : forall x s, zsorted s -> zsorted (zinsert x s).
Proof.
  induction s as [|z s IH]; intros H; simpl.
  - constructor; constructor.
  - inversion H as [|? ? H1 H2]; subst.
    destruct (Z.ltb_spec x z).
    + constructor; [assumption|]. constructor; [assumption|].
      eapply Forall_impl; [|exact H2]. simpl. intros; lia.
    + destruct (Z.ltb_spec z x).
      * constructor; [auto|]. apply Forall_forall. intros y Hy.
        apply zinsert_In in Hy. destruct Hy as [->|Hy]; [lia|].
        rewrite Forall_forall in H2. auto.
      * assumption.
Qed.

Lemma distinct_aux : forall l s, zsorted s ->
  zsorted (fold_left (fun s x => zinsert x s) l s)
  /\ (forall y, In y (fold_left (fun s x => zinsert x s) l s) <-> In y s \/ In y l).
Proof.
  induction l as [|x l IH]; intros s Hs; simpl.
  - split; [assumption|]. intuition.
  - destruct (IH (zinsert x s) (zinsert_sorted x s Hs)) as [A B].
    split; [assumption|]. intros y. rewrite B, zinsert_In. intuition.
Qed.

Lemma distinct_sorted : forall l, zsorted (distinct l).
Proof. intros. apply distinct_aux. constructor. Qed.

Lemma distinct_In : forall l y, In y (distinct l) <-> In y l.
Proof.
  intros. destruct (distinct_aux l [] (SSorted_nil _)) as [_ B].
  unfold distinct. rewrite B. simpl. intuition.
Qed.

Lemma zsorted_unique : forall a b, zsorted a -> zsorted b ->
  (forall y, In y a <-> In y b) -> a = b.
Proof.
  induction a as [|x a IH]; intros b Ha Hb E.
  - destruct b as [|y b]; [reflexivity|]. exfalso. apply (proj2 (E y)). left; reflexivity.
  - destruct b as [|y b]; [exfalso; apply (proj1 (E x)); left; reflexivity|].
    inversion Ha as [|? ? Ha1 Ha2]; inversion Hb as [|? ? Hb1 Hb2]; subst.
    rewrite Forall_forall in Ha2, Hb2.
    assert (x = y) as ->.
    { destruct (proj1 (E x) (or_introl eq_refl)) as [->|H1]; [reflexivity|].
      destruct (proj2 (E y) (or_introl eq_refl)) as [->|H2]; [reflexivity|].
      specialize (Ha2 _ H2). specialize (Hb2 _ H1). lia. }
    f_equal. apply IH; auto.
    intros z. split; intros Hz.
    + destruct (proj1 (E z) (or_intror Hz)) as [->|]; [|assumption].
      specialize (Ha2 _ Hz). lia.
    + destruct (proj2 (E z) (or_intror Hz)) as [->|]; [|assumption].
      specialize (Hb2 _ Hz). lia.
Qed.

Lemma zsorted_NoDup : forall a, zsorted a -> NoDup a.
Proof.
  induction a as [|x a IH]; intros H; constructor; inversion H as [|? ? H1 H2]; subst; auto.
  rewrite Forall_forall in H2. intros Hx. specialize (H2 _ Hx). lia.
Qed.

Lemma distinct_nodup : forall l, Permutation (distinct l) (nodup Z.eq_dec l).
Proof.
  intros. apply NoDup_Permutation.
  - apply zsorted_NoDup, distinct_sorted.
  - apply NoDup_nodup.
  - intros. rewrite distinct_In, nodup_In. reflexivity.
Qed.

Lemma rank_lt : forall p i x, zsorted p -> In x p ->
  i <= rank p i x < i + Z.of_nat (length p).
Proof.
  induction p as [|y p IH]; intros i x Hs Hx; [contradiction|].
  simpl rank. inversion Hs as [|? ? H1 H2]; subst.
  destruct (Z.eqb_spec x y).
  - cbn [length]. lia.
  - destruct Hx as [->|Hx]; [congruence|].
    specialize (IH (i + 1) x H1 Hx). cbn [length]. lia.
Qed.

Lemma rank_mono : forall p i x y, zsorted p -> In x p -> In y p -> x < y ->
  rank p i x < rank p i y.
Proof.
  induction p as [|z p IH]; intros i x y Hs Hx Hy Hl; [contradiction|].
  simpl rank. inversion Hs as [|? ? H1 H2]; subst. rewrite Forall_forall in H2.
  destruct (Z.eqb_spec x z); destruct (Z.eqb_spec y z); subst.
  - lia.
  - destruct Hy as [->|Hy]; [congruence|].
    pose proof (rank_lt p (i + 1) y H1 Hy). lia.
  - destruct Hx as [->|Hx]; [congruence|]. specialize (H2 _ Hx). lia.
  - destruct Hx as [->|Hx]; [congruence|]. destruct Hy as [->|Hy]; [congruence|].
    apply IH; auto.
Qed.

Lemma rank_mono_iff : forall p i x y, zsorted p -> In x p -> In y p ->
  (x < y <-> rank p i x < rank p i y).
Proof.
  intros p i x y Hs Hx Hy. split; intros H.
  - apply rank_mono; auto.
  - destruct (Z.lt_trichotomy x y) as [|[->|L]]; [assumption|lia|].
    pose proof (rank_mono p i y x Hs Hy Hx L). lia.
Qed.

Lemma rank_onto : forall p i v, i <= v < i + Z.of_nat (length p) -> zsorted p ->
  exists x, In x p /\ rank p i x = v.
Proof.
  induction p as [|y p IH]; intros i v Hv Hs; [simpl in Hv; lia|].
  inversion Hs as [|? ? H1 H2]; subst. rewrite Forall_forall in H2.
  destruct (Z.eq_dec v i) as [->|Hn].
  - exists y. split; [left; reflexivity|]. simpl. rewrite Z.eqb_refl. reflexivity.
  - destruct (IH (i + 1) v) as (x & Hx & Hr); [cbn [length] in Hv; lia|assumption|].
    exists x. split; [right; assumption|]. simpl.
    destruct (Z.eqb_spec x y) as [->|]; [|assumption].
    specialize (H2 _ Hx). lia.
Qed.

Lemma normalize_length : forall l, length (normalize l) = length l.
Proof. intros. unfold normalize. apply map_length. Qed.

Lemma normalize_nth : forall l i, (i < length l)%nat ->
  nth i (normalize l) 0 = rank (distinct l) 0 (nth i l 0).
Proof.
  intros. unfold normalize.
  rewrite (nth_indep _ 0 (rank (distinct l) 0 0)) by (rewrite map_length; assumption).
  apply map_nth.
Qed.

Lemma normalize_order : forall l i j, (i < length l)%nat -> (j < length l)%nat ->
  (nth i (normalize l) 0 < nth j (normalize l) 0 <-> nth i l 0 < nth j l 0).
Proof.
  intros. rewrite !normalize_nth by assumption.
  symmetry. apply rank_mono_iff; [apply distinct_sorted| |];
    apply distinct_In; apply nth_In; assumption.
Qed.

Lemma normalize_values : forall l v,
  In v (normalize l) <-> 0 <= v < Z.of_nat (length (nodup Z.eq_dec l)).
Proof.
  intros. rewrite <- (Permutation_length (distinct_nodup l)). unfold normalize. rewrite in_map_iff. split.
  - intros (x & <- & Hx). apply (rank_lt _ 0); [apply distinct_sorted|].
    apply distinct_In. assumption.
  - intros Hv. destruct (rank_onto (distinct l) 0 v) as (x & Hx & Hr).
    + lia.
    + apply distinct_sorted.
    + exists x. split; [assumption|]. apply distinct_In. assumption.
Qed.

Lemma map_sorted : forall (f : Z -> Z) p,
  (forall x y, In x p -> In y p -> x < y -> f x < f y) -> zsorted p -> zsorted (map f p).
Proof.
  induction p as [|x p IH]; intros Hf Hs; simpl; constructor; inversion Hs as [|? ? H1 H2]; subst.
  - apply IH; [|assumption]. intros; apply Hf; simpl; auto.
  - apply Forall_forall. intros y Hy. apply in_map_iff in Hy. destruct Hy as (z & <- & Hz).
    rewrite Forall_forall in H2. apply Hf; simpl; auto.
Qed.

Lemma rank_map : forall (f : Z -> Z) p i x,
  (forall y, In y p -> f x = f y -> x = y) -> rank (map f p) i (f x) = rank p i x.
Proof.
  induction p as [|y p IH]; intros i x Hf; simpl; [reflexivity|].
  destruct (Z.eqb_spec x y) as [->|Hn]; [rewrite Z.eqb_refl; reflexivity|].
  destruct (Z.eqb_spec (f x) (f y)) as [E|_].
  - exfalso. apply Hn, Hf; [left; reflexivity|assumption].
  - apply IH. intros; apply Hf; simpl; auto.
Qed.

Lemma normalize_map : forall (f : Z -> Z) l,
  (forall x y, In x l -> In y l -> x < y -> f x < f y) ->
  normalize (map f l) = normalize l.
Proof.
  intros f l Hf. unfold normalize.
  assert (distinct (map f l) = map f (distinct l)) as ->.
  { apply zsorted_unique.
    - apply distinct_sorted.
    - apply map_sorted; [|apply distinct_sorted].
      intros x y Hx Hy. rewrite distinct_In in Hx, Hy. apply Hf; assumption.
    - intros y. rewrite distinct_In, !in_map_iff.
      split; intros (x & E & Hx); exists x; (split; [assumption|]); apply distinct_In; assumption. }
  rewrite map_map. apply map_ext_in. intros x Hx.
  apply rank_map. intros y Hy E. rewrite distinct_In in Hy.
  destruct (Z.lt_trichotomy x y) as [L|[->|L]]; [|reflexivity|].
  - specialize (Hf x y Hx Hy L). lia.
  - specialize (Hf y x Hy Hx L). lia.
Qed.

Lemma normalize_idem : forall l, normalize (normalize l) = normalize l.
Proof.
  intros. unfold normalize at 2. apply normalize_map.
  intros x y Hx Hy L. apply rank_mono; try apply distinct_sorted; try apply distinct_In; assumption.
Qed.
