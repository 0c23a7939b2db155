(* Lemmas on evidential bases *)
From Coq Require Import ZArith List Bool Sorting.Sorted Lia.
From Verif Require Import Base Hash Evidence EvidenceSpec.
Import ListNotations.
Local Open Scope Z_scope.

Notation sorted := (StronglySorted Z.lt).

Lemma in_insert x y s : In y (insert x s) <-> y = x \/ In y s.
Proof.
  induction s as [|z s IH]; cbn.
  - intuition.
  - destruct (x <? z) eqn:E; [cbn; intuition|].
    destruct (x =? z) eqn:E'.
    + apply Z.eqb_eq in E'; subst; cbn; intuition.
    + cbn; rewrite IH; intuition.
Qed.

Lemma insert_sorted x s : sorted s -> sorted (insert x s).
Proof.
  induction 1 as [|z s Hs IH Hz]; cbn.
  - repeat constructor.
  - destruct (Z.ltb_spec x z).
    + constructor; [constructor; auto|].
      constructor; auto. eapply Forall_impl; [|exact Hz]. cbn; intros; lia.
    + destruct (Z.eqb_spec x z); [constructor; auto|].
      constructor; auto. apply Forall_forall. intros y Hy.
      apply in_insert in Hy. destruct Hy as [->|Hy]; [lia|].
      rewrite Forall_forall in Hz; auto.
Qed.

Lemma assign_same {A} (f : Z -> A) x v : assign f x v x = v.
Proof. unfold assign. now rewrite Z.eqb_refl. Qed.

Lemma assign_other {A} (f : Z -> A) x v y : y <> x -> assign f x v y = f y.
Proof. unfold assign. intros H. destruct (Z.eqb_spec y x); congruence. Qed.

Definition sorted_all (m : Z -> list Z) : Prop := forall a, sorted (m a).

Lemma sorted_assign m a s : sorted_all m -> sorted s -> sorted_all (assign m a s).
Proof. intros H Hs b. unfold assign. destruct (b =? a); auto. Qed.

(* The number of elements an iterator still has to visit *)
Definition rest (s : list Z) (it : iterator) : nat :=
  match it with
  | None => 0
  | Some k => length (filter (fun x => k <=? x) s)
  end.

Definition points (s : list Z) (it : iterator) : Prop :=
  match it with None => True | Some k => In k s end.

Lemma filter_all (f : Z -> bool) s : (forall x, In x s -> f x = true) -> filter f s = s.
Proof.
  induction s as [|x s IH]; intros H; cbn; auto.
  rewrite (H x) by now left. f_equal. apply IH. intros; apply H; now right.
Qed.

Lemma rest_first s : sorted s -> rest s (first s) = length s.
Proof.
  intros H. destruct H as [|x s Hs Hx]; cbn; auto.
  rewrite Z.leb_refl. cbn. f_equal. rewrite filter_all; auto.
  intros y Hy. rewrite Forall_forall in Hx. apply Hx in Hy. apply Z.leb_le; lia.
Qed.

Lemma points_first s : points s (first s).
Proof. destruct s; cbn; auto. Qed.

Lemma points_advance s k : points s (advance s k).
Proof.
  unfold advance. destruct (find _ s) eqn:E; cbn; auto.
  apply find_some in E. tauto.
Qed.

Lemma rest_advance s k : sorted s -> In k s ->
  rest s (Some k) = S (rest s (advance s k)).
Proof.
  induction 1 as [|x s Hs IH Hx]; intros Hk; [destruct Hk|].
  rewrite Forall_forall in Hx. destruct Hk as [->|Hk].
  - unfold advance. cbn. rewrite Z.leb_refl, Z.ltb_irrefl. cbn.
    f_equal. rewrite filter_all by (intros y Hy; apply Hx in Hy; apply Z.leb_le; lia).
    destruct s as [|y s]; cbn; auto.
    assert (k < y) by (apply Hx; now left).
    replace (k <? y) with true by (symmetry; apply Z.ltb_lt; lia). cbn.
    rewrite Z.leb_refl. replace (y <=? k) with false by (symmetry; apply Z.leb_gt; lia).
    cbn. f_equal. inversion Hs as [|? ? ? Hy]; subst.
    rewrite Forall_forall in Hy. rewrite filter_all; auto.
    intros z Hz. apply Hy in Hz. apply Z.leb_le; lia.
  - specialize (IH Hk). apply Hx in Hk. unfold advance in *. cbn in *.
    replace (k <=? x) with false by (symmetry; apply Z.leb_gt; lia).
    replace (k <? x) with false by (symmetry; apply Z.ltb_ge; lia).
    rewrite IH. f_equal. destruct (find _ s) as [j|] eqn:E; cbn; auto.
    apply find_some in E as [Hj _]. apply Hx in Hj.
    now replace (j <=? x) with false by (symmetry; apply Z.leb_gt; lia).
Qed.

Lemma rest_insert s x it : (rest s it <= rest (insert x s) it)%nat.
Proof.
  destruct it as [k|]; cbn; auto.
  induction s as [|y s IH]; cbn; [lia|].
  destruct (x <? y); [|destruct (x =? y)]; cbn.
  - destruct (k <=? x); cbn; lia.
  - lia.
  - destruct (k <=? y); cbn; lia.
Qed.

Lemma points_insert s x it : points s it -> points (insert x s) it.
Proof. destruct it; cbn; auto. intros. apply in_insert; auto. Qed.

Lemma rest_assign m d x a it :
  (rest (m a) it <= rest (assign m d (insert x (m d)) a) it)%nat.
Proof.
  unfold assign. destruct (Z.eqb_spec a d); [subst; apply rest_insert|auto].
Qed.

Lemma points_assign m d x a it :
  points (m a) it -> points (assign m d (insert x (m d)) a) it.
Proof.
  unfold assign. destruct (Z.eqb_spec a d); [subst; apply points_insert|auto].
Qed.

(* One half of a round: visit the element at the iterator *)
Definition visit (d s : Z) (it : iterator) (i : Z) (m : Z -> list Z)
  : (Z -> list Z) * iterator * Z :=
  match it with
  | Some k => let m := assign m d (insert k (m d)) in
              (m, advance (m s) k, i + 1)
  | None => (m, it, i)
  end.

Lemma loop_eq fuel len d s1 s2 i it1 it2 m :
  interleave_loop fuel len d s1 s2 i it1 it2 m =
  if i <? len then
    match fuel with
    | O => OutOfFuel
    | S fuel =>
        let '(m, it2, i) := visit d s2 it2 i m in
        let '(m, it1, i) := visit d s1 it1 i m in
        interleave_loop fuel len d s1 s2 i it1 it2 m
    end
  else Ok m.
Proof. destruct fuel; reflexivity. Qed.

(* What one visit does, whatever sets coincide *)
Record visited (d s : Z) (it : iterator) (i : Z) (m m' : Z -> list Z)
    (it' : iterator) (i' : Z) : Prop := {
  v_sorted : sorted_all m';
  v_points : points (m' s) it';
  v_mono : forall a x, In x (m a) -> In x (m' a);
  v_grow : forall a j, (rest (m a) j <= rest (m' a) j)%nat;
  v_rest : (Z.to_nat (i' - i) + rest (m' s) it' >= rest (m s) it)%nat;
  v_count : i' = match it with Some _ => i + 1 | None => i end;
  v_keep : forall a j, points (m a) j -> points (m' a) j;
  v_other : forall a, a <> d -> m' a = m a;
  v_only : forall x, In x (m' d) -> In x (m d) \/ In x (m s)
}.

Lemma visit_visited d s it i m m' it' i' :
  sorted_all m -> points (m s) it ->
  visit d s it i m = (m', it', i') ->
  visited d s it i m m' it' i'.
Proof.
  intros Hm Hp E. destruct it as [k|]; cbn in E; injection E as <- <- <-.
  - set (m' := assign m d (insert k (m d))).
    assert (Hm' : sorted_all m') by (apply sorted_assign; auto; apply insert_sorted; auto).
    constructor; auto.
    + apply points_advance.
    + intros a x Hx. unfold m', assign. destruct (Z.eqb_spec a d); auto.
      subst. apply in_insert; auto.
    + intros a j. apply rest_assign.
    + replace (i + 1 - i) with 1 by lia. change (Z.to_nat 1) with 1%nat.
      assert (In k (m' s)).
      { unfold m', assign. destruct (Z.eqb_spec s d); auto. subst. apply in_insert; auto. }
      pose proof (rest_advance (m' s) k (Hm' s) H) as R.
      pose proof (rest_assign m d k s (Some k)). fold m' in H0. lia.
    + intros a j. apply points_assign.
    + intros a Ha. unfold m'. now rewrite assign_other.
    + intros x. unfold m'. rewrite assign_same, in_insert.
      intros [->|]; auto.
  - constructor; auto; intros; cbn; lia.
Qed.

(* The loop ends, whatever sets coincide *)
Lemma loop_ends fuel : forall len d s1 s2 i it1 it2 m,
  sorted_all m -> points (m s1) it1 -> points (m s2) it2 ->
  (Z.to_nat (len - i) <= fuel)%nat ->
  (Z.to_nat (len - i) <= rest (m s1) it1 + rest (m s2) it2)%nat ->
  exists m', interleave_loop fuel len d s1 s2 i it1 it2 m = Ok m' /\
    sorted_all m' /\
    (forall a x, In x (m a) -> In x (m' a)) /\
    (forall a, a <> d -> m' a = m a) /\
    (forall x, In x (m' d) -> In x (m d) \/ In x (m s1) \/ In x (m s2)).
Proof.
  induction fuel as [|fuel IH]; intros len d s1 s2 i it1 it2 m Hm P1 P2 Hf Hr;
    rewrite loop_eq; destruct (Z.ltb_spec i len) as [Hi|Hi];
    try (exists m; repeat split; auto; fail).
  - exfalso. lia.
  - destruct (visit d s2 it2 i m) as [[m1 it2'] i1] eqn:E1.
    pose proof (visit_visited _ _ _ _ _ _ _ _ Hm P2 E1) as V1.
    destruct (visit d s1 it1 i1 m1) as [[m2 it1'] i2] eqn:E2.
    pose proof (visit_visited _ _ _ _ _ _ _ _ (v_sorted _ _ _ _ _ _ _ _ V1)
                  (v_keep _ _ _ _ _ _ _ _ V1 _ _ P1) E2) as V2.
    destruct V1 as [A1 A2 A3 A4 A5 A6 A7 A8 A9].
    destruct V2 as [B1 B2 B3 B4 B5 B6 B7 B8 B9].
    assert (i < i2).
    { destruct it2 as [k2|]; [destruct it1; lia|].
      destruct it1 as [k1|]; [lia|]. cbn in Hr. lia. }
    specialize (A4 s1 it1). specialize (B4 s2 it2').
    assert (i <= i1 /\ i1 <= i2) by (split; [rewrite A6; destruct it2; lia | rewrite B6; destruct it1; lia]).
    destruct (IH len d s1 s2 i2 it1' it2' m2) as (m' & E & S & M & O & X); auto; try lia.
    exists m'. repeat split; auto.
    + intros a Ha. rewrite O, B8, A8; auto.
    + assert (forall a y, In y (m1 a) -> In y (m a) \/ (a = d /\ In y (m s2))) as W1.
      { intros a y Hy. destruct (Z.eq_dec a d); [subst|left; rewrite <- A8; auto].
        apply A9 in Hy. tauto. }
      assert (forall a y, In y (m2 a) -> In y (m1 a) \/ (a = d /\ In y (m1 s1))) as W2.
      { intros a y Hy. destruct (Z.eq_dec a d); [subst|left; rewrite <- B8; auto].
        apply B9 in Hy. tauto. }
      intros x Hx. apply X in Hx. destruct Hx as [Hx|[Hx|Hx]].
      * apply W2 in Hx. destruct Hx as [Hx|[_ Hx]]; apply W1 in Hx; tauto.
      * apply W2 in Hx. destruct Hx as [Hx|[_ Hx]]; apply W1 in Hx; intuition (subst; auto).
      * apply W2 in Hx. destruct Hx as [Hx|[-> Hx]]; apply W1 in Hx; intuition (subst; auto).
Qed.

Lemma interleave_sets_ends maximum m d s1 s2 :
  sorted_all m ->
  exists m', interleave_sets maximum m d s1 s2 = Ok m' /\
    sorted_all m' /\
    (forall a x, In x (m a) -> In x (m' a)) /\
    (forall a, a <> d -> m' a = m a) /\
    (forall x, In x (m' d) -> In x (m d) \/ In x (m s1) \/ In x (m s2)).
Proof.
  intros Hm. unfold interleave_sets. apply loop_ends; auto.
  - apply points_first.
  - apply points_first.
  - rewrite Z.sub_0_r. lia.
  - rewrite Z.sub_0_r, !rest_first by auto. unfold size.
    pose proof (Z.mod_le (Z.of_nat (length (m s1)) + Z.of_nat (length (m s2))) two64).
    assert (0 < two64) by reflexivity. lia.
Qed.

(* The contents when the destination is another set than the sources *)
Lemma advance_suffix pre k l : sorted (pre ++ k :: l) ->
  advance (pre ++ k :: l) k = first l.
Proof.
  intros H. unfold advance. induction pre as [|x pre IH]; cbn in *.
  - rewrite Z.ltb_irrefl. inversion H as [|? ? Hs Hk]; subst.
    destruct l as [|y l]; cbn; auto. inversion Hk; subst.
    now replace (k <? y) with true by (symmetry; apply Z.ltb_lt; auto).
  - inversion H as [|? ? Hs Hx]; subst. rewrite Forall_forall in Hx.
    assert (x < k) by (apply Hx, in_or_app; right; now left).
    replace (k <? x) with false by (symmetry; apply Z.ltb_ge; lia). auto.
Qed.

Lemma loop_contents fuel : forall len d s1 s2 i m pre1 l1 pre2 l2,
  d <> s1 -> d <> s2 ->
  m s1 = pre1 ++ l1 -> m s2 = pre2 ++ l2 -> sorted (m s1) -> sorted (m s2) ->
  forall m', interleave_loop fuel len d s1 s2 i (first l1) (first l2) m = Ok m' ->
  exists n1 n2,
    (n1 <= length l1)%nat /\ (n2 <= length l2)%nat /\
    (forall x, In x (m' d) <-> In x (m d) \/ In x (firstn n1 l1) \/ In x (firstn n2 l2)) /\
    (len <= i -> n1 = 0%nat /\ n2 = 0%nat) /\
    (i <= len -> len <= i + Z.of_nat (n1 + n2) <= len + 1) /\
    ((n1 < n2)%nat -> n1 = length l1) /\ ((n2 < n1)%nat -> n2 = length l2) /\
    (i <= len -> len < i + Z.of_nat (n1 + n2) -> n1 = n2).
Proof.
  induction fuel as [|fuel IH]; intros len d s1 s2 i m pre1 l1 pre2 l2 D1 D2 E1 E2 S1 S2 m';
    rewrite loop_eq; destruct (Z.ltb_spec i len) as [Hi|Hi]; intros E;
    try discriminate E;
    try (injection E as <-; exists 0%nat, 0%nat; cbn; repeat split; try lia; intuition; fail).
  destruct l2 as [|k2 l2], l1 as [|k1 l1]; cbn [first hd_error visit] in E.
  - (* both at the end *)
    destruct (IH len d s1 s2 i m pre1 [] pre2 [] D1 D2 E1 E2 S1 S2 m' E)
      as (n1 & n2 & L1 & L2 & X & Z0 & C & F1 & F2 & O).
    cbn in L1, L2. exists n1, n2. repeat split; auto; lia || (intros; apply X; auto).
  - rewrite assign_other in E by auto.
    rewrite E1 in E. rewrite E1 in S1. rewrite (advance_suffix _ _ _ S1) in E.
    set (m1 := assign m d (insert k1 (m d))) in *.
    destruct (IH len d s1 s2 (i + 1) m1 (pre1 ++ [k1]) l1 pre2 [] D1 D2) with (m' := m')
      as (n1 & n2 & L1 & L2 & X & Z0 & C & F1 & F2 & O); auto;
      try (unfold m1; rewrite assign_other by auto; try rewrite <- app_assoc; auto; try rewrite E1; auto; fail).
    cbn in L2. assert (n2 = 0%nat) by lia. subst n2.
    exists (S n1), 0%nat. cbn [length firstn].
    repeat split; try lia.
    + intros H. apply X in H. unfold m1 in H. rewrite assign_same, in_insert in H.
      cbn in *. intuition.
    + intros H. apply X. unfold m1. rewrite assign_same, in_insert.
      cbn in *. intuition.
  - rewrite assign_other in E by auto.
    rewrite E2 in E. rewrite E2 in S2. rewrite (advance_suffix _ _ _ S2) in E.
    set (m1 := assign m d (insert k2 (m d))) in *.
    destruct (IH len d s1 s2 (i + 1) m1 pre1 [] (pre2 ++ [k2]) l2 D1 D2) with (m' := m')
      as (n1 & n2 & L1 & L2 & X & Z0 & C & F1 & F2 & O); auto;
      try (unfold m1; rewrite assign_other by auto; try rewrite <- app_assoc; auto; try rewrite E2; auto; fail).
    cbn in L1. assert (n1 = 0%nat) by lia. subst n1.
    exists 0%nat, (S n2). cbn [length firstn].
    repeat split; try lia.
    + intros H. apply X in H. unfold m1 in H. rewrite assign_same, in_insert in H.
      cbn in *. intuition.
    + intros H. apply X. unfold m1. rewrite assign_same, in_insert.
      cbn in *. intuition.
  - set (m1 := assign m d (insert k2 (m d))) in *.
    set (m2 := assign m1 d (insert k1 (m1 d))) in *.
    assert (H1 : m1 s2 = m s2) by (unfold m1; rewrite assign_other; auto).
    assert (H2 : m2 s1 = m s1) by (unfold m2, m1; rewrite !assign_other; auto).
    assert (H3 : m2 s2 = m s2) by (unfold m2, m1; rewrite !assign_other; auto).
    rewrite H1, H2 in E. rewrite E1 in E at 1. rewrite E2 in E at 1.
    rewrite E1 in S1. rewrite E2 in S2.
    rewrite (advance_suffix _ _ _ S1), (advance_suffix _ _ _ S2) in E.
    destruct (IH len d s1 s2 (i + 1 + 1) m2 (pre1 ++ [k1]) l1 (pre2 ++ [k2]) l2 D1 D2) with (m' := m')
      as (n1 & n2 & L1 & L2 & X & Z0 & C & F1 & F2 & O); auto;
      try (rewrite <- app_assoc; cbn; congruence); try congruence.
    exists (S n1), (S n2). cbn [length firstn].
    assert (M : forall x, In x (m2 d) <-> x = k1 \/ x = k2 \/ In x (m d)).
    { intros x. unfold m2. rewrite assign_same, in_insert. unfold m1.
      rewrite assign_same, in_insert. tauto. }
    repeat split; try lia.
    + intros H. apply X in H. rewrite M in H. cbn. intuition.
    + intros H. apply X. rewrite M. cbn in H. intuition.
Qed.

Lemma interleave_sets_contents maximum m d s1 s2 m' :
  sorted_all m -> d <> s1 -> d <> s2 -> 0 <= maximum ->
  size (m s1) + size (m s2) < two64 ->
  interleave_sets maximum m d s1 s2 = Ok m' ->
  exists n1 n2,
    (n1 <= length (m s1))%nat /\ (n2 <= length (m s2))%nat /\
    (forall x, In x (m' d) <->
       In x (m d) \/ oldest n1 (m s1) x \/ oldest n2 (m s2) x) /\
    (let len := Z.min (size (m s1) + size (m s2)) maximum in
     len <= Z.of_nat (n1 + n2) <= len + 1 /\
     (Z.even maximum = true -> Z.of_nat (n1 + n2) = len)) /\
    ((n1 < n2)%nat -> n1 = length (m s1)) /\
    ((n2 < n1)%nat -> n2 = length (m s2)).
Proof.
  intros Hm D1 D2 Hx Hs E. unfold interleave_sets in E.
  assert (0 <= size (m s1) + size (m s2)) by (unfold size; lia).
  rewrite (Z.mod_small _ two64) in E by lia.
  set (len := Z.min _ _) in *.
  destruct (loop_contents _ _ _ _ _ _ _ [] _ [] _ D1 D2 eq_refl eq_refl (Hm _) (Hm _) _ E)
    as (n1 & n2 & L1 & L2 & X & Z0 & C & F1 & F2 & O).
  exists n1, n2. repeat split; auto; try lia; try apply X.
  intros Hev. assert (0 <= len) by lia.
  destruct (Z.eq_dec (Z.of_nat (n1 + n2)) len) as [|N]; auto. exfalso.
  assert (n1 = n2) by (apply O; lia). subst n2.
  assert (len = maximum) by (unfold len, size in *; lia).
  apply Z.even_spec in Hev. destruct Hev. lia.
Qed.

(* The first iterator at the end, as in extend *)
Lemma loop_extend fuel : forall len d s1 s2 i m pre2 l2 m',
  d <> s2 -> m s2 = pre2 ++ l2 -> sorted (m s2) ->
  interleave_loop fuel len d s1 s2 i None (first l2) m = Ok m' ->
  len - i <= Z.of_nat (length l2) ->
  forall x, In x (m' d) <-> In x (m d) \/ In x (firstn (Z.to_nat (len - i)) l2).
Proof.
  induction fuel as [|fuel IH]; intros len d s1 s2 i m pre2 l2 m' D E2 S2 E Hl x;
    rewrite loop_eq in E; destruct (Z.ltb_spec i len) as [Hlt|Hlt];
    try discriminate E;
    try (injection E as <-; replace (Z.to_nat (len - i)) with 0%nat by lia; cbn; tauto).
  destruct l2 as [|k2 l2]; cbn [first hd_error visit] in E; [cbn in Hl; lia|].
  rewrite assign_other in E by auto.
  rewrite E2 in E. rewrite E2 in S2. rewrite (advance_suffix _ _ _ S2) in E.
  set (m1 := assign m d (insert k2 (m d))) in *.
  assert (H3 : m1 s2 = m s2) by (unfold m1; rewrite assign_other; auto).
  cbn [length] in Hl.
  rewrite (IH len d s1 s2 (i + 1) m1 (pre2 ++ [k2]) l2 m' D) ;
    [ | rewrite H3, E2, <- app_assoc; auto | rewrite H3, E2; auto | auto | lia].
  unfold m1. rewrite assign_same, in_insert.
  replace (Z.to_nat (len - i)) with (S (Z.to_nat (len - (i + 1)))) by lia.
  cbn. intuition.
Qed.

Lemma sorted_ext l : forall l', sorted l -> sorted l' ->
  (forall x, In x l <-> In x l') -> l = l'.
Proof.
  induction l as [|x l IH]; intros [|y l'] H H' E; auto.
  - exfalso. apply (E y). now left.
  - exfalso. apply (E x). now left.
  - inversion H as [|? ? Hl Hx]; inversion H' as [|? ? Hl' Hy]; subst.
    rewrite Forall_forall in Hx, Hy.
    assert (x = y).
    { destruct (proj1 (E x) (or_introl eq_refl)) as [|A]; auto.
      destruct (proj2 (E y) (or_introl eq_refl)) as [|B]; auto.
      apply Hx in B. apply Hy in A. lia. }
    subst y. f_equal. apply IH; auto. intros z. split; intros Hz.
    + destruct (proj1 (E z) (or_intror Hz)) as [<-|]; auto. apply Hx in Hz. lia.
    + destruct (proj2 (E z) (or_intror Hz)) as [<-|]; auto. apply Hy in Hz. lia.
Qed.

Lemma firstn_sorted n : forall l, sorted l -> sorted (firstn n l).
Proof.
  induction n as [|n IH]; intros l H; cbn; [constructor|].
  destruct H as [|x l Hl Hx]; constructor; auto.
  rewrite Forall_forall in *. intros y Hy. apply Hx.
  rewrite <- (firstn_skipn n l). apply in_or_app; auto.
Qed.

Lemma extend_sets maximum m d s2 m' :
  sorted_all m -> d <> s2 -> 0 <= maximum -> size (m s2) < two64 ->
  interleave_sets maximum (assign m d []) d d s2 = Ok m' ->
  m' d = firstn (Z.to_nat maximum) (m s2).
Proof.
  intros Hm D Hx Hs E.
  assert (Ha : sorted_all (assign m d [])) by (apply sorted_assign; auto; constructor).
  destruct (interleave_sets_ends maximum _ d d s2 Ha) as (m'' & E' & S & _ & _ & _).
  rewrite E in E'. injection E' as <-.
  unfold interleave_sets in E. rewrite assign_same in E.
  rewrite (assign_other m d [] s2) in E by auto. cbn [first hd_error] in E.
  change (size []) with 0 in E. rewrite Z.add_0_l in E.
  rewrite Z.mod_small in E by (unfold size in *; lia).
  pose proof (loop_extend _ _ _ _ _ _ _ [] _ _ D
                (assign_other m d [] s2 (fun e => D (eq_sym e))) (Ha s2) E) as X.
  rewrite Z.sub_0_r in X. specialize (X ltac:(unfold size; lia)).
  rewrite assign_same in X.
  apply sorted_ext; auto; [now apply firstn_sorted|].
  intros x. rewrite X. replace (firstn (Z.to_nat (Z.min _ _)) (m s2))
    with (firstn (Z.to_nat maximum) (m s2)); [cbn; tauto|].
  unfold size. destruct (Z.le_ge_cases maximum (Z.of_nat (length (m s2)))).
  - now rewrite Z.min_r by lia.
  - rewrite Z.min_l by lia. rewrite !firstn_all2 by lia. auto.
Qed.

Lemma extend_self_sets maximum m d :
  0 <= maximum ->
  interleave_sets maximum (assign m d []) d d d = Ok (assign m d []).
Proof.
  intros Hx. unfold interleave_sets. rewrite !assign_same. cbn.
  rewrite Z.min_l by auto. now rewrite loop_eq.
Qed.

(* is_overlaped *)
Lemma intersection_ok fuel : forall a b out,
  sorted a -> sorted b -> (length a + length b <= fuel)%nat ->
  exists o, set_intersection fuel a b out = Ok o /\
    (o <> [] <-> out <> [] \/ exists x, In x a /\ In x b).
Proof.
  induction fuel as [|fuel IH]; intros a b out Ha Hb Hf.
  - destruct a, b; cbn in Hf; try lia. exists out. split; [reflexivity|split; [auto|intros [?|(? & ? & ?)]; cbn in *; tauto]].
  - destruct Ha as [|x a Ha Hx]; [exists out; split; [reflexivity|split; [auto|intros [?|(? & ? & ?)]; cbn in *; tauto]]|].
    destruct Hb as [|y b Hb Hy]; [exists out; split; [reflexivity|split; [auto|intros [?|(? & ? & ?)]; cbn in *; tauto]]|].
    rewrite Forall_forall in Hx, Hy. cbn [set_intersection length] in *.
    destruct (Z.ltb_spec x y); [|destruct (Z.ltb_spec y x)].
    + destruct (IH a (y :: b) out) as (o & E & X); auto.
      { constructor; auto. now apply Forall_forall. }
      { cbn; lia. }
      exists o. split; auto. rewrite X. split; (intros [|(z & A & B)]; [auto|right; exists z]).
      * split; auto. now right.
      * split; auto. destruct A as [<-|]; auto. destruct B as [<-|B]; [lia|].
        apply Hy in B. lia.
    + destruct (IH (x :: a) b out) as (o & E & X); auto.
      { constructor; auto. now apply Forall_forall. }
      { cbn; lia. }
      exists o. split; auto. rewrite X. split; (intros [|(z & A & B)]; [auto|right; exists z]).
      * split; auto. now right.
      * split; auto. destruct B as [<-|]; auto. destruct A as [<-|A]; [lia|].
        apply Hx in A. lia.
    + destruct (IH a b (insert (to_int x) out)) as (o & E & X); auto; [lia|].
      exists o. split; auto. rewrite X. split; intros _.
      * right. exists x. split; [now left|]. left. lia.
      * left. destruct out as [|z out]; cbn; try discriminate.
        destruct (_ <? _); try discriminate. destruct (_ =? _); discriminate.
Qed.

Lemma overlap_exact st b other :
  sorted_all (sets st) ->
  exists r, is_overlaped st b other = Ok r /\
    (r = true <-> exists x, In x (ids st b) /\ In x (ids st other)).
Proof.
  intros H. unfold is_overlaped.
  destruct (intersection_ok (length (ids st b) + length (ids st other))
              (ids st b) (ids st other) []) as (o & E & X); auto; try apply H.
  rewrite E. cbn. eexists. split; [reflexivity|].
  destruct o as [|z o]; cbn.
  - split; [discriminate|]. intros Y. exfalso. apply X; auto.
  - split; auto. intros _. destruct (proj1 X) as [C|C]; auto; try discriminate.
    now destruct C.
Qed.
