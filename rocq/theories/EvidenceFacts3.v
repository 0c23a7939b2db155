(* Properties of evidential bases in every state of the program *)
From Coq Require Import ZArith List Bool Sorting.Sorted Lia.
From Verif Require Import Base Hash Evidence EvidenceSpec EvidenceFacts EvidenceFacts2.
Import ListNotations.
Local Open Scope Z_scope.

Lemma reached_overlap maximum duration st b other :
  reached maximum duration st ->
  exists r, is_overlaped st b other = Ok r /\
    (r = true <-> exists x, In x (ids st b) /\ In x (ids st other)).
Proof. intros H. apply overlap_exact. apply reached_good in H. apply H. Qed.

Lemma reached_interleave maximum duration st b b1 b2 :
  reached maximum duration st -> made st b ->
  exists st', interleave3 maximum st b b1 b2 = Ok st' /\
    (forall x, In x (ids st b) -> In x (ids st' b)) /\
    (forall x, In x (ids st' b) ->
       In x (ids st b) \/ In x (ids st b1) \/ In x (ids st b2)) /\
    (forall b', separate st b b' -> ids st' b' = ids st b').
Proof.
  intros H Hb. apply reached_good in H.
  destruct (interleave3_ok maximum st b b1 b2 H) as (m & E & _ & S & M & O & X).
  exists (with_sets st m). repeat split; auto.
  - intros x Hx. unfold ids in *. cbn. now apply M.
  - intros b' Hb'. unfold ids. cbn. apply O. unfold separate in Hb'. congruence.
Qed.

Lemma interleave_exact maximum duration st b b1 b2 st' :
  reached maximum duration st -> 0 <= maximum ->
  separate st b b1 -> separate st b b2 ->
  size (ids st b1) + size (ids st b2) < two64 ->
  interleave3 maximum st b b1 b2 = Ok st' ->
  exists n1 n2,
    (n1 <= length (ids st b1))%nat /\ (n2 <= length (ids st b2))%nat /\
    (forall x, In x (ids st' b) <->
       In x (ids st b) \/ oldest n1 (ids st b1) x \/ oldest n2 (ids st b2) x) /\
    (let len := Z.min (size (ids st b1) + size (ids st b2)) maximum in
     len <= Z.of_nat (n1 + n2) <= len + 1 /\
     (Z.even maximum = true -> Z.of_nat (n1 + n2) = len)) /\
    ((n1 < n2)%nat -> n1 = length (ids st b1)) /\
    ((n2 < n1)%nat -> n2 = length (ids st b2)).
Proof.
  intros H Hm S1 S2 Hs E. apply reached_good in H.
  destruct (interleave3_ok maximum st b b1 b2 H) as (m & E' & E2 & _).
  rewrite E' in E. injection E as <-.
  exact (interleave_sets_contents maximum (sets st) _ _ _ m (g_sorted _ H) S1 S2 Hm Hs E2).
Qed.

(* Everything is taken over when the maximum allows *)
Lemma interleave_all maximum duration st b b1 b2 st' :
  reached maximum duration st -> 0 <= maximum ->
  separate st b b1 -> separate st b b2 ->
  size (ids st b1) + size (ids st b2) < two64 ->
  size (ids st b1) + size (ids st b2) <= maximum ->
  interleave3 maximum st b b1 b2 = Ok st' ->
  forall x, In x (ids st' b) <->
    In x (ids st b) \/ In x (ids st b1) \/ In x (ids st b2).
Proof.
  intros H Hm S1 S2 Hs Hl E.
  destruct (interleave_exact _ _ _ _ _ _ _ H Hm S1 S2 Hs E)
    as (n1 & n2 & L1 & L2 & X & C & F1 & F2).
  cbn zeta in C. rewrite Z.min_l in C by lia. destruct C as [C _]. unfold size in *.
  assert (n1 = length (ids st b1)) by lia. assert (n2 = length (ids st b2)) by lia.
  subst n1 n2. unfold oldest in X. rewrite !firstn_all in X. exact X.
Qed.

Lemma extend_exact maximum duration st b other st' :
  reached maximum duration st -> 0 <= maximum ->
  size (ids st other) < two64 ->
  extend maximum st b other = Ok st' ->
  (separate st b other ->
     ids st' b = firstn (Z.to_nat maximum) (ids st other)) /\
  (~ separate st b other -> ids st' b = []).
Proof.
  intros H Hm Hs E. apply reached_good in H.
  destruct (extend_ok maximum st b other H) as (m & E' & E2 & S & O).
  rewrite E' in E. injection E as <-. unfold ids, separate. cbn. split; intros Hp.
  - apply (extend_sets maximum (sets st) _ _ m); auto. apply H.
  - assert (Q : set_at (bases st b) = set_at (bases st other)) by lia.
    rewrite <- Q in E2. rewrite extend_self_sets in E2 by auto. injection E2 as <-.
    apply assign_same.
Qed.

Lemma extend_takes maximum duration st b other st' :
  reached maximum duration st -> separate st b other ->
  size (ids st other) <= maximum -> maximum < two64 ->
  extend maximum st b other = Ok st' ->
  ids st' b = ids st other /\ ids st' other = ids st other.
Proof.
  intros H Hp Hs Hm E.
  assert (0 <= maximum) by (unfold size in Hs; lia).
  assert (Hl : size (ids st other) < two64) by lia.
  destruct (extend_exact _ _ _ _ _ _ H H0 Hl E) as [X _].
  split.
  - rewrite X by auto. apply firstn_all2. unfold size in Hs. lia.
  - apply reached_good in H. destruct (extend_ok maximum st b other H) as (m & E' & E2 & S & O).
    rewrite E' in E. injection E as <-. unfold ids. cbn. apply O. unfold separate in Hp. congruence.
Qed.

Lemma new_base_ids st : good st ->
  exists st' b, new_base st = (st', b) /\ ids st' b = [input_id st] /\
    made st' b /\ set_at (bases st' b) = free_set st /\
    (forall c, made st c -> ids st' c = ids st c /\ separate st' b c).
Proof.
  intros [G1 G2 G3 G4 G5 G6]. eexists _, _. split; [reflexivity|].
  unfold ids, made, separate. cbn. rewrite !assign_same. cbn. rewrite ?assign_same.
  repeat split; auto; try lia.
  - rewrite (assign_other (bases st)) by (unfold made in *; lia).
    apply assign_other. apply G4 in H. lia.
  - rewrite (assign_other (bases st)) by (unfold made in *; lia). apply G4 in H. lia.
Qed.

(* The two-argument interleave: both sources and one id more *)
Lemma interleave2_ids maximum duration st b1 b2 :
  reached maximum duration st -> made st b1 -> made st b2 -> 0 <= maximum ->
  size (ids st b1) + size (ids st b2) < two64 ->
  exists st' b, interleave2 maximum st b1 b2 = Ok (st', b) /\
    (forall x, In x (ids st' b) ->
       x = input_id st \/ In x (ids st b1) \/ In x (ids st b2)) /\
    (size (ids st b1) + size (ids st b2) <= maximum ->
     forall x, In x (ids st b1) \/ In x (ids st b2) -> In x (ids st' b)) /\
    ids st' b1 = ids st b1 /\ ids st' b2 = ids st b2.
Proof.
  intros H M1 M2 Hm Hs.
  assert (R : reached maximum duration (fst (new_base st))).
  { destruct H as (t & n & Ht & H). exists t, (n + 1). split; auto.
    eapply steps_more; [exact H|exact I|].
    destruct (new_base st) eqn:E. cbn. eapply step_new; exact E. }
  apply reached_good in H.
  destruct (new_base_ids st H) as (st1 & b & E & I1 & I2 & I3 & I4).
  unfold interleave2. rewrite E. rewrite E in R. cbn [fst] in R.
  destruct (I4 _ M1) as [A1 A2]. destruct (I4 _ M2) as [B1 B2].
  destruct (reached_interleave _ _ _ b b1 b2 R I2) as (st' & E' & X1 & X2 & X3).
  exists st', b. rewrite E'. cbn [bind]. split; auto. repeat split.
  - intros x Hx. apply X2 in Hx. rewrite I1, A1, B1 in Hx. cbn in Hx. intuition.
  - intros Hl x Hx. rewrite <- A1, <- B1 in *.
    rewrite (interleave_all _ _ _ _ _ _ _ R Hm A2 B2 Hs Hl E'). tauto.
  - rewrite <- A1. auto.
  - rewrite <- B1. auto.
Qed.

(* C41 *)
Lemma untensed_base maximum duration st :
  reached maximum duration st ->
  exists st' s b, parsed_stamp duration st None = (st', s) /\
    evidential_base s = Some b /\ ids st' b = [input_id st] /\
    (forall c, made st c -> separate st' b c /\ ids st' c = ids st c).
Proof.
  intros H. apply reached_good in H.
  destruct (new_base_ids st H) as (st1 & b & E & I1 & I2 & I3 & I4).
  eexists _, _, b. split; [reflexivity|]. cbn in E. injection E as <- <-.
  cbn [evidential_base snd]. repeat split; auto; apply I4; auto.
Qed.

(* C86 *)
Lemma extend_stamp maximum duration st s other :
  reached maximum duration st -> evidential_base s = None -> made st other ->
  0 <= maximum -> size (ids st other) < two64 ->
  exists st' s' b, extend_evidential_base maximum st s other = Ok (st', s') /\
    evidential_base s' = Some b /\
    ids st' b = firstn (Z.to_nat maximum) (ids st other) /\
    ids st' other = ids st other /\
    t_occurrence s' = t_occurrence s /\ t_creation s' = t_creation s /\
    t_put s' = t_put s /\ is_eternal s' = is_eternal s /\
    (forall c, made st c -> separate st' b c).
Proof.
  intros H Hs Ho Hm Hl.
  assert (R : reached maximum duration (fst (new_base st))).
  { destruct H as (t & n & Ht & H). exists t, (n + 1). split; auto.
    eapply steps_more; [exact H|exact I|].
    destruct (new_base st) eqn:E. cbn. eapply step_new; exact E. }
  apply reached_good in H.
  destruct (new_base_ids st H) as (st1 & b & E & I1 & I2 & I3 & I4).
  unfold extend_evidential_base. rewrite Hs, E. rewrite E in R. cbn [fst] in R.
  destruct (I4 _ Ho) as [A1 A2].
  destruct (extend_ok maximum st1 b other (reached_good _ _ _ R)) as (m & E' & E2 & S & O).
  rewrite E'. cbn [bind]. eexists _, _, b. split; [reflexivity|].
  rewrite <- A1 in Hl.
  destruct (extend_exact _ _ _ _ _ _ R Hm Hl E') as [X _].
  rewrite A1 in X. repeat split; auto.
  - unfold ids. cbn. rewrite O. { exact A1. } unfold separate in A2. congruence.
  - intros c Hc. destruct (I4 _ Hc) as [_ C2]. exact C2.
Qed.
