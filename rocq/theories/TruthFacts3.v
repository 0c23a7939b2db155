(* Truth functions in exact arithmetic; projection; disjunction *)
From Coq Require Import ZArith List Bool Reals Lra Lia.
From Flocq Require Import Core BinarySingleNaN.
From Verif Require Import Base Hash Float FloatFacts Truth TruthSpec TruthFacts TruthFacts2.
Import ListNotations.
Local Open Scope R_scope.

Ltac real := match goal with |- @eq _ ?a ?b => change (@eq R a b) end.

Definition W (c k : R) : R := k * c / (1 - c).

Lemma W_nonneg c k : 0 <= c < 1 -> 0 < k -> 0 <= W c k.
Proof. intros C K. unfold W. apply div_pos; nra. Qed.

Lemma W_back w k : 0 <= w -> 0 < k -> W (w / (w + k)) k = w.
Proof. intros. unfold W. field. lra. Qed.

Lemma C_back c k : 0 <= c < 1 -> 0 < k -> W c k / (W c k + k) = c.
Proof. intros. unfold W. field. split; nra. Qed.

Lemma conf_mono w w' k : 0 <= w -> w <= w' -> 0 < k -> w / (w + k) <= w' / (w' + k).
Proof.
  intros. apply div_le; [lra|]. unfold Rdiv. rewrite Rmult_assoc, (Rmult_comm _ (w + k)), <- Rmult_assoc.
  apply Rmult_le_reg_r with (w' + k); [lra|]. rewrite Rmult_assoc, Rinv_l by lra. nra.
Qed.

Lemma conf_strict w w' k : 0 <= w -> w < w' -> 0 < k -> w / (w + k) < w' / (w' + k).
Proof.
  intros. apply Rmult_lt_reg_r with (w + k); [lra|].
  unfold Rdiv at 1. rewrite Rmult_assoc, Rinv_l, Rmult_1_r by lra.
  apply Rmult_lt_reg_r with (w' + k); [lra|].
  replace (w' / (w' + k) * (w + k) * (w' + k)) with (w' * (w + k)) by (field; lra). nra.
Qed.

Lemma conf_range w k : 0 <= w -> 0 < k -> 0 <= w / (w + k) < 1.
Proof.
  intros. split; [apply div_pos; lra|].
  apply Rmult_lt_reg_r with (w + k); [lra|]. unfold Rdiv. rewrite Rmult_assoc, Rinv_l; lra.
Qed.

Lemma weight_exact f c k : weight exact (exact_truth f c k) = W c k.
Proof. reflexivity. Qed.

Lemma weight_p_exact f c k : c < 1 -> weight_p exact (exact_truth f c k) = f * W c k.
Proof. intros. unfold W. cbn. real. field. lra. Qed.

Lemma revision_eq f1 c1 f2 c2 k :
  0 <= c1 < 1 -> 0 <= c2 < 1 -> 0 < k -> 1 / 100000000 < W c1 k + W c2 k ->
  exact_revision (exact_truth f1 c1 k) (exact_truth f2 c2 k) =
  exact_truth ((f1 * W c1 k + f2 * W c2 k) / (W c1 k + W c2 k))
              ((W c1 k + W c2 k) / (W c1 k + W c2 k + k)) k.
Proof.
  intros C1 C2 K H. unfold exact_revision, truth_revision. cbn [Z.eqb Pos.eqb].
  rewrite !weight_exact, !weight_p_exact by lra.
  cbn [sadd ssub smul sdiv dadd dsub dmul ddiv dlt deq sint dfrac up down exact w_to_f w_to_c threshold dzero kk exact_truth].
  unfold w_to_f, w_to_c, threshold, dzero, exact_truth.
  cbn [sadd ssub smul sdiv dadd dsub dmul ddiv dlt deq sint dfrac up down exact kk].
  rewrite Rlt_bool_true by exact H. reflexivity.
Qed.

Lemma revision_exact f1 c1 f2 c2 k :
  0 <= f1 <= 1 -> 0 <= f2 <= 1 -> 0 <= c1 < 1 -> 0 <= c2 < 1 -> 0 < k ->
  let t1 := exact_truth f1 c1 k in let t2 := exact_truth f2 c2 k in
  let t := exact_revision t1 t2 in
  1 / 100000000 < weight exact t1 + weight exact t2 ->
  weight exact t = weight exact t1 + weight exact t2 /\
  weight_p exact t = weight_p exact t1 + weight_p exact t2 /\
  0 <= co exact t < 1 /\
  c1 <= co exact t /\ c2 <= co exact t /\
  (0 < c1 -> 0 < c2 -> c1 < co exact t /\ c2 < co exact t) /\
  Rmin f1 f2 <= fr exact t <= Rmax f1 f2 /\
  kk exact t = k /\
  exact_revision t2 t1 = t.
Proof.
  intros F1 F2 C1 C2 K t1 t2 t H. unfold t, t1, t2 in *. rewrite !weight_exact in H.
  pose proof (W_nonneg c1 k C1 K) as N1. pose proof (W_nonneg c2 k C2 K) as N2.
  rewrite !revision_eq by (auto; lra). rewrite !weight_exact.
  set (w1 := W c1 k) in *. set (w2 := W c2 k) in *.
  pose proof (conf_range (w1 + w2) k ltac:(lra) K) as CR.
  assert (E1 : w1 / (w1 + k) = c1) by (unfold w1; now apply C_back).
  assert (E2 : w2 / (w2 + k) = c2) by (unfold w2; now apply C_back).
  split; [apply W_back; lra|].
  split.
  { rewrite !weight_p_exact by lra. rewrite W_back by lra. fold w1 w2. real. field. lra. }
  cbn [co fr kk exact_truth].
  split; [exact CR|].
  split; [rewrite <- E1 at 1; apply conf_mono; lra|].
  split; [rewrite <- E2 at 1; apply conf_mono; lra|].
  split.
  { intros P1 P2.
    assert (Q1 : 0 < w1) by (unfold w1, W; apply Rmult_lt_0_compat; [nra|apply Rinv_0_lt_compat; lra]).
    assert (Q2 : 0 < w2) by (unfold w2, W; apply Rmult_lt_0_compat; [nra|apply Rinv_0_lt_compat; lra]).
    split; [rewrite <- E1 at 1|rewrite <- E2 at 1]; apply conf_strict; lra. }
  split.
  { assert (D : 0 < w1 + w2) by lra. pose proof (Rmin_l f1 f2). pose proof (Rmin_r f1 f2).
    pose proof (Rmax_l f1 f2). pose proof (Rmax_r f1 f2). split.
    - apply Rmult_le_reg_r with (w1 + w2); auto. unfold Rdiv. rewrite Rmult_assoc, Rinv_l by lra. nra.
    - apply div_le; auto. nra. }
  split; [reflexivity|].
  f_equal; f_equal; lra || (f_equal; lra).
Qed.

Lemma revision_assoc f1 c1 f2 c2 f3 c3 k :
  0 <= f1 <= 1 -> 0 <= f2 <= 1 -> 0 <= f3 <= 1 ->
  0 <= c1 < 1 -> 0 <= c2 < 1 -> 0 <= c3 < 1 -> 0 < k ->
  let t1 := exact_truth f1 c1 k in let t2 := exact_truth f2 c2 k in
  let t3 := exact_truth f3 c3 k in
  1 / 100000000 < weight exact t1 + weight exact t2 ->
  1 / 100000000 < weight exact t2 + weight exact t3 ->
  exact_revision (exact_revision t1 t2) t3 = exact_revision t1 (exact_revision t2 t3).
Proof.
  intros F1 F2 F3 C1 C2 C3 K t1 t2 t3 H1 H2. unfold t1, t2, t3 in *.
  rewrite !weight_exact in H1, H2.
  pose proof (W_nonneg c1 k C1 K) as N1. pose proof (W_nonneg c2 k C2 K) as N2.
  pose proof (W_nonneg c3 k C3 K) as N3.
  rewrite (revision_eq f1 c1 f2 c2), (revision_eq f2 c2 f3 c3) by auto.
  set (w1 := W c1 k) in *. set (w2 := W c2 k) in *. set (w3 := W c3 k) in *.
  pose proof (conf_range (w1 + w2) k ltac:(lra) K) as CR12.
  pose proof (conf_range (w2 + w3) k ltac:(lra) K) as CR23.
  rewrite !revision_eq by (auto; rewrite ?W_back by lra; fold w1 w3; lra).
  rewrite !W_back by lra. fold w1 w3. unfold exact_truth. f_equal.
  - replace (w1 + w2 + w3) with (w1 + (w2 + w3)) by lra. real. field. lra.
  - f_equal; lra || (f_equal; lra).
Qed.

Lemma set_w_exact t wp w :
  0 <= wp <= w -> 0 < w -> 0 < kk exact t ->
  let t' := set_w exact t wp w in
  weight exact t' = w /\ weight_p exact t' = wp /\
  0 <= fr exact t' <= 1 /\ 0 <= co exact t' < 1 /\ kk exact t' = kk exact t.
Proof.
  destruct t as [f c k]. intros H P K t'. cbn [kk] in K |- *.
  assert (E : t' = exact_truth (wp / w) (w / (w + k)) k).
  { unfold t', set_w. cbn. rewrite Rlt_bool_true; [reflexivity|]. lra. }
  rewrite E. pose proof (conf_range w k ltac:(lra) K).
  rewrite weight_exact, weight_p_exact, W_back by lra.
  cbn [fr co kk exact_truth]. split; [reflexivity|]. split; [real; field; lra|].
  split; [split; [apply div_pos|apply div_le]; lra|]. split; auto.
Qed.

Lemma weights_add f c k : c < 1 ->
  let t := exact_truth f c k in
  weight_p exact t + weight_m exact t = weight exact t.
Proof. intros H. cbn. real. field. lra. Qed.

Lemma from_w_exact f c k :
  0 <= f <= 1 -> 0 <= c < 1 -> 0 < k ->
  let t := exact_truth f c k in
  1 / 100000000 < weight exact t ->
  let '(wp, wm) := w_from_truth exact t in
  truth_from_w exact wp (wp + wm) k = t.
Proof.
  intros F C K t H. unfold t in *. rewrite weight_exact in H.
  unfold w_from_truth, fc_to_w_plus, fc_to_w_minus. cbn [fr co kk exact_truth].
  cbn [smul sdiv ssub exact one sint].
  unfold truth_from_w, w_to_f, w_to_c, threshold, dzero. cbn [deq dlt dfrac up down sadd sdiv exact].
  unfold one. cbn [sint exact].
  replace (k * f * c / (1 - c)) with (f * W c k) by (unfold W; field; lra).
  replace (k * (1 - f) * c / (1 - c)) with ((1 - f) * W c k) by (unfold W; field; lra).
  replace (f * W c k + (1 - f) * W c k) with (W c k) by ring.
  rewrite Req_bool_false by lra. cbn [negb].
  rewrite Rlt_bool_true by exact H. unfold exact_truth. f_equal.
  - real. field. lra.
  - now apply C_back.
Qed.

(* Projection *)
Local Open Scope Z_scope.

Lemma int64_ok z : - 9223372036854775808 <= z <= 9223372036854775807 -> int64 z = Ok z.
Proof.
  intros H. unfold int64. destruct (Z.leb_spec (- 9223372036854775808) z); [|lia].
  destruct (Z.leb_spec z 9223372036854775807); [reflexivity|lia].
Qed.

(* The factor 1 - k_c is 1 or 0 *)
Lemma project_eq A (t : truth A) s c g d :
  moderate s -> moderate c -> moderate g -> 0 <= d < 9223372036854775808 ->
  project A t s c g d =
  Ok (Truth A (fr A t)
       (smul A (sint A (if (d =? 0) && negb (s =? g) && (Z.abs (s - c) + Z.abs (g - c) =? Z.abs (s - g))
                        then 0 else 1)) (co A t)) (kk A t)).
Proof.
  unfold moderate. intros Hs Hc Hg Hd. unfold project.
  repeat (rewrite int64_ok by lia; cbn [bind]).
  rewrite Z.mod_small by (unfold two64; lia).
  set (a := Z.abs (s - c)). set (b := Z.abs (g - c)).
  assert (T : Z.abs (s - g) <= a + b) by lia.
  destruct (Z.ltb_spec 0 (a + b + d)) as [L|L]; cbn [bind].
  - destruct (Z.eqb_spec d 0) as [->|N]; cbn [andb].
    + destruct (Z.eqb_spec s g) as [->|N]; cbn [andb negb].
      * rewrite Z.sub_diag. reflexivity.
      * destruct (Z.eqb_spec (a + b) (Z.abs (s - g))) as [E|N'].
        -- replace (Z.abs (s - g) / (a + b + 0)) with 1; [reflexivity|].
           rewrite Z.add_0_r, E, Z_div_same; lia.
        -- rewrite Z.div_small by lia. reflexivity.
    + rewrite Z.div_small by lia. reflexivity.
  - assert (a + b + d = 0) by lia. assert (d = 0) by lia. subst d.
    replace (s =? g) with true by (symmetry; apply Z.eqb_eq; lia). reflexivity.
Qed.

Local Open Scope R_scope.

Lemma mul_one32 (x : float32) : is_finite x = true -> B2R (smul ieee (sint ieee 1) x : float32) = B2R x
  /\ is_finite (smul ieee (sint ieee 1) x : float32) = true.
Proof.
  intros F. assert (X : at_ x (B2R x)) by (split; auto).
  pose proof (Bmult_correct 24 128 _ _ mode_NE (of_Z32 1) x) as C.
  destruct (of_Z32_at 1 eq_refl) as [F1 V1]. rewrite V1, Rmult_1_l in C.
  change (round radix2 (SpecFloat.fexp 24 128) (round_mode mode_NE)) with rnd32 in C.
  rewrite (rnd_id 24 128 (B2R x)) in C by apply (at_fmt _ _ _ _ X).
  rewrite Rlt_bool_true in C by apply abs_B2R_lt_emax.
  destruct C as (C1 & C2 & _). cbn [smul sint ieee]. rewrite C1, C2, F1, F. auto.
Qed.

Lemma project_ok t s c g d :
  is_finite (co ieee t : float32) = true ->
  moderate s -> moderate c -> moderate g -> (0 < d < 9223372036854775808)%Z ->
  exists t', project ieee t s c g d = Ok t' /\ fr ieee t' = fr ieee t /\ kk ieee t' = kk ieee t /\
    is_finite (co ieee t' : float32) = true /\
    B2R (co ieee t' : float32) = B2R (co ieee t : float32).
Proof.
  intros F Hs Hc Hg Hd. rewrite project_eq by (auto; lia).
  replace (d =? 0)%Z with false by (symmetry; apply Z.eqb_neq; lia). cbn [andb].
  eexists. split; [reflexivity|]. cbn [fr kk co].
  destruct (mul_one32 _ F) as (A & B). auto.
Qed.

(* Disjunction of a list *)
Lemma mul_one64 (y : float64) : dmul ieee (done ieee) y = y.
Proof.
  destruct done_at as [F1 V1]. cbn [dmul ieee].
  destruct (is_finite y) eqn:F.
  - assert (Y : at_ y (B2R y)) by (split; auto).
    pose proof (Bmult_correct 53 1024 _ _ mode_NE (done ieee : float64) y) as C.
    rewrite V1, Rmult_1_l in C.
    change (round radix2 (SpecFloat.fexp 53 1024) (round_mode mode_NE)) with rnd64 in C.
    rewrite (rnd_id 53 1024 (B2R y)) in C by apply (at_fmt _ _ _ _ Y).
    rewrite Rlt_bool_true in C by apply abs_B2R_lt_emax.
    destruct C as (C1 & C2 & C3). rewrite F1, F in C2.
    assert (S : Bsign (done ieee : float64) = false) by (vm_compute; reflexivity).
    rewrite S in C3.
    revert C1 C2 C3. generalize (Bmult mode_NE (done ieee : float64) y). intros z C1 C2 C3.
    apply B2R_Bsign_inj; [exact C2|exact F|exact C1|].
    rewrite C3, xorb_false_l; [reflexivity|]. now destruct z.
  - destruct y as [s|s| |s m e B]; try discriminate F.
    + destruct s; vm_compute; reflexivity.
    + vm_compute; reflexivity.
Qed.

Lemma or_lists x1 x2 x3 x4 :
  Or_list ieee [x1; x2] = Or2 ieee x1 x2 /\
  Or_list ieee [x1; x2; x3] = Or3 ieee x1 x2 x3 /\
  Or_list ieee [x1; x2; x3; x4] = Or4 ieee x1 x2 x3 x4.
Proof.
  unfold Or_list, Or2, Or3, Or4. cbn [fold_left]. now rewrite mul_one64.
Qed.

Lemma or_list_range l : Forall (within 0 1) (l : list float64) ->
  within 0 1 (Or_list ieee l : float64).
Proof.
  intros H. unfold Or_list.
  assert (G : forall acc, within 0 1 (acc : float64) ->
    within 0 1 (fold_left (fun a x => dmul ieee a (dsub ieee (done ieee) x)) l acc : float64)).
  { induction H as [|x l Hx Hl IH]; intros acc Ha; cbn [fold_left]; auto.
    apply IH. apply within_at in Hx. apply within_at in Ha.
    destruct Hx as (v & X & V). destruct Ha as (a & A & Va).
    pose proof (sub64 _ _ _ _ done_at X ltac:(lra)) as S.
    assert (Us : unit (rnd64 (1 - v))) by (split; [apply lb64|apply ub64]; auto with fmt; lra).
    destruct (mul_unit _ _ _ _ A S Va Us) as (M1 & M2 & _).
    apply within_at. eexists. split; [exact M1|exact M2]. }
  assert (D : within 0 1 (done ieee : float64)) by (apply within_at; exists 1; split; [apply done_at|lra]).
  specialize (G _ D). apply within_at in G. destruct G as (v & X & V).
  pose proof (sub64 _ _ _ _ done_at X ltac:(lra)) as S.
  apply within_at. eexists. split; [exact S|]. split; [apply lb64|apply ub64]; auto with fmt; lra.
Qed.

Lemma project_range t s c g d :
  proper t -> moderate s -> moderate c -> moderate g -> (0 <= d < 9223372036854775808)%Z ->
  exists t', project ieee t s c g d = Ok t' /\ fr ieee t' = fr ieee t /\ kk ieee t' = kk ieee t /\
    proper t' /\
    B2R (co ieee t' : float32) =
      (if (Z.eqb d 0 && negb (Z.eqb s g) && (Z.eqb (Z.abs (s - c) + Z.abs (g - c)) (Z.abs (s - g))))%bool
       then 0 else B2R (co ieee t : float32)).
Proof.
  intros [Pf [Fc Pc]] Hs Hc Hg Hd. rewrite project_eq by auto.
  eexists. split; [reflexivity|]. cbn [fr kk co]. split; [reflexivity|]. split; [reflexivity|].
  destruct (mul_one32 _ Fc) as (V1 & F1).
  destruct (_ && _)%bool.
  - assert (X : at_ (co ieee t : float32) (B2R (co ieee t : float32))) by (split; auto).
    assert (Z0 : at_ (of_Z32 0) 0) by (apply (of_Z32_at 0); reflexivity).
    pose proof (mul32 _ _ _ _ 1 ltac:(lia) Z0 X) as M. rewrite Rmult_0_l in M.
    specialize (M ltac:(split; [lra|apply bpow_ge_0])).
    rewrite (rnd_id 24 128 0) in M by apply generic_format_0.
    destruct M as [M1 M2]. split; [|exact M2]. split; [exact Pf|].
    cbn [co]. split; [exact M1|]. split; [apply Req_le; symmetry; exact M2|].
    apply Rle_trans with 0; [apply Req_le; exact M2|lra].
  - split; [|exact V1]. split; [exact Pf|]. cbn [co]. split; [exact F1|].
    rewrite V1. exact Pc.
Qed.
