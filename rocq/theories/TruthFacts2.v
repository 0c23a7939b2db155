(* Revision in IEEE arithmetic *)
From Coq Require Import ZArith List Bool Reals Lra Lia.
From Flocq Require Import Core BinarySingleNaN Mult_error Plus_error Relative.
From Verif Require Import Base Hash Float FloatFacts Truth TruthSpec TruthFacts.
Import ListNotations.
Local Open Scope R_scope.

(* Operations in float *)
Lemma mul32 x y a b e : (0 <= e < 128)%Z -> at_ x a -> at_ y b -> 0 <= a * b <= bpow radix2 e ->
  at_ (smul ieee x y : float32) (rnd32 (a * b)).
Proof.
  intros E X Y H. apply mul_at with (e := e); auto; [change (SpecFloat.emin 24 128) with (-149)%Z; lia|].
  rewrite Rabs_pos_eq; lra.
Qed.

Lemma add32 x y a b e : (0 <= e < 128)%Z -> at_ x a -> at_ y b -> 0 <= a + b <= bpow radix2 e ->
  at_ (sadd ieee x y : float32) (rnd32 (a + b)).
Proof.
  intros E X Y H. apply add_at with (e := e); auto; [change (SpecFloat.emin 24 128) with (-149)%Z; lia|].
  rewrite Rabs_pos_eq; lra.
Qed.

Lemma sub32 x y a b e : (0 <= e < 128)%Z -> at_ x a -> at_ y b -> 0 <= a - b <= bpow radix2 e ->
  at_ (ssub ieee x y : float32) (rnd32 (a - b)).
Proof.
  intros E X Y H. apply sub_at with (e := e); auto; [change (SpecFloat.emin 24 128) with (-149)%Z; lia|].
  rewrite Rabs_pos_eq; lra.
Qed.

Lemma div32 x y a b e : (0 <= e < 128)%Z -> at_ x a -> at_ y b -> b <> 0 -> 0 <= a / b <= bpow radix2 e ->
  at_ (sdiv ieee x y : float32) (rnd32 (a / b)).
Proof.
  intros E X Y N H. apply div_at with (e := e); auto; [change (SpecFloat.emin 24 128) with (-149)%Z; lia|].
  rewrite Rabs_pos_eq; lra.
Qed.

Lemma bpow32 e : (-149 <= e)%Z -> fmt32 (bpow radix2 e).
Proof. intros H. apply (fmt_bpow 24 128). exact H. Qed.

Lemma bpow64 e : (-1074 <= e)%Z -> fmt64 (bpow radix2 e).
Proof. intros H. apply (fmt_bpow 53 1024). exact H. Qed.

Lemma rnd32_range x e : (-149 <= e)%Z -> 0 <= x <= bpow radix2 e -> 0 <= rnd32 x <= bpow radix2 e.
Proof.
  intros E H. split; [apply lb32|apply ub32]; auto with fmt; try lra. now apply bpow32.
Qed.

Lemma rnd64_range x e : (-1074 <= e)%Z -> 0 <= x <= bpow radix2 e -> 0 <= rnd64 x <= bpow radix2 e.
Proof.
  intros E H. split; [apply lb64|apply ub64]; auto with fmt; try lra. now apply bpow64.
Qed.

Lemma div_le a b c : 0 < b -> (a / b <= c <-> a <= c * b).
Proof.
  intros B. split; intros H.
  - apply Rmult_le_compat_r with (r := b) in H; [|lra]. unfold Rdiv in H.
    rewrite Rmult_assoc, Rinv_l in H; lra.
  - apply Rmult_le_reg_r with b; auto. unfold Rdiv. rewrite Rmult_assoc, Rinv_l; lra.
Qed.

Lemma div_pos a b : 0 <= a -> 0 < b -> 0 <= a / b.
Proof. intros. apply Rmult_le_pos; auto. apply Rlt_le, Rinv_0_lt_compat; auto. Qed.

Lemma div_mono a a' b : a <= a' -> 0 < b -> a / b <= a' / b.
Proof. intros. apply Rmult_le_compat_r; auto. apply Rlt_le, Rinv_0_lt_compat; auto. Qed.

(* 1 - c for a confidence below 1 *)
Lemma one_minus_c c : fmt32 c -> unit c -> c < 1 ->
  bpow radix2 (-24) <= rnd32 (1 - c) <= 1.
Proof.
  intros F U L. unfold unit in U. pose proof (fmt32_below_1 c F L).
  split; [apply lb32; [lra|apply bpow32; lia]|apply ub32; auto with fmt; lra].
Qed.

Definition w_of (k f c : R) : R * R :=
  (rnd32 (rnd32 (k * c) / rnd32 (1 - c)),
   rnd32 (rnd32 (rnd32 (k * f) * c) / rnd32 (1 - c))).

(* The weights of one truth value *)
Lemma weights_ok t k f c :
  at_ (kk ieee t : float32) k -> at_ (fr ieee t : float32) f -> at_ (co ieee t : float32) c ->
  0 < k <= bpow radix2 100 -> unit f -> unit c -> c < 1 ->
  at_ (weight ieee t : float64) (fst (w_of k f c)) /\
  at_ (weight_p ieee t : float64) (snd (w_of k f c)) /\
  0 <= snd (w_of k f c) <= fst (w_of k f c) /\
  fst (w_of k f c) <= bpow radix2 124 /\
  fmt32 (fst (w_of k f c)) /\ fmt32 (snd (w_of k f c)).
Proof.
  intros K F C Hk Uf Uc L. pose proof (at_fmt _ _ _ _ C) as Fc. pose proof (at_fmt _ _ _ _ K) as Fk.
  destruct (one_minus_c c Fc Uc L) as (O1 & O2). unfold unit in *.
  assert (P24 : 0 < bpow radix2 (-24)) by apply bpow_gt_0.
  assert (B1 : bpow radix2 0 <= bpow radix2 100) by (apply bpow_le; lia). cbn [bpow] in B1.
  assert (Om : at_ (ssub ieee (one ieee) (co ieee t) : float32) (rnd32 (1 - c))).
  { apply sub32 with (e := 0%Z); [lia|apply one_at|exact C|cbn; lra]. }
  assert (H1 : 0 <= k * c <= k) by (split; nra).
  assert (Kc : at_ (smul ieee (kk ieee t) (co ieee t) : float32) (rnd32 (k * c))).
  { apply mul32 with (e := 100%Z); auto; [lia|lra]. }
  assert (R1 : 0 <= rnd32 (k * c) <= bpow radix2 100) by (apply rnd32_range; [lia|lra]).
  assert (H2 : 0 <= k * f <= k) by (split; nra).
  assert (Kf : at_ (smul ieee (kk ieee t) (fr ieee t) : float32) (rnd32 (k * f))).
  { apply mul32 with (e := 100%Z); auto; [lia|lra]. }
  assert (R2 : 0 <= rnd32 (k * f) <= k) by (split; [apply lb32|apply ub32]; auto with fmt; lra).
  assert (H3 : 0 <= rnd32 (k * f) * c <= k * c) by (split; [nra|apply Rmult_le_compat_r; lra]).
  assert (Kfc : at_ (smul ieee (smul ieee (kk ieee t) (fr ieee t)) (co ieee t) : float32)
                    (rnd32 (rnd32 (k * f) * c))).
  { apply mul32 with (e := 100%Z); auto; [lia|lra]. }
  assert (R3 : 0 <= rnd32 (rnd32 (k * f) * c) <= rnd32 (k * c))
    by (split; [apply lb32; auto with fmt; lra|apply le32; lra]).
  set (om := rnd32 (1 - c)) in *.
  assert (Q : forall x, 0 <= x <= bpow radix2 100 -> 0 <= x / om <= bpow radix2 124).
  { intros x Hx. split; [apply div_pos; lra|]. apply div_le; [lra|].
    apply Rle_trans with (bpow radix2 124 * bpow radix2 (-24)).
    - rewrite <- bpow_plus. apply Hx.
    - apply Rmult_le_compat_l; [apply bpow_ge_0|auto]. }
  unfold w_of. cbn [fst snd]. fold om.
  pose proof (Q _ R1) as Q1. pose proof (Q (rnd32 (rnd32 (k * f) * c)) ltac:(lra)) as Q2.
  split; [apply up_at; apply div32 with (e := 124%Z); auto; [lia|lra]|].
  split; [apply up_at; apply div32 with (e := 124%Z); auto; [lia|lra]|].
  repeat split.
  - apply lb32; auto with fmt; lra.
  - apply le32. apply div_mono; lra.
  - apply rnd32_range; [lia|lra].
  - apply (rnd_fmt 24 128).
  - apply (rnd_fmt 24 128).
Qed.

Lemma threshold_at : exists v, at_ (threshold ieee : float64) v /\ 0 < v.
Proof.
  exists (rnd64 (1 / 100000000)). split.
  - cbn [threshold dfrac ieee]. apply div64.
    + now apply of_Z64_at.
    + now apply of_Z64_at.
    + lra.
    + lra.
  - apply Rlt_le_trans with (bpow radix2 (-27)); [apply bpow_gt_0|].
    apply lb64; [cbn; lra|apply bpow64; lia].
Qed.

(* w_to_f and w_to_c *)
Lemma w_to_f_ok wp w a b : at_ (wp : float32) a -> at_ (w : float32) b -> 0 <= a <= b ->
  within 0 1 (w_to_f ieee wp w : float32).
Proof.
  intros A B H. unfold w_to_f. destruct threshold_at as (t & T & Tp).
  replace (dlt ieee (threshold ieee) (up ieee w)) with (Rlt_bool t b)
    by (symmetry; apply lt_at; [auto|now apply up_at]).
  destruct (Rlt_bool_spec t b) as [L|L].
  - assert (Q : 0 <= a / b <= 1) by (split; [apply div_pos; lra|apply div_le; lra]).
    assert (D : at_ (sdiv ieee wp w : float32) (rnd32 (a / b))) by (apply div32 with (e := 0%Z); auto; [lia|lra]).
    assert (0 <= rnd32 (a / b) <= 1) by (apply (rnd32_range _ 0); [lia|auto]).
    eapply down_in; [apply up_at, D| | | |]; auto with fmt.
  - eapply down_in; [apply dzero_at| | | |]; auto with fmt; unfold unit; lra.
Qed.

Lemma w_to_c_ok w k b v : at_ (w : float32) b -> at_ (k : float32) v ->
  0 <= b <= bpow radix2 126 -> 0 < v <= bpow radix2 100 ->
  at_ (w_to_c ieee w k : float32) (rnd32 (b / rnd32 (b + v))) /\
  unit (rnd32 (b / rnd32 (b + v))).
Proof.
  intros B K Hb Hv. unfold w_to_c.
  assert (P : bpow radix2 126 + bpow radix2 100 <= bpow radix2 127).
  { assert (bpow radix2 100 <= bpow radix2 126) by (apply bpow_le; lia).
    change (bpow radix2 127) with (bpow radix2 (1 + 126)). rewrite bpow_plus. cbn [bpow] in *.
    change (IZR (Zpower_pos radix2 1)) with 2. lra. }
  assert (S : at_ (sadd ieee w k : float32) (rnd32 (b + v))) by (apply add32 with (e := 127%Z); auto; [lia|lra]).
  assert (S1 : b <= rnd32 (b + v)) by (apply lb32; [lra|now apply (at_fmt _ _ w)]).
  assert (S2 : v <= rnd32 (b + v)) by (apply lb32; [lra|now apply (at_fmt _ _ k)]).
  assert (Q : 0 <= b / rnd32 (b + v) <= 1) by (split; [apply div_pos; lra|apply div_le; lra]).
  split.
  - apply div32 with (e := 0%Z); auto; [lia|lra].
  - apply (rnd32_range _ 0); [lia|auto].
Qed.

Record usable (t : truth ieee) (k f c : R) : Prop := {
  u_k : at_ (kk ieee t : float32) k;
  u_f : at_ (fr ieee t : float32) f;
  u_c : at_ (co ieee t : float32) c;
  u_kr : 0 < k <= bpow radix2 100;
  u_fr : unit f;
  u_cr : unit c;
  u_open : c < 1
}.

Lemma usable_of t : proper t -> open t -> sane_k t ->
  usable t (B2R (kk ieee t : float32)) (B2R (fr ieee t : float32)) (B2R (co ieee t : float32)).
Proof.
  intros [[F1 F2] [C1 C2]] O [K1 K2]. constructor; auto; try (split; auto; fail); apply F2 || apply C2.
Qed.

Lemma revision_weights t1 t2 k1 f1 c1 k2 f2 c2 :
  usable t1 k1 f1 c1 -> usable t2 k2 f2 c2 ->
  let w := rnd32 (rnd64 (fst (w_of k1 f1 c1) + fst (w_of k2 f2 c2))) in
  exists wp,
  at_ (down ieee (dadd ieee (weight ieee t1) (weight ieee t2)) : float32) w /\
  at_ (down ieee (dadd ieee (weight_p ieee t1) (weight_p ieee t2)) : float32) wp /\
  0 <= wp <= w /\ w <= bpow radix2 126.
Proof.
  intros [K1 F1 C1 A1 A2 A3 A4] [K2 F2 C2 B1 B2 B3 B4].
  destruct (weights_ok t1 k1 f1 c1 K1 F1 C1 A1 A2 A3 A4) as (X1 & X2 & X3 & X4 & _).
  destruct (weights_ok t2 k2 f2 c2 K2 F2 C2 B1 B2 B3 B4) as (Y1 & Y2 & Y3 & Y4 & _).
  set (w1 := fst (w_of k1 f1 c1)) in *. set (p1 := snd (w_of k1 f1 c1)) in *.
  set (w2 := fst (w_of k2 f2 c2)) in *. set (p2 := snd (w_of k2 f2 c2)) in *.
  assert (P : bpow radix2 125 = bpow radix2 124 + bpow radix2 124).
  { change (bpow radix2 125) with (bpow radix2 (1 + 124)). rewrite bpow_plus. cbn [bpow].
    change (IZR (Zpower_pos radix2 1)) with 2. lra. }
  assert (B : bpow radix2 125 <= bpow radix2 200) by (apply bpow_le; lia).
  assert (S : at_ (dadd ieee (weight ieee t1) (weight ieee t2) : float64) (rnd64 (w1 + w2)))
    by (apply add64; auto; rewrite Rabs_pos_eq; lra).
  assert (Sp : at_ (dadd ieee (weight_p ieee t1) (weight_p ieee t2) : float64) (rnd64 (p1 + p2)))
    by (apply add64; auto; rewrite Rabs_pos_eq; lra).
  pose proof (rnd64_range (w1 + w2) 125 ltac:(lia) ltac:(lra)) as R1.
  pose proof (rnd64_range (p1 + p2) 125 ltac:(lia) ltac:(lra)) as R2.
  exists (rnd32 (rnd64 (p1 + p2))).
  assert (B' : bpow radix2 125 <= bpow radix2 126) by (apply bpow_le; lia).
  split; [apply to32_at with (e := 125%Z); auto; [lia|]; rewrite Rabs_pos_eq; lra|].
  split; [apply to32_at with (e := 125%Z); auto; [lia|]; rewrite Rabs_pos_eq; lra|].
  repeat split.
  - apply lb32; auto with fmt; lra.
  - apply le32, le64. lra.
  - apply rnd32_range; [lia|lra].
Qed.

(* C47 *)
Lemma revision_ok m p1 p2 :
  proper (m p1) -> open (m p1) -> sane_k (m p1) ->
  proper (m p2) -> open (m p2) -> sane_k (m p2) ->
  let m' := truth_revision ieee m p1 p2 in
  proper (m' p1) /\ kk ieee (m' p1) = kk ieee (m p1) /\
  forall p, p <> p1 -> m' p = m p.
Proof.
  intros P1 O1 K1 P2 O2 K2 m'.
  pose proof (usable_of _ P1 O1 K1) as U1. pose proof (usable_of _ P2 O2 K2) as U2.
  destruct (revision_weights _ _ _ _ _ _ _ _ U1 U2) as (wp & W1 & W2 & W3 & W4).
  set (w := rnd32 _) in *.
  unfold m', truth_revision. rewrite Z.eqb_refl. cbn [fr co kk]. split; [|split].
  - split; cbn [fr co].
    + eapply w_to_f_ok; eauto.
    + destruct (w_to_c_ok _ _ _ _ W1 (u_k _ _ _ _ U1)) as (C1 & C2); [lra|apply U1|].
      apply within_at. eexists. split; [exact C1|exact C2].
  - reflexivity.
  - intros p Hp. destruct (Z.eqb_spec p p1); congruence.
Qed.

(* C48, partial: k = 1 and confidences up to 1 - 2^-14 *)
Definition top : R := 1 - 22 * bpow radix2 (-24).

Lemma w_of_bound f c x : fmt32 c -> unit c -> fmt32 x -> c <= 1 - x -> 0 < x ->
  fst (w_of 1 f c) <= rnd32 ((1 - x) / x).
Proof.
  intros F U Fx H X. unfold w_of. cbn [fst]. rewrite Rmult_1_l, (rnd_id 24 128 c F).
  apply le32. unfold unit in U.
  assert (x <= rnd32 (1 - c)) by (apply lb32; auto; lra).
  apply div_le; [lra|].
  apply Rle_trans with ((1 - x) / x * x).
  - unfold Rdiv. rewrite Rmult_assoc, Rinv_l; lra.
  - apply Rmult_le_compat_l; auto. apply div_pos; lra.
Qed.

(* The largest total weight *)
Definition wmax : R := IZR 12463724 * bpow radix2 (-4).

Lemma small_x e : (-149 <= e)%Z -> fmt32 (bpow radix2 e).
Proof. apply bpow32. Qed.

Lemma sum_bound f1 c1 f2 c2 :
  fmt32 c1 -> unit c1 -> c1 <= top -> fmt32 c2 -> unit c2 -> c2 <= 1 - bpow radix2 (-14) ->
  rnd32 (rnd64 (fst (w_of 1 f1 c1) + fst (w_of 1 f2 c2))) <= wmax.
Proof.
  intros F1 U1 H1 F2 U2 H2.
  assert (A : fst (w_of 1 f1 c1) <= IZR 12201596 * bpow radix2 (-4)).
  { eapply Rle_trans; [apply (w_of_bound _ _ (IZR 22 * bpow radix2 (-24))); auto|].
    - apply fmt32_dyadic; [reflexivity|lia].
    - cbn; lra.
    - apply ub32; [|apply fmt32_dyadic; [reflexivity|lia]]. apply div_le; cbn; lra. }
  assert (B : fst (w_of 1 f2 c2) <= 16383).
  { eapply Rle_trans; [apply (w_of_bound _ _ (bpow radix2 (-14))); auto|].
    - apply bpow32. lia.
    - apply bpow_gt_0.
    - apply ub32; [|apply fmt32_Z; reflexivity]. apply div_le; cbn; lra. }
  apply ub32; [|apply fmt32_dyadic; [reflexivity|lia]].
  apply ub64; [|apply fmt64_dyadic; [reflexivity|lia]].
  unfold wmax. cbn in *. lra.
Qed.

(* w + 1 is a float for large floats w below wmax *)
Lemma plus_1 w : fmt32 w -> bpow radix2 19 <= w <= wmax -> fmt32 (w + 1).
Proof.
  intros F [L H].
  assert (M : (20 <= mag radix2 w)%Z).
  { apply mag_ge_bpow. rewrite Rabs_pos_eq; [exact L|]. apply Rle_trans with (2 := L). apply bpow_ge_0. }
  destruct (ex_shift radix2 _ w (-4) F) as (n & ->).
  { unfold cexp, SpecFloat.fexp, SpecFloat.emin. lia. }
  replace (IZR n * bpow radix2 (-4) + 1) with (IZR (n + 16) * bpow radix2 (-4)).
  2: { rewrite plus_IZR. cbn. lra. }
  apply fmt32_dyadic; [|lia].
  unfold wmax in H. assert (P : 0 < bpow radix2 (-4)) by apply bpow_gt_0.
  assert (IZR n <= IZR 12463724) by (apply Rmult_le_reg_r with (1 := P); exact H).
  assert (0 < IZR n).
  { apply Rmult_lt_reg_r with (1 := P). rewrite Rmult_0_l. apply Rlt_le_trans with (2 := L). apply bpow_gt_0. }
  apply le_IZR in H0. apply lt_IZR in H1. lia.
Qed.

Lemma round_top x : x < 1 - 21.5 * bpow radix2 (-24) -> rnd32 x <= top.
Proof.
  intros H. destruct (Rle_or_lt x top) as [L|L].
  - apply ub32; auto. unfold top.
    replace (1 - 22 * bpow radix2 (-24)) with (IZR 16777194 * bpow radix2 (-24)) by (cbn; lra).
    apply fmt32_dyadic; [reflexivity|lia].
  - (* between top and the next float, closer to top *)
    assert (Ft : fmt32 top).
    { unfold top. replace (1 - 22 * bpow radix2 (-24)) with (IZR 16777194 * bpow radix2 (-24)) by (cbn; lra).
      apply fmt32_dyadic; [reflexivity|lia]. }
    unfold rnd. apply round_N_le_midp; [apply (fexp_correct 24 128 prec32)|exact Ft|].
    assert (U : ulp radix2 (SpecFloat.fexp 24 128) top = bpow radix2 (-24)).
    { rewrite ulp_neq_0 by (unfold top; cbn; lra). f_equal. unfold cexp.
      rewrite (mag_unique radix2 top 0).
      - reflexivity.
      - unfold top. rewrite Rabs_pos_eq by (cbn; lra). cbn. lra. }
    rewrite succ_eq_pos by (unfold top; cbn; lra). rewrite U. unfold top. cbn in *. lra.
Qed.

Lemma quotient_bound w : fmt32 w -> 0 <= w <= wmax ->
  w / rnd32 (w + 1) < 1 - 21.5 * bpow radix2 (-24).
Proof.
  intros F [L H].
  assert (S : 1 <= rnd32 (w + 1)) by (apply lb32; auto with fmt; lra).
  apply Rmult_lt_reg_r with (rnd32 (w + 1)); [lra|].
  unfold Rdiv. rewrite Rmult_assoc, Rinv_l, Rmult_1_r by lra.
  destruct (Rle_or_lt (bpow radix2 19) w) as [G|G].
  - rewrite (rnd_id 24 128 (w + 1)) by (apply plus_1; auto).
    unfold wmax in H. cbn in *. lra.
  - (* relative rounding error *)
    assert (E : w + 1 - rnd32 (w + 1) <= / 2 * bpow radix2 (-24 + 1) * (w + 1)).
    { pose proof (relative_error_N_FLT radix2 (-149) 24 eq_refl (fun x => negb (Z.even x)) (w + 1)) as R.
      rewrite (Rabs_pos_eq (w + 1)) in R by lra.
      assert (T : bpow radix2 (-149 + 24 - 1) <= w + 1).
      { apply Rle_trans with (bpow radix2 0); [apply bpow_le; lia|cbn; lra]. }
      specialize (R T).
      assert (R' : Rabs (rnd32 (w + 1) - (w + 1)) <= / 2 * bpow radix2 (-24 + 1) * (w + 1)) by exact R.
      apply Rabs_le_inv in R'. lra. }
    cbn in *. lra.
Qed.

Lemma unit_k_at t : unit_k t -> at_ (kk ieee t : float32) 1.
Proof. intros ->. apply (of_Z32_at 1). reflexivity. Qed.

Definition low (t : truth ieee) : Prop :=
  proper t /\ unit_k t /\ B2R (co ieee t : float32) <= top.

Lemma revise_low t u : low t -> proper u -> unit_k u -> B2R (co ieee u : float32) <= 1 - bpow radix2 (-14) ->
  low (truth_revision ieee (fun p => if Z.eqb p 1 then t else u) 1 2 1%Z).
Proof.
  intros (P & K & C) Pu Ku Cu.
  assert (T1 : top < 1) by (unfold top; cbn; lra).
  assert (T2 : 1 - bpow radix2 (-14) < 1) by (cbn; lra).
  assert (S : forall t, unit_k t -> sane_k t).
  { intros t0 E. destruct (unit_k_at _ E) as [F V]. split; auto. rewrite V. split; [lra|].
    change 1 with (bpow radix2 0). apply bpow_le. lia. }
  assert (Ot : open t) by (unfold open; lra).
  assert (Ou : open u) by (unfold open; lra).
  pose proof (usable_of _ P Ot (S _ K)) as U1. pose proof (usable_of _ Pu Ou (S _ Ku)) as U2.
  destruct (unit_k_at _ K) as [_ V1]. destruct (unit_k_at _ Ku) as [_ V2].
  rewrite V1 in U1. rewrite V2 in U2.
  pose proof (revision_ok (fun p => if Z.eqb p 1 then t else u) 1 2
    P Ot (S _ K) Pu Ou (S _ Ku)) as R. cbn zeta in R. destruct R as (R1 & R2 & _).
  split; [exact R1|]. split; [unfold unit_k; rewrite R2; exact K|].
  destruct (revision_weights _ _ _ _ _ _ _ _ U1 U2) as (wp & W1 & W2 & W3 & W4).
  pose proof (sum_bound (B2R (fr ieee t : float32)) (B2R (co ieee t : float32))
                (B2R (fr ieee u : float32)) (B2R (co ieee u : float32))
                (at_fmt _ _ _ _ (u_c _ _ _ _ U1)) (u_cr _ _ _ _ U1) C
                (at_fmt _ _ _ _ (u_c _ _ _ _ U2)) (u_cr _ _ _ _ U2) Cu) as W5.
  set (w := rnd32 _) in *.
  destruct (w_to_c_ok _ _ _ _ W1 (u_k _ _ _ _ U1)) as (C1 & C2); [lra|apply U1|].
  unfold truth_revision. cbn [Z.eqb Pos.eqb co].
  destruct C1 as [_ C1]. cbn [Z.eqb Pos.eqb] in C1 |- *.
  match goal with |- B2R ?x <= _ => replace (B2R x) with (rnd32 (w / rnd32 (w + 1))) end.
  apply round_top, quotient_bound; [apply (at_fmt _ _ _ _ W1)|lra].
Qed.

Lemma revise_all_low l : forall t, low t ->
  Forall (fun u => proper u /\ unit_k u /\ B2R (co ieee u : float32) <= 1 - bpow radix2 (-14)) l ->
  low (revise_all t l).
Proof.
  induction l as [|u l IH]; intros t Ht Hl; cbn [revise_all]; auto.
  inversion Hl as [|? ? (A & B & C) Hl']; subst. apply IH; auto. now apply revise_low.
Qed.
