(* Concrete truth values: instances and counterexamples *)
From Coq Require Import ZArith List Bool Reals Lra Lia.
From Flocq Require Import Core BinarySingleNaN.
From Verif Require Import Base Hash Float FloatFacts Truth TruthSpec TruthFacts TruthFacts2 TruthFacts3 TruthFacts4 TruthFacts5.
Import ListNotations.
Local Open Scope R_scope.

(* The single-precision number m * 2^e *)
Definition f32 (m e : Z) : float32 := binary_normalize 24 128 prec32 emax32 mode_NE m e false.

Lemma f32_at m e : (Z.abs m < 16777216)%Z -> (-149 <= e <= 0)%Z -> at_ (f32 m e) (IZR m * bpow radix2 e).
Proof.
  intros M E.
  assert (L : Rabs (F2R (Float radix2 m e)) <= bpow radix2 24).
  { unfold F2R. cbn [Fnum Fexp]. rewrite Rabs_mult, <- abs_IZR.
    rewrite (Rabs_pos_eq (bpow radix2 e)) by apply bpow_ge_0.
    pose proof (bpow_le radix2 e 0 ltac:(lia)) as B. change (bpow radix2 0) with 1 in B.
    pose proof (bpow_ge_0 radix2 e).
    assert (IZR (Z.abs m) <= 16777216) by (apply IZR_le; lia).
    assert (0 <= IZR (Z.abs m)) by (apply IZR_le; lia).
    replace (bpow radix2 24) with 16777216 by (cbn; lra). nra. }
  pose proof (normalize_at 24 128 m e false 24
    ltac:(vm_compute; split; discriminate || reflexivity) L) as A.
  rewrite rnd_id in A; [exact A|].
  apply (generic_format_FLT radix2 (-149) 24).
  apply (FLT_spec radix2 (-149) 24 _ (Float radix2 m e)); auto; cbn [Fnum Fexp]; lia.
Qed.

Lemma f32_within m e : (0 <= m < 16777216)%Z -> (-149 <= e <= 0)%Z ->
  (m <= 2 ^ (- e))%Z -> within 0 1 (f32 m e).
Proof.
  intros M E H. apply within_at. eexists. split; [apply f32_at; lia|].
  pose proof (bpow_ge_0 radix2 e). assert (0 <= IZR m) by (apply IZR_le; lia).
  split; [nra|].
  assert (L : IZR m <= bpow radix2 (- e)).
  { rewrite <- IZR_Zpower by lia. apply IZR_le, H. }
  replace 1 with (bpow radix2 (- e) * bpow radix2 e).
  { apply Rmult_le_compat_r; auto. }
  rewrite <- bpow_plus. replace (- e + e)%Z with 0%Z by lia. reflexivity.
Qed.

Definition tv (mf ef mc ec : Z) : truth ieee := Truth ieee (f32 mf ef) (f32 mc ec) (of_Z32 1).

Ltac ztriv := vm_compute; (split; discriminate || reflexivity) || discriminate || reflexivity.

Lemma tv_proper mf ef mc ec :
  (0 <= mf < 16777216)%Z -> (-149 <= ef <= 0)%Z -> (mf <= 2 ^ (- ef))%Z ->
  (0 <= mc < 16777216)%Z -> (-149 <= ec <= 0)%Z -> (mc < 2 ^ (- ec))%Z ->
  proper (tv mf ef mc ec) /\ open (tv mf ef mc ec) /\ unit_k (tv mf ef mc ec) /\ sane_k (tv mf ef mc ec).
Proof.
  intros. split.
  { split; apply f32_within; auto. lia. }
  split.
  { unfold open, tv. cbn [co]. destruct (f32_at mc ec) as [_ ->]; [lia|auto|].
    replace 1 with (bpow radix2 (- ec) * bpow radix2 ec).
    - apply Rmult_lt_compat_r; [apply bpow_gt_0|].
      rewrite <- IZR_Zpower by lia. apply IZR_lt. auto.
    - rewrite <- bpow_plus. replace (- ec + ec)%Z with 0%Z by lia. reflexivity. }
  split; [reflexivity|].
  destruct (of_Z32_at 1 eq_refl) as [A B]. unfold sane_k, tv. cbn [kk]. split; [exact A|].
  rewrite B. split; [lra|]. change 1 with (bpow radix2 0). apply bpow_le. lia.
Qed.

Ltac values := apply tv_proper; ztriv.

(* 0.75 with 0.5 *)
Definition t_a : truth ieee := tv 3 (-2) 1 (-1).
(* 0.25 with the float nearest to 0.9 *)
Definition t_b : truth ieee := tv 1 (-2) 15099494 (-24).

Lemma t_a_ok : proper t_a /\ open t_a /\ unit_k t_a /\ sane_k t_a.
Proof. values. Qed.
Lemma t_b_ok : proper t_b /\ open t_b /\ unit_k t_b /\ sane_k t_b.
Proof. values. Qed.

(* Confidence just below 1 *)
Definition t_sure : truth ieee := tv 1 0 16777215 (-24).
Definition t_half : truth ieee := tv 1 0 1 (-1).

Lemma repeated_refuted :
  ~ (forall t l, proper t -> open t -> unit_k t ->
       Forall (fun u => proper u /\ open u /\ unit_k u) l -> proper (revise_all t l)).
Proof.
  intros H.
  assert (S : proper t_sure /\ open t_sure /\ unit_k t_sure /\ sane_k t_sure) by values.
  assert (U : proper t_half /\ open t_half /\ unit_k t_half /\ sane_k t_half) by values.
  destruct S as (S1 & S2 & S3 & _). destruct U as (U1 & U2 & U3 & _).
  specialize (H t_sure [t_half; t_half] S1 S2 S3).
  assert (F : Forall (fun u => proper u /\ open u /\ unit_k u) [t_half; t_half])
    by (constructor; [|constructor; [|constructor]]; auto).
  destruct (H F) as [_ [N _]]. vm_compute in N. discriminate N.
Qed.

Lemma low_case : low t_b /\ proper t_a /\ B2R (co ieee t_a : float32) <= 1 - bpow radix2 (-14).
Proof.
  destruct t_b_ok as (B1 & B2 & B3 & _). destruct t_a_ok as (A1 & _).
  split; [split; [exact B1|split; [exact B3|]]|split; [exact A1|]].
  - unfold t_b, tv. cbn [co]. destruct (f32_at 15099494 (-24)) as [_ ->]; [reflexivity|lia|].
    unfold top. cbn -[Rmult]. lra.
  - unfold t_a, tv. cbn [co]. destruct (f32_at 1 (-1)) as [_ ->]; [reflexivity|lia|].
    cbn -[Rmult]. lra.
Qed.

(* Comparison of two truth values both ways round *)
Definition t_c : truth ieee := tv 11114988 (-25) 15088576 (-30).
Definition t_d : truth ieee := tv 15214372 (-25) 15981840 (-25).

Lemma comparison_asymmetric :
  ~ (forall t1 t2, proper t1 -> proper t2 -> truth_comparison ieee t1 t2 = truth_comparison ieee t2 t1).
Proof.
  intros H.
  assert (C : proper t_c /\ open t_c /\ unit_k t_c /\ sane_k t_c) by values.
  assert (D : proper t_d /\ open t_d /\ unit_k t_d /\ sane_k t_d) by values.
  specialize (H t_c t_d (proj1 C) (proj1 D)).
  apply (f_equal (fun t => Beqb (fr ieee t : float32) (fr ieee (truth_comparison ieee t_d t_c) : float32))) in H.
  vm_compute in H. discriminate H.
Qed.

Lemma comparison_symmetric_exact t1 t2 : truth_comparison exact t1 t2 = truth_comparison exact t2 t1.
Proof.
  destruct t1 as [f1 c1 k1], t2 as [f2 c2 k2].
  unfold truth_comparison, And4, And3, Or2. cbn [fr co up exact dmul dsub].
  replace (f1 * f2 * c1 * c2) with (f2 * f1 * c2 * c1) by ring.
  replace ((done exact - (done exact - f1) * (done exact - f2)) * c1 * c2)
    with ((done exact - (done exact - f2) * (done exact - f1)) * c2 * c1) by ring.
  reflexivity.
Qed.

(* Revision with a judgement of confidence 0 *)
Definition t_e : truth ieee := tv 1 0 15338618 (-25).
Definition t_0 : truth ieee := tv 1 0 0 0.

Lemma confidence_lowered :
  ~ (forall m p1 p2, proper (m p1) -> open (m p1) -> unit_k (m p1) ->
       proper (m p2) -> open (m p2) -> unit_k (m p2) ->
       B2R (co ieee (m p1) : float32) <= B2R (co ieee (truth_revision ieee m p1 p2 p1) : float32)).
Proof.
  intros H.
  assert (E : proper t_e /\ open t_e /\ unit_k t_e /\ sane_k t_e) by values.
  assert (Z : proper t_0 /\ open t_0 /\ unit_k t_0 /\ sane_k t_0) by values.
  destruct E as (E1 & E2 & E3 & _). destruct Z as (Z1 & Z2 & Z3 & _).
  specialize (H (fun p => if Z.eqb p 1 then t_e else t_0) 1%Z 2%Z E1 E2 E3 Z1 Z2 Z3).
  revert H. apply Rlt_not_le.
  assert (B : Bltb (co ieee (truth_revision ieee (fun p => if Z.eqb p 1 then t_e else t_0) 1 2 1%Z) : float32)
                (co ieee t_e : float32) = true) by (vm_compute; reflexivity).
  rewrite Bltb_correct in B by (vm_compute; reflexivity).
  now apply Rlt_bool_true_inv in B || (revert B; case Rlt_bool_spec; intros; [assumption|discriminate]).
Qed.

(* Projection from time 0 to time 100 at time 50 *)
Lemma projection_keeps :
  ~ (forall t s c g t', proper t -> 0 < B2R (co ieee t : float32) -> s <> g ->
       project ieee t s c g 1000 = Ok t' ->
       B2R (co ieee t' : float32) < B2R (co ieee t : float32)).
Proof.
  intros H. destruct t_a_ok as (A & _).
  assert (P : 0 < B2R (co ieee t_a : float32)).
  { unfold t_a, tv. cbn [co]. destruct (f32_at 1 (-1)) as [_ ->]; [reflexivity|lia|].
    pose proof (bpow_gt_0 radix2 (-1)). lra. }
  destruct (project_ok t_a 0 50 100 1000) as (t' & E & _ & _ & _ & V);
    try (unfold moderate; lia); [apply A|].
  specialize (H t_a 0%Z 50%Z 100%Z t' A P ltac:(lia) E). lra.
Qed.

Lemma project_case : moderate 0 /\ moderate 50 /\ moderate 100 /\ is_finite (co ieee t_a : float32) = true.
Proof. unfold moderate. repeat split; lia || (vm_compute; reflexivity). Qed.

Lemma exact_case : let t1 := exact_truth (3 / 4) (1 / 2) 1 in let t2 := exact_truth (1 / 4) (9 / 10) 1 in
  1 / 100000000 < weight exact t1 + weight exact t2 /\
  weight exact t1 = 1 /\ weight exact t2 = 9 /\
  exact_revision t1 t2 = exact_truth (3 / 10) (10 / 11) 1.
Proof.
  intros t1 t2. assert (W1 : weight exact t1 = 1) by (cbn; real; field).
  assert (W2 : weight exact t2 = 9) by (cbn; real; field).
  rewrite W1, W2. split; [lra|]. split; [auto|]. split; [auto|].
  unfold t1, t2 in *. rewrite revision_eq; try lra.
  - rewrite weight_exact in W1, W2. rewrite W1, W2. unfold exact_truth. f_equal; real; field.
  - rewrite weight_exact in W1, W2. lra.
Qed.

(* Frequencies of 2^-60: their disjunction is 0 in double *)
Definition t_rare : truth ieee := tv 1 (-60) 1 (-1).

Lemma comparison_inaccurate :
  ~ (forall t1 t2, proper t1 -> proper t2 ->
       let f1 := B2R (fr ieee t1 : float32) in let c1 := B2R (co ieee t1 : float32) in
       let f2 := B2R (fr ieee t2 : float32) in let c2 := B2R (co ieee t2 : float32) in
       0 < f1 -> 0 < f2 -> 0 < c1 -> 0 < c2 ->
       Rabs (B2R (fr ieee (truth_comparison ieee t1 t2) : float32) - f1 * f2 / (f1 + f2 - f1 * f2)) <= / 4).
Proof.
  intros H. assert (T : proper t_rare /\ open t_rare /\ unit_k t_rare /\ sane_k t_rare) by values.
  specialize (H t_rare t_rare (proj1 T) (proj1 T)). cbn zeta in H.
  assert (E : B2R (fr ieee (truth_comparison ieee t_rare t_rare) : float32) = / 2).
  { replace (fr ieee (truth_comparison ieee t_rare t_rare)) with (f32 1 (-1)) by (apply B2SF_inj; vm_compute; reflexivity).
    rewrite (proj2 (f32_at 1 (-1) eq_refl ltac:(lia))). cbn. lra. }
  rewrite E in H.
  assert (F : B2R (fr ieee t_rare : float32) = bpow radix2 (-60)).
  { unfold t_rare, tv. cbn [fr]. rewrite (proj2 (f32_at 1 (-60) eq_refl ltac:(lia))). apply Rmult_1_l. }
  assert (C : B2R (co ieee t_rare : float32) = / 2).
  { unfold t_rare, tv. cbn [co]. rewrite (proj2 (f32_at 1 (-1) eq_refl ltac:(lia))). cbn. lra. }
  rewrite F, C in H. pose proof (bpow_gt_0 radix2 (-60)) as P.
  specialize (H P P ltac:(lra) ltac:(lra)).
  assert (L : bpow radix2 (-60) <= / 8) by (change (/ 8) with (bpow radix2 (-3)); apply bpow_le; lia).
  set (x := bpow radix2 (-60)) in *. clearbody x. apply Rabs_le_inv in H.
  assert (x * x / (x + x - x * x) <= x).
  { apply Rmult_le_reg_r with (x + x - x * x); [nra|]. unfold Rdiv. rewrite Rmult_assoc, Rinv_l by nra.
    rewrite Rmult_1_r. apply Rmult_le_compat_l; nra. }
  lra.
Qed.

(* Two confidences of 2^-30: together less than the threshold of w_to_f *)
Definition t_faint : truth ieee := tv 1 0 1 (-30).

Lemma revision_inaccurate :
  ~ (forall m p1 p2, proper (m p1) -> open (m p1) -> unit_k (m p1) -> proper (m p2) -> open (m p2) -> unit_k (m p2) ->
       let f1 := B2R (fr ieee (m p1) : float32) in let c1 := B2R (co ieee (m p1) : float32) in
       let f2 := B2R (fr ieee (m p2) : float32) in let c2 := B2R (co ieee (m p2) : float32) in
       0 < c1 -> 0 < c2 ->
       let w := c1 / (1 - c1) + c2 / (1 - c2) in let wp := f1 * (c1 / (1 - c1)) + f2 * (c2 / (1 - c2)) in
       Rabs (B2R (fr ieee (truth_revision ieee m p1 p2 p1) : float32) - wp / w) <= / 2).
Proof.
  intros H. assert (T : proper t_faint /\ open t_faint /\ unit_k t_faint /\ sane_k t_faint) by values.
  destruct T as (T1 & T2 & T3 & _).
  specialize (H (fun _ => t_faint) 1%Z 2%Z T1 T2 T3 T1 T2 T3). cbn zeta in H.
  assert (E : B2R (fr ieee (truth_revision ieee (fun _ => t_faint) 1 2 1%Z) : float32) = 0).
  { replace (fr ieee (truth_revision ieee (fun _ => t_faint) 1 2 1%Z)) with (B754_zero false : float32) by (apply B2SF_inj; vm_compute; reflexivity).
    reflexivity. }
  rewrite E in H.
  assert (F : B2R (fr ieee t_faint : float32) = 1).
  { unfold t_faint, tv. cbn [fr]. rewrite (proj2 (f32_at 1 0 eq_refl ltac:(lia))). cbn. lra. }
  assert (C : B2R (co ieee t_faint : float32) = / 1073741824).
  { unfold t_faint, tv. cbn [co]. rewrite (proj2 (f32_at 1 (-30) eq_refl ltac:(lia))). apply Rmult_1_l. }
  rewrite F, C in H. specialize (H ltac:(lra) ltac:(lra)).
  replace ((1 * (/ 1073741824 / (1 - / 1073741824)) + 1 * (/ 1073741824 / (1 - / 1073741824))) /
    (/ 1073741824 / (1 - / 1073741824) + / 1073741824 / (1 - / 1073741824))) with 1 in H by (field; lra).
  apply Rabs_le_inv in H. lra.
Qed.

(* Revision lowers the confidence by no more than rounding *)
Lemma confidence_kept m p1 p2 :
  proper (m p1) -> open (m p1) -> unit_k (m p1) -> proper (m p2) -> open (m p2) -> unit_k (m p2) ->
  bpow radix2 (-26) <= B2R (co ieee (m p1) : float32) + B2R (co ieee (m p2) : float32) ->
  (1 - bpow radix2 (-20)) * B2R (co ieee (m p1) : float32) <= B2R (co ieee (truth_revision ieee m p1 p2 p1) : float32).
Proof.
  intros P1 O1 K1 P2 O2 K2 L. destruct (revision_accurate m p1 p2 P1 O1 K1 P2 O2 K2 L) as (_ & H). revert H.
  destruct P1 as (_ & _ & C1). destruct P2 as (_ & _ & C2). unfold open in *.
  set (c1 := B2R (co ieee (m p1) : float32)) in *. set (c2 := B2R (co ieee (m p2) : float32)) in *.
  change (bpow radix2 (-20)) with (/ 1048576).
  set (w := c1 / (1 - c1) + c2 / (1 - c2)). intros H. apply Rabs_le_inv in H.
  assert (W1 : 0 <= c1 / (1 - c1)) by (apply div_pos; lra). assert (W2 : 0 <= c2 / (1 - c2)) by (apply div_pos; lra).
  assert (M : c1 <= w / (w + 1)).
  { pose proof (conf_mono (c1 / (1 - c1)) w 1 W1 ltac:(unfold w; lra) ltac:(lra)) as M.
    replace (c1 / (1 - c1) / (c1 / (1 - c1) + 1)) with c1 in M by (field; lra). exact M. }
  apply Rle_trans with ((1 - / 1048576) * (w / (w + 1))); [apply Rmult_le_compat_l; lra|lra].
Qed.

Lemma comparison_nearly_symmetric t1 t2 : proper t1 -> proper t2 ->
  bpow radix2 (-27) <= Rmax (B2R (fr ieee t1 : float32)) (B2R (fr ieee t2 : float32)) ->
  let t := truth_comparison ieee t1 t2 in let t' := truth_comparison ieee t2 t1 in
  Rabs (B2R (fr ieee t : float32) - B2R (fr ieee t' : float32)) <= bpow radix2 (-20) /\
  Rabs (B2R (co ieee t : float32) - B2R (co ieee t' : float32)) <= bpow radix2 (-20).
Proof.
  intros P1 P2 L t t'. destruct (comparison_accurate t1 t2 P1 P2 L) as (A1 & A2 & A3 & _).
  rewrite Rmax_comm in L. destruct (comparison_accurate t2 t1 P2 P1 L) as (B1 & B2 & B3 & _). rewrite Rmax_comm in L. fold t in A1, A2, A3. fold t' in B1, B2, B3. clearbody t t'.
  destruct P1 as ((_ & F1) & _ & C1). destruct P2 as ((_ & F2) & _ & C2).
  set (f1 := B2R (fr ieee t1 : float32)) in *. set (f2 := B2R (fr ieee t2 : float32)) in *.
  set (c1 := B2R (co ieee t1 : float32)) in *. set (c2 := B2R (co ieee t2 : float32)) in *.
  rewrite (Rmult_comm c2 c1), (Rmult_comm f2 f1), (Rplus_comm f2 f1) in *.
  replace ((f1 + f2 - f1 * f2) * c2 * c1) with ((f1 + f2 - f1 * f2) * c1 * c2) in B3 by ring.
  change (bpow radix2 (-20)) with (/ 1048576).
  assert (T : bpow radix2 (-150) <= / 1073741824) by (change (/ 1073741824) with (bpow radix2 (-30)); apply bpow_le; lia).
  assert (Lu : / 134217728 <= f1 + f2 - f1 * f2).
  { change (bpow radix2 (-27)) with (/ 134217728) in L. apply Rle_trans with (1 := L). apply Rmax_lub; nra. }
  split.
  - destruct (Req_dec (c1 * c2) 0) as [Z0|N].
    + rewrite (A1 Z0), (B1 Z0), Rminus_diag_eq, Rabs_R0 by reflexivity. lra.
    + specialize (A2 N). specialize (B2 N).
      assert (Q : 0 <= f1 * f2 / (f1 + f2 - f1 * f2) <= 1) by (split; [apply div_pos; nra|apply div_le; nra]).
      apply Rabs_le_inv in A2. apply Rabs_le_inv in B2. apply Rabs_le. lra.
  - assert (W : 0 <= (f1 + f2 - f1 * f2) * c1 * c2) by (apply Rmult_le_pos; [apply Rmult_le_pos|]; lra).
    assert (Q : 0 <= (f1 + f2 - f1 * f2) * c1 * c2 / ((f1 + f2 - f1 * f2) * c1 * c2 + 1) <= 1) by (split; [apply div_pos; lra|apply div_le; lra]).
    apply Rabs_le_inv in A3. apply Rabs_le_inv in B3. apply Rabs_le. lra.
Qed.

Lemma common_case : bpow radix2 (-27) <= Rmax (B2R (fr ieee t_a : float32)) (B2R (fr ieee t_b : float32)) /\
  bpow radix2 (-26) <= B2R (co ieee t_a : float32) + B2R (co ieee t_b : float32).
Proof.
  assert (A : B2R (fr ieee t_a : float32) = 3 / 4) by (unfold t_a, tv; cbn [fr]; rewrite (proj2 (f32_at 3 (-2) eq_refl ltac:(lia))); cbn; lra).
  assert (B : B2R (co ieee t_a : float32) = / 2) by (unfold t_a, tv; cbn [co]; rewrite (proj2 (f32_at 1 (-1) eq_refl ltac:(lia))); cbn; lra).
  assert (C : 0 <= B2R (co ieee t_b : float32)) by (destruct t_b_ok as ((_ & _ & C) & _); lra).
  split.
  - eapply Rle_trans; [|apply Rmax_l]. rewrite A. cbn. lra.
  - rewrite B. change (bpow radix2 (-26)) with (/ 67108864). lra.
Qed.
