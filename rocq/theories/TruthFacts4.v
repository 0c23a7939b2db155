(* Truth functions in IEEE arithmetic against their formulas: errors *)
From Coq Require Import ZArith List Bool Reals Lra Lia.
From Flocq Require Import Core BinarySingleNaN Relative.
From Verif Require Import Float FloatFacts Truth TruthSpec TruthFacts TruthFacts2.
Local Open Scope R_scope.

(** * Relative errors *)

Definition rel (d x y : R) : Prop := Rabs (x - y) <= d * y.

Lemma rel_bounds d x y : rel d x y <-> y - d * y <= x <= y + d * y.
Proof. unfold rel. split; intros H; [apply Rabs_le_inv in H|apply Rabs_le]; lra. Qed.

Lemma rel_refl x : rel 0 x x.
Proof. apply rel_bounds. lra. Qed.

Lemma rel_weaken d d' x y : 0 <= y -> d <= d' -> rel d x y -> rel d' x y.
Proof. intros Y D. rewrite !rel_bounds. nra. Qed.

Lemma rel_pos d x y : d <= 1 -> 0 <= y -> rel d x y -> 0 <= x.
Proof. intros D Y H. apply rel_bounds in H. nra. Qed.

Lemma rel_trans d1 d2 x y z : 0 <= d1 -> rel d1 x y -> rel d2 y z -> rel (d1 + d2 + d1 * d2) x z.
Proof. rewrite !rel_bounds. intros. nra. Qed.

Lemma rel_mul d1 d2 x1 y1 x2 y2 : 0 <= d1 <= 1 -> 0 <= d2 <= 1 -> 0 <= y1 -> 0 <= y2 -> rel d1 x1 y1 -> rel d2 x2 y2 ->
  rel (d1 + d2 + d1 * d2) (x1 * x2) (y1 * y2).
Proof.
  intros D1 D2 Y1 Y2 H1 H2. unfold rel in *. replace (x1 * x2 - y1 * y2) with ((x1 - y1) * (x2 - y2) + (x1 - y1) * y2 + y1 * (x2 - y2)) by ring.
  eapply Rle_trans; [apply Rabs_triang|]. eapply Rle_trans; [apply Rplus_le_compat_r, Rabs_triang|]. rewrite !Rabs_mult.
  rewrite (Rabs_pos_eq y1), (Rabs_pos_eq y2) by assumption.
  assert (0 <= Rabs (x1 - y1)) by apply Rabs_pos. assert (0 <= Rabs (x2 - y2)) by apply Rabs_pos.
  assert (Rabs (x1 - y1) * Rabs (x2 - y2) <= (d1 * y1) * (d2 * y2)) by (apply Rmult_le_compat; assumption).
  assert (Rabs (x1 - y1) * y2 <= (d1 * y1) * y2) by (apply Rmult_le_compat_r; assumption).
  assert (y1 * Rabs (x2 - y2) <= y1 * (d2 * y2)) by (apply Rmult_le_compat_l; assumption).
  lra.
Qed.

Lemma rel_inv d x y : 0 <= d <= / 2 -> 0 < y -> rel d x y -> rel (d + 2 * d * d) (/ x) (/ y).
Proof.
  intros D Y H. apply rel_bounds in H. assert (X : 0 < x) by nra.
  assert (E : / x - / y = (y - x) * / y * / x) by (field; split; lra).
  unfold rel. rewrite E, !Rabs_mult, (Rabs_pos_eq (/ x)), (Rabs_pos_eq (/ y))
    by (apply Rlt_le, Rinv_0_lt_compat; assumption).
  assert (Rabs (y - x) <= d * y) by (apply Rabs_le; lra).
  assert (I : 0 < / x) by (apply Rinv_0_lt_compat; assumption). assert (J : 0 < / y) by (apply Rinv_0_lt_compat; assumption).
  assert (Jy : / y * y = 1) by (field; lra). assert (Ix : / x * x = 1) by (field; lra).
  apply Rle_trans with (d * / x).
  - apply Rmult_le_compat_r; [lra|]. apply Rle_trans with (d * y * / y); [apply Rmult_le_compat_r; lra|].
    rewrite Rmult_assoc, (Rmult_comm y), Jy. lra.
  - replace (d + 2 * d * d) with (d * (1 + 2 * d)) by ring. rewrite Rmult_assoc. apply Rmult_le_compat_l; [lra|].
    (* / x <= (1 + 2 d) / y *)
    apply Rmult_le_reg_r with (x * y); [nra|].
    replace (/ x * (x * y)) with y by (field; lra). replace ((1 + 2 * d) * / y * (x * y)) with ((1 + 2 * d) * x) by (field; lra).
    assert ((1 + 2 * d) * (y - d * y) <= (1 + 2 * d) * x) by (apply Rmult_le_compat_l; lra).
    assert (0 <= d * (1 - 2 * d)) by nra. nra.
Qed.

Lemma rel_div d1 d2 x1 y1 x2 y2 : 0 <= d1 <= / 2 -> 0 <= d2 <= / 4 -> 0 <= y1 -> 0 < y2 -> rel d1 x1 y1 -> rel d2 x2 y2 ->
  rel (d1 + (d2 + 2 * d2 * d2) + d1 * (d2 + 2 * d2 * d2)) (x1 / x2) (y1 / y2).
Proof.
  intros D1 D2 Y1 Y2 H1 H2. unfold Rdiv. apply rel_mul; auto; try (split; nra).
  - apply Rlt_le, Rinv_0_lt_compat. assumption.
  - apply rel_inv; auto; lra.
Qed.

Lemma rel_add d x1 y1 x2 y2 : rel d x1 y1 -> rel d x2 y2 -> rel d (x1 + x2) (y1 + y2).
Proof. rewrite !rel_bounds. lra. Qed.

(** * One rounding *)

(* 2^-53, 2^-24 *)
Notation e64 := (/ 9007199254740992).
Notation e32 := (/ 16777216).

Lemma bpow_53 : bpow radix2 (-53) = e64. Proof. reflexivity. Qed.
Lemma bpow_24 : bpow radix2 (-24) = e32. Proof. reflexivity. Qed.

(* Zero or at least 2^-n *)
Definition big (n : Z) (x : R) : Prop := x = 0 \/ bpow radix2 (- n) <= x.

Lemma big_pos n x : big n x -> 0 <= x.
Proof. intros [ -> | H ]; [lra|]. pose proof (bpow_gt_0 radix2 (- n)). lra. Qed.

Lemma big_weaken n m x : (n <= m)%Z -> big n x -> big m x.
Proof. intros L [ -> | H ]; [left; reflexivity|right]. eapply Rle_trans; [apply bpow_le with (e1 := (- m)%Z) (e2 := (- n)%Z); lia|exact H]. Qed.

Lemma big_mul n m x y : big n x -> big m y -> big (n + m) (x * y).
Proof.
  intros [ -> | H ]; [left; ring|]. intros [ -> | G ]; [left; ring|]. right.
  rewrite Z.opp_add_distr, bpow_plus. apply Rmult_le_compat; auto; apply bpow_ge_0.
Qed.

Lemma big_round n x : (n <= 1074)%Z -> big n x -> big n (rnd64 x).
Proof.
  intros L [ -> | H ]; [left; apply rnd_id; apply fmt_0|right]. apply lb64; [exact H|]. apply bpow64. lia.
Qed.

Lemma big_float x : fmt32 x -> 0 <= x -> big 149 x.
Proof.
  intros F [H|H]; [|left; symmetry; exact H]. right. revert H F. unfold fmt. apply generic_format_ge_bpow.
  intros e. unfold SpecFloat.fexp, SpecFloat.emin. lia.
Qed.

Lemma rel64 n x : (n <= 1022)%Z -> big n x -> rel e64 (rnd64 x) x.
Proof.
  intros L [ -> | H ].
  - unfold rel. rewrite (rnd_id 53 1024 0) by apply fmt_0. rewrite Rminus_0_r, Rabs_R0. lra.
  - assert (0 < x) by (pose proof (bpow_gt_0 radix2 (- n)); lra).
    pose proof (relative_error_N_FLT radix2 (-1074) 53 eq_refl (fun z => negb (Z.even z)) x) as E.
    unfold rel. rewrite (Rabs_pos_eq x) in E by lra.
    eapply Rle_trans; [apply E|].
    + eapply Rle_trans; [apply bpow_le with (e2 := (- n)%Z); lia|exact H].
    + apply Rmult_le_compat_r; [lra|]. change (bpow radix2 (Z.opp 53 + 1)) with (/ 4503599627370496). lra.
Qed.

Lemma near32 x : 0 <= x -> Rabs (rnd32 x - x) <= e32 * x + bpow radix2 (-150).
Proof.
  intros P.
  destruct (error_N_FLT radix2 (-149) 24 eq_refl (fun z => negb (Z.even z)) x) as (eps & eta & A & B & _ & E).
  change (rnd32 x) with (round radix2 (FLT_exp (-149) 24) (Znearest (fun z => negb (Z.even z))) x). rewrite E.
  replace (x * (1 + eps) + eta - x) with (x * eps + eta) by ring.
  eapply Rle_trans; [apply Rabs_triang|]. rewrite Rabs_mult, (Rabs_pos_eq x) by assumption.
  assert (Rabs eps <= e32) by (change (/ 16777216) with (bpow radix2 (-24)); eapply Rle_trans; [exact A|]; change (bpow radix2 (Z.opp 24 + 1)) with (/ 8388608); rewrite bpow_24; lra).
  assert (Rabs eta <= bpow radix2 (-150)).
  { eapply Rle_trans; [exact B|]. change (-149)%Z with (1 + -150)%Z. rewrite bpow_plus. change (bpow radix2 1) with 2. lra. }
  assert (x * Rabs eps <= x * e32) by (apply Rmult_le_compat_l; assumption). lra.
Qed.

Lemma rel32 x : bpow radix2 (-126) <= x -> rel e32 (rnd32 x) x.
Proof.
  intros H. assert (0 < x) by (pose proof (bpow_gt_0 radix2 (-126)); lra).
  pose proof (relative_error_N_FLT radix2 (-149) 24 eq_refl (fun z => negb (Z.even z)) x) as E.
  unfold rel. rewrite (Rabs_pos_eq x) in E by lra.
  eapply Rle_trans; [apply E; exact H|].
  apply Rmult_le_compat_r; [lra|]. change (bpow radix2 (Z.opp 24 + 1)) with (/ 8388608). lra.
Qed.

(* The last rounding to float of a value known up to 2^-25 *)
Lemma accurate32 d x v : d <= / 40000000 -> 0 <= v -> rel d x v -> Rabs (rnd32 x - v) <= / 8388608 * v + bpow radix2 (-150).
Proof.
  intros D V H. assert (X : 0 <= x) by (apply (rel_pos d _ v); auto; lra).
  pose proof (near32 x X) as N. apply rel_bounds in H. apply Rabs_le_inv in N. apply Rabs_le.
  assert (d * v <= / 40000000 * v) by (apply Rmult_le_compat_r; assumption). lra.
Qed.

Lemma accurate32' d x v : d <= / 10000000 -> 0 <= v -> rel d x v -> Rabs (rnd32 x - v) <= / 4194304 * v + bpow radix2 (-150).
Proof.
  intros D V H. assert (X : 0 <= x) by (apply (rel_pos d _ v); auto; lra).
  pose proof (near32 x X) as N. apply rel_bounds in H. apply Rabs_le_inv in N. apply Rabs_le.
  assert (d * v <= / 10000000 * v) by (apply Rmult_le_compat_r; assumption). lra.
Qed.

(** * Products of floats are doubles *)

Lemma float_dyadic x : fmt32 x -> exists m e, x = IZR m * bpow radix2 e /\ (Z.abs m < 2 ^ 24)%Z /\ (-149 <= e)%Z.
Proof.
  intros F. unfold fmt in F. change (SpecFloat.fexp 24 128) with (FLT_exp (-149) 24) in F.
  apply FLT_format_generic in F; [|reflexivity]. destruct F as [[m e] E M X]. exists m, e. cbn [Fnum Fexp] in *. auto.
Qed.

Lemma product_exact x y : fmt32 x -> fmt32 y -> rnd64 (x * y) = x * y.
Proof.
  intros X Y. apply rnd_id. destruct (float_dyadic x X) as (m & e & -> & M & E). destruct (float_dyadic y Y) as (m' & e' & -> & M' & E').
  replace (IZR m * bpow radix2 e * (IZR m' * bpow radix2 e')) with (IZR (m * m') * bpow radix2 (e + e')) by (rewrite mult_IZR, bpow_plus; ring).
  apply fmt64_dyadic; [|lia]. rewrite Z.abs_mul. nia.
Qed.

(* A float is found again from anything within 2^-40 of it *)
Lemma found_again x f : fmt32 f -> 0 <= f -> rel (bpow radix2 (-40)) x f -> rnd32 x = f.
Proof.
  intros F [P|Z0] H.
  2: { subst f. apply rel_bounds in H. assert (x = 0) as -> by lra. apply rnd_id, F. }
  apply rel_bounds in H. unfold rnd. change (bpow radix2 (-40)) with (/ 1099511627776) in H.
  assert (M : bpow radix2 (mag radix2 f - 1) <= f < bpow radix2 (mag radix2 f)).
  { destruct (mag radix2 f) as (e & Q). cbn. rewrite <- (Rabs_pos_eq f) by lra. apply Q. lra. }
  set (e := mag radix2 f : Z) in *.
  assert (U : f * e32 <= ulp radix2 (SpecFloat.fexp 24 128) f).
  { rewrite ulp_neq_0 by lra. unfold cexp. fold e. apply Rle_trans with (bpow radix2 (e - 24)).
    - unfold Zminus. rewrite bpow_plus. change (bpow radix2 (-(24))) with (/ 16777216). apply Rmult_le_compat_r; lra.
    - apply bpow_le. unfold SpecFloat.fexp. lia. }
  apply Rle_antisym.
  - apply round_N_le_midp; [apply (fexp_correct 24 128 prec32)|exact F|]. rewrite succ_eq_pos by lra. lra.
  - apply round_N_ge_midp; [apply (fexp_correct 24 128 prec32)|exact F|]. rewrite pred_eq_pos by lra.
    unfold pred_pos. fold e. case Req_bool_spec; intros Q; [|lra].
    assert (f * e32 <= bpow radix2 (SpecFloat.fexp 24 128 (e - 1))).
    { apply Rle_trans with (bpow radix2 (e - 1 - 24)); [|apply bpow_le; unfold SpecFloat.fexp; lia].
      unfold Zminus at 1. rewrite bpow_plus, <- Q. change (bpow radix2 (-(24))) with (/ 16777216). lra. }
    lra.
Qed.

(** * Deduction *)

Ltac rels := first [apply rel_refl|assumption|lra].

Lemma deduction_accurate t1 t2 : proper t1 -> proper t2 ->
  let t := truth_deduction ieee t1 t2 in
  let f1 := B2R (fr ieee t1 : float32) in let c1 := B2R (co ieee t1 : float32) in
  let f2 := B2R (fr ieee t2 : float32) in let c2 := B2R (co ieee t2 : float32) in
  B2R (fr ieee t : float32) = round radix2 (FLT_exp (-149) 24) ZnearestE (f1 * f2) /\
  Rabs (B2R (co ieee t : float32) - f1 * f2 * c1 * c2) <= / 8388608 * (f1 * f2 * c1 * c2) + bpow radix2 (-150).
Proof.
  intros P1 P2 t. destruct (proper_at _ P1) as (f1 & c1 & F1 & C1 & U1 & V1).
  destruct (proper_at _ P2) as (f2 & c2 & F2 & C2 & U2 & V2).
  destruct (mul_unit _ _ _ _ (up_at _ _ F1) (up_at _ _ F2) U1 U2) as (A1 & A2 & A3 & A4).
  destruct (mul_unit _ _ _ _ A1 (up_at _ _ C1) A2 V1) as (B1 & B2 & B3 & B4).
  destruct (mul_unit _ _ _ _ B1 (up_at _ _ C2) B2 V2) as (D1 & D2 & D3 & D4).
  pose proof (at_fmt _ _ _ _ F1) as G1. pose proof (at_fmt _ _ _ _ F2) as G2.
  pose proof (at_fmt _ _ _ _ C1) as H1. pose proof (at_fmt _ _ _ _ C2) as H2.
  rewrite (product_exact f1 f2) in * by assumption.
  assert (T1 : at_ (fr ieee t : float32) (rnd32 (f1 * f2))) by (apply down_unit; [exact A1|unfold unit in *; lra]).
  assert (T2 : at_ (co ieee t : float32) (rnd32 (rnd64 (rnd64 (f1 * f2 * c1) * c2)))) by (apply down_unit; [exact D1|unfold unit in *; lra]).
  cbn zeta. rewrite (proj2 T1), (proj2 T2), (proj2 F1), (proj2 F2), (proj2 C1), (proj2 C2).
  split; [reflexivity|]. unfold unit in *.
  assert (Bg : big 447 (f1 * f2 * c1)) by (apply (big_mul 298 149); [apply (big_mul 149 149)|]; apply big_float; tauto).
  assert (Q : rel e64 (rnd64 (f1 * f2 * c1)) (f1 * f2 * c1)) by (apply (rel64 447); [lia|exact Bg]).
  assert (Bc : big 596 (rnd64 (f1 * f2 * c1) * c2)) by (apply (big_mul 447 149); [apply big_round; [lia|exact Bg]|apply big_float; tauto]).
  pose proof (rel64 596 _ ltac:(lia) Bc) as Q'.
  assert (P12 : 0 <= f1 * f2 * c1) by (apply (big_pos _ _ Bg)).
  pose proof (rel_mul e64 0 _ _ c2 c2 ltac:(lra) ltac:(lra) P12 ltac:(tauto) Q (rel_refl c2)) as M.
  pose proof (rel_trans e64 _ _ _ _ ltac:(lra) Q' M) as T.
  eapply accurate32; [|apply Rmult_le_pos; tauto|exact T]. lra.
Qed.

(** * Weights in double *)

Lemma three_accurate a b c : fmt32 a -> fmt32 b -> fmt32 c -> unit a -> unit b -> unit c ->
  rel e64 (rnd64 (rnd64 (a * b) * c)) (a * b * c) /\ big 447 (rnd64 (rnd64 (a * b) * c)).
Proof.
  intros A B C Ua Ub Uc. rewrite (product_exact a b) by assumption. unfold unit in *.
  assert (Bg : big 447 (a * b * c)) by (apply (big_mul 298 149); [apply (big_mul 149 149)|]; apply big_float; tauto).
  split; [apply (rel64 447); [lia|exact Bg]|apply big_round; [lia|exact Bg]].
Qed.

Lemma four_accurate a b c d : fmt32 a -> fmt32 b -> fmt32 c -> fmt32 d -> unit a -> unit b -> unit c -> unit d ->
  rel (3 * e64) (rnd64 (rnd64 (rnd64 (a * b) * c) * d)) (a * b * c * d) /\ big 596 (rnd64 (rnd64 (rnd64 (a * b) * c) * d)).
Proof.
  intros A B C D Ua Ub Uc Ud. destruct (three_accurate a b c A B C Ua Ub Uc) as (Q & G). unfold unit in *.
  assert (Bc : big 596 (rnd64 (rnd64 (a * b) * c) * d)) by (apply (big_mul 447 149); [exact G|apply big_float; tauto]).
  split; [|apply big_round; [lia|exact Bc]].
  assert (Y : 0 <= a * b * c) by (apply Rmult_le_pos; [apply Rmult_le_pos|]; tauto).
  pose proof (rel_mul e64 0 _ _ d d ltac:(lra) ltac:(lra) Y ltac:(tauto) Q (rel_refl d)) as M.
  pose proof (rel_trans e64 _ _ _ _ ltac:(lra) (rel64 596 _ ltac:(lia) Bc) M) as T.
  eapply rel_weaken; [|  |exact T]; [apply Rmult_le_pos; tauto|lra].
Qed.

(* set_w with k = 1 *)
Lemma set_w_accurate t wp w a b dp d vp v :
  at_ (kk ieee t : float32) 1 -> at_ (wp : float64) a -> at_ (w : float64) b ->
  unit a -> unit b -> a <= b \/ b = 0 -> big 596 a -> big 596 b -> 0 <= vp -> unit v ->
  0 <= dp <= / 30000000 -> 0 <= d <= / 30000000 -> rel dp a vp -> rel d b v ->
  let t' := set_w ieee t wp w in
  (v = 0 -> B2R (fr ieee t' : float32) = / 2) /\
  (0 < v -> exists q, B2R (fr ieee t' : float32) = rnd32 q /\ rel (dp + d + 2 * d * d + dp * (d + 2 * d * d) + 2 * e64) q (vp / v)) /\
  exists q, B2R (co ieee t' : float32) = rnd32 q /\ rel (2 * d + 4 * d * d + 4 * e64) q (v / (v + 1)).
Proof.
  intros K A B Ua Ub H Ga Gb Vp V Dp D Ra Rb t'. unfold unit in *.
  assert (E : dlt ieee (dzero ieee) w = Rlt_bool 0 b) by (apply lt_at; [apply dzero_at|exact B]).
  assert (Zero : v = 0 -> b = 0) by (intros ->; apply rel_bounds in Rb; lra).
  split; [|split].
  - intros Z0. unfold t', set_w. cbn [fr]. rewrite E, (Zero Z0), Rlt_bool_false by lra.
    rewrite (proj2 (down_unit _ _ half_at ltac:(lra))). apply rnd_id. auto with fmt.
  - intros Pos. assert (Bp : 0 < b) by (apply rel_bounds in Rb; nra).
    assert (Q : 0 <= a / b <= 1).
    { destruct H; [|lra]. split; [apply div_pos; lra|apply div_le; lra]. }
    pose proof (div64 _ _ _ _ A B ltac:(lra) ltac:(lra)) as X.
    assert (0 <= rnd64 (a / b) <= 1) by (split; [apply lb64|apply ub64]; auto with fmt; lra).
    exists (rnd64 (a / b)). split.
    + unfold t', set_w. cbn [fr]. rewrite E, Rlt_bool_true by lra.
      apply (proj2 (down_unit _ _ X ltac:(lra))).
    + assert (G : big 596 (a / b)).
      { destruct Ga as [ -> | Ga ]; [left; unfold Rdiv; ring|right]. eapply Rle_trans; [exact Ga|].
        apply Rmult_le_reg_r with b; [lra|]. unfold Rdiv. rewrite Rmult_assoc, Rinv_l by lra.
        apply Rle_trans with (a * 1); [apply Rmult_le_compat_l; lra|lra]. }
      pose proof (rel_div dp d a vp b v ltac:(lra) ltac:(lra) Vp Pos Ra Rb) as R.
      pose proof (rel_trans e64 _ _ _ _ ltac:(lra) (rel64 596 _ ltac:(lia) G) R) as T.
      eapply rel_weaken; [apply div_pos; lra| |exact T].
      set (y := dp + (d + 2 * d * d) + dp * (d + 2 * d * d)). assert (Y : 0 <= y <= / 1000000) by (unfold y; split; nra).
      replace (dp + d + 2 * d * d + dp * (d + 2 * d * d) + 2 * e64) with (y + 2 * e64) by (unfold y; ring).
      nra.
  - assert (S : at_ (dadd ieee w (up ieee (kk ieee t)) : float64) (rnd64 (b + 1))).
    { apply add64; [exact B|apply up_at; exact K|]. rewrite Rabs_pos_eq by lra. apply Rle_trans with (bpow radix2 1); [cbn; lra|]. apply bpow_le. lia. }
    assert (S1 : rel e64 (rnd64 (b + 1)) (b + 1)) by (apply (rel64 0); [lia|right; cbn; lra]).
    assert (L : 1 <= rnd64 (b + 1)) by (apply lb64; [lra|auto with fmt]).
    assert (Lb : b <= rnd64 (b + 1)) by (apply lb64; [lra|apply (at_fmt _ _ w), B]).
    assert (Q : 0 <= b / rnd64 (b + 1) <= 1) by (split; [apply div_pos; lra|apply div_le; lra]).
    pose proof (div64 _ _ _ _ B S ltac:(lra) ltac:(lra)) as X.
    assert (0 <= rnd64 (b / rnd64 (b + 1)) <= 1) by (split; [apply lb64|apply ub64]; auto with fmt; lra).
    assert (C : B2R (co ieee t' : float32) = rnd32 (rnd64 (b / rnd64 (b + 1)))) by (apply (proj2 (down_unit _ _ X ltac:(lra)))).
    exists (rnd64 (b / rnd64 (b + 1))). split; [exact C|].
    assert (R1 : rel d (b + 1) (v + 1)) by (apply rel_bounds in Rb; apply rel_bounds; nra).
    pose proof (rel_trans e64 _ _ _ _ ltac:(lra) S1 R1) as R2.
    pose proof (rel_div d (e64 + d + e64 * d) b v _ (v + 1) ltac:(lra) ltac:(split; lra) ltac:(lra) ltac:(lra) Rb R2) as R3.
    assert (L2 : rnd64 (b + 1) <= 2) by (apply ub64; [lra|apply (fmt64_Z 2); reflexivity]).
    assert (G : big 597 (b / rnd64 (b + 1))).
    { destruct Gb as [Z0|Gb]; [left; rewrite Z0; unfold Rdiv; ring|right].
      apply Rmult_le_reg_r with (rnd64 (b + 1)); [lra|]. unfold Rdiv. rewrite Rmult_assoc, Rinv_l by lra.
      apply Rle_trans with (bpow radix2 (Z.opp 597) * 2); [apply Rmult_le_compat_l; [apply bpow_ge_0|lra]|].
      replace (bpow radix2 (Z.opp 597) * 2) with (bpow radix2 (Z.opp 596)) by (change (Z.opp 596) with (Z.opp 597 + 1)%Z; rewrite bpow_plus; change (bpow radix2 1) with 2; reflexivity).
      rewrite Rmult_1_r. exact Gb. }
    pose proof (rel_trans e64 _ _ _ _ ltac:(lra) (rel64 597 _ ltac:(lia) G) R3) as R4.
    eapply rel_weaken; [apply div_pos; lra| |exact R4]. nra.
Qed.

(** * Induction *)

Lemma default_one : down ieee (done ieee) = of_Z32 1.
Proof. apply B2SF_inj. vm_compute. reflexivity. Qed.

Lemma induction_accurate t1 t2 : proper t1 -> proper t2 ->
  let t := truth_induction ieee t1 t2 in
  let f1 := B2R (fr ieee t1 : float32) in let c1 := B2R (co ieee t1 : float32) in
  let f2 := B2R (fr ieee t2 : float32) in let c2 := B2R (co ieee t2 : float32) in
  let w := f2 * c1 * c2 in
  B2R (fr ieee t : float32) = (if Req_bool w 0 then / 2 else f1) /\
  Rabs (B2R (co ieee t : float32) - w / (w + 1)) <= / 8388608 * (w / (w + 1)) + bpow radix2 (-150) /\
  kk ieee t = of_Z32 1.
Proof.
  intros P1 P2. destruct (proper_at _ P1) as (f1 & c1 & F1 & C1 & U1 & V1).
  destruct (proper_at _ P2) as (f2 & c2 & F2 & C2 & U2 & V2).
  destruct (mul_unit _ _ _ _ (up_at _ _ F1) (up_at _ _ F2) U1 U2) as (A1 & A2 & A3 & A4).
  destruct (mul_unit _ _ _ _ A1 (up_at _ _ C1) A2 V1) as (B1 & B2 & B3 & B4).
  destruct (mul_unit _ _ _ _ B1 (up_at _ _ C2) B2 V2) as (D1 & D2 & D3 & D4).
  destruct (mul_unit _ _ _ _ (up_at _ _ F2) (up_at _ _ C1) U2 V1) as (E1 & E2 & E3 & E4).
  destruct (mul_unit _ _ _ _ E1 (up_at _ _ C2) E2 V2) as (G1 & G2 & G3 & G4).
  pose proof (at_fmt _ _ _ _ F1) as X1. pose proof (at_fmt _ _ _ _ F2) as X2.
  pose proof (at_fmt _ _ _ _ C1) as Y1. pose proof (at_fmt _ _ _ _ C2) as Y2.
  destruct (four_accurate f1 f2 c1 c2 X1 X2 Y1 Y2 U1 U2 V1 V2) as (R1 & L1).
  destruct (three_accurate f2 c1 c2 X2 Y1 Y2 U2 V1 V2) as (R2 & L2).
  assert (Uw : unit (f2 * c1 * c2)) by (apply unit_mul; [apply unit_mul|]; assumption).
  assert (Up : 0 <= f1 * f2 * c1 * c2) by (apply (unit_mul (f1 * f2 * c1) c2); [apply unit_mul; [apply unit_mul|]|]; assumption).
  assert (Le : rnd64 (rnd64 (rnd64 (f1 * f2) * c1) * c2) <= rnd64 (rnd64 (f2 * c1) * c2) \/ rnd64 (rnd64 (f2 * c1) * c2) = 0).
  { left. unfold unit in *. apply le64. apply Rmult_le_compat_r; [lra|]. apply le64. apply Rmult_le_compat_r; lra. }
  destruct (set_w_accurate _ _ _ _ _ (3 * e64) e64 _ _ default_k D1 G1 D2 G2 Le L1 (big_weaken 447 596 _ ltac:(lia) L2) Up Uw ltac:(lra) ltac:(lra) R1 R2)
    as (S1 & S2 & S3).
  cbn zeta. rewrite (proj2 F1), (proj2 F2), (proj2 C1), (proj2 C2).
  split; [|split].
  - case Req_bool_spec; intros Z0; [exact (S1 Z0)|].
    assert (Pw : 0 < f2 * c1 * c2) by (unfold unit in Uw; lra).
    destruct (S2 Pw) as (q & Q1 & Q2). etransitivity; [exact Q1|].
    apply found_again; [assumption|unfold unit in *; tauto|].
    replace (f1 * f2 * c1 * c2 / (f2 * c1 * c2)) with f1 in Q2.
    2: { assert (f2 <> 0 /\ c1 <> 0 /\ c2 <> 0) by (repeat split; intros ->; lra). field. tauto. }
    eapply rel_weaken; [|  |exact Q2]; [unfold unit in *; tauto|]. change (bpow radix2 (-40)) with (/ 1099511627776). lra.
  - destruct S3 as (q & Q1 & Q2). match type of Q1 with ?x = _ => match goal with |- Rabs (?y - _) <= _ => change y with x end end.
    rewrite Q1. eapply accurate32; [|apply div_pos; unfold unit in Uw; lra|exact Q2]. lra.
  - apply default_one.
Qed.

(** * Comparison *)

Lemma near64 x : 0 <= x <= 1 -> Rabs (rnd64 x - x) <= / 18014398509481984.
Proof.
  intros H. destruct (error_N_FLT radix2 (-1074) 53 eq_refl (fun z => negb (Z.even z)) x) as (eps & eta & A & B & M & E).
  change (rnd64 x) with (round radix2 (FLT_exp (-1074) 53) (Znearest (fun z => negb (Z.even z))) x).
  destruct (Req_dec x 1) as [ -> |N].
  { rewrite round_generic; [|apply valid_rnd_N|apply fmt64_1]. rewrite Rminus_diag_eq, Rabs_R0 by reflexivity. lra. }
  apply Rle_trans with (/ 2 * ulp radix2 (FLT_exp (-1074) 53) x); [apply error_le_half_ulp; apply FLT_exp_valid; reflexivity|].
  apply Rle_trans with (/ 2 * bpow radix2 (-53)); [|rewrite bpow_53; lra].
  apply Rmult_le_compat_l; [lra|]. destruct (Req_dec x 0) as [ -> |N0].
  - rewrite ulp_FLT_0 by reflexivity. apply bpow_le. lia.
  - rewrite ulp_neq_0 by assumption. apply bpow_le. unfold cexp, FLT_exp.
    assert (mag radix2 x <= 0)%Z by (apply mag_le_bpow; [assumption|rewrite Rabs_pos_eq by lra; cbn; lra]). lia.
Qed.

Lemma or_accurate x y f g : at_ x f -> at_ y g -> unit f -> unit g ->
  exists o, at_ (Or2 ieee x y : float64) o /\ Rabs (o - (f + g - f * g)) <= / 4503599627370496 /\
    (o = 0 \/ bpow radix2 (-53) <= o).
Proof.
  intros X Y Uf Ug. unfold unit in *.
  pose proof (sub64 _ _ _ _ done_at X ltac:(lra)) as A.
  pose proof (sub64 _ _ _ _ done_at Y ltac:(lra)) as B.
  pose proof (near64 (1 - f) ltac:(lra)) as Na. pose proof (near64 (1 - g) ltac:(lra)) as Nb.
  assert (Ua : unit (rnd64 (1 - f))) by (split; [apply lb64|apply ub64]; auto with fmt; lra).
  assert (Ub : unit (rnd64 (1 - g))) by (split; [apply lb64|apply ub64]; auto with fmt; lra).
  destruct (mul_unit _ _ _ _ A B Ua Ub) as (C1 & C2 & C3 & C4).
  pose proof (near64 (rnd64 (1 - f) * rnd64 (1 - g)) (proj1 (unit_mul _ _ Ua Ub))) as Nc.
  set (a := rnd64 (1 - f)) in *. set (b := rnd64 (1 - g)) in *. set (p := rnd64 (a * b)) in *. unfold unit in *.
  pose proof (sub64 _ _ _ _ done_at C1 ltac:(lra)) as D. pose proof (near64 (1 - p) ltac:(lra)) as Nd.
  exists (rnd64 (1 - p)). split; [exact D|]. split.
  - apply Rabs_le_inv in Na. apply Rabs_le_inv in Nb. apply Rabs_le_inv in Nc. apply Rabs_le_inv in Nd.
    assert (Q : Rabs (a * b - (1 - f) * (1 - g)) <= / 18014398509481984 + / 18014398509481984).
    { replace (a * b - (1 - f) * (1 - g)) with ((a - (1 - f)) * b + (1 - f) * (b - (1 - g))) by ring.
      eapply Rle_trans; [apply Rabs_triang|]. rewrite !Rabs_mult, (Rabs_pos_eq b), (Rabs_pos_eq (1 - f)) by lra.
      assert (Rabs (a - (1 - f)) <= / 18014398509481984) by (apply Rabs_le; lra).
      assert (Rabs (b - (1 - g)) <= / 18014398509481984) by (apply Rabs_le; lra).
      assert (Rabs (a - (1 - f)) * b <= / 18014398509481984 * 1) by (apply Rmult_le_compat; try lra; apply Rabs_pos).
      assert ((1 - f) * Rabs (b - (1 - g)) <= 1 * / 18014398509481984) by (apply Rmult_le_compat; try lra; apply Rabs_pos). lra. }
    apply Rabs_le_inv in Q. apply Rabs_le. lra.
  - destruct (Req_dec p 1) as [E|N].
    + left. rewrite E, Rminus_diag_eq by reflexivity. apply rnd_id. auto with fmt.
    + right. apply lb64; [|apply bpow64; lia]. pose proof (fmt64_below_1 p (rnd_fmt 53 1024 _) ltac:(lra)). lra.
Qed.

(* One of the frequencies is at least 2^-27 *)
Lemma comparison_accurate t1 t2 : proper t1 -> proper t2 ->
  bpow radix2 (-27) <= Rmax (B2R (fr ieee t1 : float32)) (B2R (fr ieee t2 : float32)) ->
  let t := truth_comparison ieee t1 t2 in
  let f1 := B2R (fr ieee t1 : float32) in let c1 := B2R (co ieee t1 : float32) in
  let f2 := B2R (fr ieee t2 : float32) in let c2 := B2R (co ieee t2 : float32) in
  let f := f1 * f2 / (f1 + f2 - f1 * f2) in let w := (f1 + f2 - f1 * f2) * c1 * c2 in
  (c1 * c2 = 0 -> B2R (fr ieee t : float32) = / 2) /\
  (c1 * c2 <> 0 -> Rabs (B2R (fr ieee t : float32) - f) <= / 4194304 * f + bpow radix2 (-150)) /\
  Rabs (B2R (co ieee t : float32) - w / (w + 1)) <= / 4194304 * (w / (w + 1)) + bpow radix2 (-150) /\
  kk ieee t = of_Z32 1.
Proof.
  intros P1 P2. destruct (proper_at _ P1) as (f1 & c1 & F1 & C1 & U1 & V1).
  destruct (proper_at _ P2) as (f2 & c2 & F2 & C2 & U2 & V2).
  cbn zeta. rewrite (proj2 F1), (proj2 F2), (proj2 C1), (proj2 C2). intros Hm.
  destruct (mul_unit _ _ _ _ (up_at _ _ F1) (up_at _ _ F2) U1 U2) as (A1 & A2 & A3 & A4).
  destruct (mul_unit _ _ _ _ A1 (up_at _ _ C1) A2 V1) as (B1 & B2 & B3 & B4).
  destruct (mul_unit _ _ _ _ B1 (up_at _ _ C2) B2 V2) as (D1 & D2 & D3 & D4).
  pose proof (at_fmt _ _ _ _ F1) as X1. pose proof (at_fmt _ _ _ _ F2) as X2.
  pose proof (at_fmt _ _ _ _ C1) as Y1. pose proof (at_fmt _ _ _ _ C2) as Y2.
  destruct (or_accurate _ _ _ _ (up_at _ _ F1) (up_at _ _ F2) U1 U2) as (o & O1 & O2 & O3).
  destruct (or_ok _ _ _ _ (up_at _ _ F1) (up_at _ _ F2) X1 X2 U1 U2) as (o' & O1' & O4 & O5).
  assert (o' = o) as -> by (rewrite <- (proj2 O1), <- (proj2 O1'); reflexivity).
  destruct (mul_unit _ _ _ _ O1 (up_at _ _ C1) O4 V1) as (E1 & E2 & E3 & E4).
  destruct (mul_unit _ _ _ _ E1 (up_at _ _ C2) E2 V2) as (G1 & G2 & G3 & G4).
  destruct (four_accurate f1 f2 c1 c2 X1 X2 Y1 Y2 U1 U2 V1 V2) as (R1 & L1).
  set (u := f1 + f2 - f1 * f2) in *.
  assert (Uu : unit u /\ bpow radix2 (-27) <= u).
  { unfold unit in *. unfold u. split; [split; nra|]. apply Rle_trans with (1 := Hm). apply Rmax_lub; nra. }
  destruct Uu as (Uu & Lu). change (bpow radix2 (-27)) with (/ 134217728) in Lu.
  assert (Ro : rel (/ 33554432) o u).
  { apply Rabs_le_inv in O2. apply rel_bounds. lra. }
  (* o c1 c2 *)
  assert (Bo : big 53 o) by exact O3.
  assert (Bq : big 202 (o * c1)) by (apply (big_mul 53 149); [exact Bo|apply big_float; unfold unit in *; tauto]).
  assert (Br : big 351 (rnd64 (o * c1) * c2)) by (apply (big_mul 202 149); [apply big_round; [lia|exact Bq]|apply big_float; unfold unit in *; tauto]).
  assert (Pu : 0 <= u) by (unfold unit in *; tauto). assert (Pc1 : 0 <= c1) by (unfold unit in *; tauto). assert (Pc2 : 0 <= c2) by (unfold unit in *; tauto).
  pose proof (rel_mul (/ 33554432) 0 _ _ c1 c1 ltac:(lra) ltac:(lra) Pu Pc1 Ro (rel_refl c1)) as M1.
  pose proof (rel_trans e64 _ _ _ _ ltac:(lra) (rel64 202 _ ltac:(lia) Bq) M1) as M2.
  assert (P1c : 0 <= u * c1) by (apply Rmult_le_pos; assumption).
  assert (M2' : rel (/ 33554431) (rnd64 (o * c1)) (u * c1)) by (eapply rel_weaken; [exact P1c| |exact M2]; lra).
  pose proof (rel_mul (/ 33554431) 0 _ _ c2 c2 ltac:(lra) ltac:(lra) P1c Pc2 M2' (rel_refl c2)) as M3.
  pose proof (rel_trans e64 _ _ _ _ ltac:(lra) (rel64 351 _ ltac:(lia) Br) M3) as M4.
  assert (Pw : 0 <= u * c1 * c2) by (apply Rmult_le_pos; assumption).
  assert (R2 : rel (/ 33554430) (rnd64 (rnd64 (o * c1) * c2)) (u * c1 * c2)) by (eapply rel_weaken; [exact Pw| |exact M4]; lra).
  assert (Uw : unit (u * c1 * c2)) by (apply unit_mul; [apply unit_mul|]; assumption).
  assert (Up : 0 <= f1 * f2 * c1 * c2) by (apply (unit_mul (f1 * f2 * c1) c2); [apply unit_mul; [apply unit_mul|]|]; assumption).
  assert (Le : rnd64 (rnd64 (rnd64 (f1 * f2) * c1) * c2) <= rnd64 (rnd64 (o * c1) * c2) \/ rnd64 (rnd64 (o * c1) * c2) = 0).
  { destruct O5 as [O5| -> ].
    - left. apply le64. apply Rmult_le_compat_r; [lra|]. apply le64. apply Rmult_le_compat_r; lra.
    - right. rewrite Rmult_0_l, (rnd_id 53 1024 0), Rmult_0_l by auto with fmt. apply rnd_id. auto with fmt. }
  destruct (set_w_accurate _ _ _ _ _ (3 * e64) (/ 33554430) _ _ default_k D1 G1 D2 G2 Le L1 (big_weaken 351 596 _ ltac:(lia) (big_round 351 _ ltac:(lia) Br))
    Up Uw ltac:(lra) ltac:(lra) R1 R2) as (S1 & S2 & S3).
  split; [|split; [|split]].
  - intros Z0. apply S1. rewrite Rmult_assoc, Z0. ring.
  - intros N. assert (Pos : 0 < u * c1 * c2).
    { rewrite Rmult_assoc. apply Rmult_lt_0_compat; [lra|]. assert (0 <= c1 * c2) by (apply Rmult_le_pos; assumption). lra. }
    destruct (S2 Pos) as (q & Q1 & Q2).
    replace (f1 * f2 * c1 * c2 / (u * c1 * c2)) with (f1 * f2 / u) in Q2.
    2: { assert (c1 <> 0 /\ c2 <> 0) by (split; intros E; apply N; rewrite E; ring). field. repeat split; [tauto|tauto|lra]. }
    match type of Q1 with ?x = _ => match goal with |- Rabs (?y - _) <= _ => change y with x end end.
    rewrite Q1. eapply accurate32'; [|apply div_pos; [apply (unit_mul f1 f2 U1 U2)|lra]|exact Q2]. lra.
  - destruct S3 as (q & Q1 & Q2).
    match type of Q1 with ?x = _ => match goal with |- Rabs (?y - _) <= _ => change y with x end end.
    rewrite Q1. eapply accurate32'; [|apply div_pos; unfold unit in Uw; lra|exact Q2]. lra.
  - apply default_one.
Qed.

(** * Expectation and quality *)

Lemma near64_half x : - / 2 <= x <= / 2 -> Rabs (rnd64 x - x) <= / 36028797018963968.
Proof.
  intros H. change (rnd64 x) with (round radix2 (FLT_exp (-1074) 53) (Znearest (fun z => negb (Z.even z))) x).
  destruct (Req_dec (Rabs x) (/ 2)) as [E|N].
  { rewrite round_generic; [rewrite Rminus_diag_eq, Rabs_R0 by reflexivity; lra|apply valid_rnd_N|].
    unfold Rabs in E. destruct (Rcase_abs x); [|rewrite E; apply fmt64_half].
    replace x with (- / 2) by lra. apply generic_format_opp, fmt64_half. }
  assert (L : Rabs x < / 2) by (assert (Rabs x <= / 2) by (apply Rabs_le; lra); lra).
  apply Rle_trans with (/ 2 * ulp radix2 (FLT_exp (-1074) 53) x); [apply error_le_half_ulp; apply FLT_exp_valid; reflexivity|].
  apply Rle_trans with (/ 2 * bpow radix2 (-54)); [|change (bpow radix2 (-54)) with (/ 18014398509481984); lra].
  apply Rmult_le_compat_l; [lra|]. destruct (Req_dec x 0) as [ -> |N0].
  - rewrite ulp_FLT_0 by reflexivity. apply bpow_le. lia.
  - rewrite ulp_neq_0 by assumption. apply bpow_le. unfold cexp, FLT_exp.
    assert (mag radix2 x <= -1)%Z by (apply mag_le_bpow; [assumption|exact L]). lia.
Qed.

Lemma expectation_accurate t : proper t ->
  let f := B2R (fr ieee t : float32) in let c := B2R (co ieee t : float32) in
  exists e, at_ (expectation ieee t : float64) e /\ unit e /\ Rabs (e - (c * (f - / 2) + / 2)) <= / 9007199254740992.
Proof.
  intros P. destruct (proper_at _ P) as (f & c & F & C & U & V). cbn zeta. rewrite (proj2 F), (proj2 C). unfold unit in *.
  pose proof (sub64 _ _ _ _ (up_at _ _ F) half_at ltac:(lra)) as A. pose proof (near64_half (f - / 2) ltac:(lra)) as Na.
  set (a := rnd64 (f - / 2)) in *.
  assert (Fm : fmt64 (- / 2)) by (apply fmt_opp; auto with fmt).
  assert (Ua : - / 2 <= a <= / 2) by (split; [apply lb64|apply ub64]; auto with fmt; lra).
  assert (Hc : - / 2 <= c * a <= / 2) by (split; nra).
  pose proof (mul64 _ _ _ _ (up_at _ _ C) A ltac:(lra)) as B. pose proof (near64_half (c * a) Hc) as Nb.
  set (b := rnd64 (c * a)) in *.
  assert (Ub : - / 2 <= b <= / 2) by (split; [apply lb64|apply ub64]; auto with fmt; lra).
  assert (D : at_ (expectation ieee t : float64) (rnd64 (b + / 2))).
  { apply add64; [exact B|apply half_at|]. apply Rabs_unit; [lia|lra]. }
  pose proof (near64 (b + / 2) ltac:(lra)) as Nd.
  exists (rnd64 (b + / 2)). split; [exact D|]. split; [split; [apply lb64|apply ub64]; auto with fmt; lra|].
  apply Rabs_le_inv in Na. apply Rabs_le_inv in Nb. apply Rabs_le_inv in Nd. apply Rabs_le.
  assert (- / 36028797018963968 <= c * (a - (f - / 2)) <= / 36028797018963968) by (split; nra). lra.
Qed.

Lemma quality_accurate t : proper t ->
  let f := B2R (fr ieee t : float32) in let c := B2R (co ieee t : float32) in
  let e := c * (f - / 2) + / 2 in
  Rabs (B2R (expectation ieee t : float64) - e) <= bpow radix2 (-53) /\
  Rabs (B2R (quality_from_truth ieee t : float64) - Rmax e (3 / 4 * (1 - e))) <= bpow radix2 (-52).
Proof.
  intros P. destruct (expectation_accurate t P) as (x & X & U & N). cbn zeta. set (e := _ + / 2) in *. clearbody e.
  rewrite bpow_53. change (bpow radix2 (-52)) with (/ 4503599627370496). split; [rewrite (proj2 X); exact N|]. unfold unit in U.
  pose proof (sub64 _ _ _ _ done_at X ltac:(lra)) as A. pose proof (near64 (1 - x) ltac:(lra)) as Na.
  set (a := rnd64 (1 - x)) in *.
  assert (Ua : 0 <= a <= 1) by (split; [apply lb64|apply ub64]; auto with fmt; lra).
  pose proof (mul64 _ _ _ _ A three_quarters_at ltac:(lra)) as B. pose proof (near64 (a * (3 / 4)) ltac:(lra)) as Nb.
  set (b := rnd64 (a * (3 / 4))) in *.
  unfold quality_from_truth. cbn zeta.
  replace (dlt ieee (expectation ieee t) (dmul ieee (dsub ieee (done ieee) (expectation ieee t)) (three_quarters ieee)))
    with (Rlt_bool x b) by (symmetry; now apply lt_at).
  apply Rabs_le_inv in N. apply Rabs_le_inv in Na. apply Rabs_le_inv in Nb.
  assert (M : Rabs (Rmax x b - Rmax e (3 / 4 * (1 - e))) <= / 4503599627370496).
  { apply Rabs_le. unfold Rmax. destruct (Rle_dec x b), (Rle_dec e (3 / 4 * (1 - e))); lra. }
  destruct (Rlt_bool_spec x b).
  - rewrite (proj2 B). fold b. rewrite Rmax_right in M by lra. exact M.
  - rewrite (proj2 X). rewrite Rmax_left in M by lra. exact M.
Qed.
