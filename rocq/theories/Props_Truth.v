(* Properties of truth values and of the functions on them *)
From Coq Require Import ZArith List Bool Reals Lra Lia.
From Flocq Require Import Core BinarySingleNaN.
From Verif Require Import Base Hash Float FloatFacts Truth TruthSpec TruthFacts TruthFacts2 TruthFacts3 TruthFacts4 TruthFacts5 TruthFacts6 TruthCases.
Import ListNotations.
Local Open Scope R_scope.

(* ---- C45 ---- *)
Theorem C45_deduction : forall t1 t2, proper t1 -> proper t2 ->
  let t := truth_deduction ieee t1 t2 in
  proper t /\
  B2R (co ieee t : float32) <= B2R (co ieee t1 : float32) /\
  B2R (co ieee t : float32) <= B2R (co ieee t2 : float32) /\
  B2R (fr ieee t : float32) <= B2R (fr ieee t1 : float32) /\
  B2R (fr ieee t : float32) <= B2R (fr ieee t2 : float32) /\
  B2R (co ieee t : float32) <= B2R (fr ieee t : float32) /\
  kk ieee t = kk ieee t1.
Proof. exact deduction_ok. Qed.
Print Assumptions C45_deduction.

Example C45_case : proper t_a /\ proper t_b.
Proof. exact (conj (proj1 t_a_ok) (proj1 t_b_ok)). Qed.

(* ---- C46 ---- *)
Theorem C46_induction : forall t1 t2, proper t1 -> proper t2 ->
  let t := truth_induction ieee t1 t2 in
  within 0 1 (fr ieee t : float32) /\ within 0 (/ 2) (co ieee t : float32).
Proof. exact induction_ok. Qed.
Print Assumptions C46_induction.

Theorem C46_comparison : forall t1 t2, proper t1 -> proper t2 ->
  let t := truth_comparison ieee t1 t2 in
  within 0 1 (fr ieee t : float32) /\ within 0 (/ 2) (co ieee t : float32).
Proof. exact comparison_ok. Qed.
Print Assumptions C46_comparison.

Example C46_case : proper t_a /\ proper t_b.
Proof. exact (conj (proj1 t_a_ok) (proj1 t_b_ok)). Qed.

(* ---- C47 ---- *)
Theorem C47_revision : forall m p1 p2,
  proper (m p1) -> open (m p1) -> sane_k (m p1) ->
  proper (m p2) -> open (m p2) -> sane_k (m p2) ->
  let m' := truth_revision ieee m p1 p2 in
  proper (m' p1) /\ kk ieee (m' p1) = kk ieee (m p1) /\
  forall p, p <> p1 -> m' p = m p.
Proof. exact revision_ok. Qed.
Print Assumptions C47_revision.

Example C47_case : (proper t_a /\ open t_a /\ unit_k t_a /\ sane_k t_a) /\
  proper t_sure /\ open t_sure /\ unit_k t_sure /\ sane_k t_sure.
Proof. split; [exact t_a_ok|values]. Qed.

(* ---- C48 ---- *)
Theorem C48_repeated_revision_refuted :
  ~ (forall t l, proper t -> open t -> unit_k t ->
       Forall (fun u => proper u /\ open u /\ unit_k u) l -> proper (revise_all t l)).
Proof. exact repeated_refuted. Qed.
Print Assumptions C48_repeated_revision_refuted.

(* What is missing: confidences within 2^-14 of 1, where rounding can bring
   the confidence to 1 and the next revision to NaN. *)
Theorem C48_repeated_revision_partial : forall l t,
  proper t /\ unit_k t /\ B2R (co ieee t : float32) <= 1 - 22 * bpow radix2 (-24) ->
  Forall (fun u => proper u /\ unit_k u /\ B2R (co ieee u : float32) <= 1 - bpow radix2 (-14)) l ->
  let t' := revise_all t l in
  proper t' /\ unit_k t' /\ B2R (co ieee t' : float32) <= 1 - 22 * bpow radix2 (-24).
Proof. exact revise_all_low. Qed.
Print Assumptions C48_repeated_revision_partial.

Example C48_case : low t_b /\ proper t_a /\ B2R (co ieee t_a : float32) <= 1 - bpow radix2 (-14).
Proof. exact low_case. Qed.

(* ---- C49 ---- *)
Theorem C49_revision_pools : forall f1 c1 f2 c2 k,
  0 <= f1 <= 1 -> 0 <= f2 <= 1 -> 0 <= c1 < 1 -> 0 <= c2 < 1 -> 0 < k ->
  let t1 := exact_truth f1 c1 k in let t2 := exact_truth f2 c2 k in
  let t := exact_revision t1 t2 in
  1 / 100000000 < weight exact t1 + weight exact t2 ->
  weight exact t = weight exact t1 + weight exact t2 /\
  weight_p exact t = weight_p exact t1 + weight_p exact t2 /\
  0 <= co exact t < 1 /\
  c1 <= co exact t /\ c2 <= co exact t /\
  (0 < c1 -> 0 < c2 -> c1 < co exact t /\ c2 < co exact t) /\
  Rmin f1 f2 <= fr exact t <= Rmax f1 f2 /\
  kk exact t = k /\
  exact_revision t2 t1 = t.
Proof. exact revision_exact. Qed.
Print Assumptions C49_revision_pools.

Theorem C49_revision_associative : forall f1 c1 f2 c2 f3 c3 k,
  0 <= f1 <= 1 -> 0 <= f2 <= 1 -> 0 <= f3 <= 1 ->
  0 <= c1 < 1 -> 0 <= c2 < 1 -> 0 <= c3 < 1 -> 0 < k ->
  let t1 := exact_truth f1 c1 k in let t2 := exact_truth f2 c2 k in
  let t3 := exact_truth f3 c3 k in
  1 / 100000000 < weight exact t1 + weight exact t2 ->
  1 / 100000000 < weight exact t2 + weight exact t3 ->
  exact_revision (exact_revision t1 t2) t3 = exact_revision t1 (exact_revision t2 t3).
Proof. exact revision_assoc. Qed.
Print Assumptions C49_revision_associative.

Example C49_case : let t1 := exact_truth (3 / 4) (1 / 2) 1 in let t2 := exact_truth (1 / 4) (9 / 10) 1 in
  1 / 100000000 < weight exact t1 + weight exact t2 /\
  weight exact t1 = 1 /\ weight exact t2 = 9 /\
  exact_revision t1 t2 = exact_truth (3 / 10) (10 / 11) 1.
Proof. exact exact_case. Qed.

(* ---- C50 ---- *)
Theorem C50_expectation : forall t, proper t -> within 0 1 (expectation ieee t : float64).
Proof. exact (fun t P => proj2 (within_at 0 1 _) (expectation_at t P)). Qed.
Print Assumptions C50_expectation.

Theorem C50_quality : forall t, proper t ->
  within (3 / 7 - bpow radix2 (-50)) 1 (quality_from_truth ieee t : float64).
Proof. exact quality_ok. Qed.
Print Assumptions C50_quality.

Example C50_case : proper t_b.
Proof. exact (proj1 t_b_ok). Qed.

(* ---- C51 ---- *)
Theorem C51_projection_refuted :
  ~ (forall t s c g t', proper t -> 0 < B2R (co ieee t : float32) -> s <> g ->
       project ieee t s c g 1000 = Ok t' ->
       B2R (co ieee t' : float32) < B2R (co ieee t : float32)).
Proof. exact projection_keeps. Qed.
Print Assumptions C51_projection_refuted.

(* What is missing: the confidence is lowered only with no decay duration,
   and then to 0; else it is kept. *)
Theorem C51_projection_partial : forall t s c g d,
  proper t -> moderate s -> moderate c -> moderate g -> (0 <= d < 9223372036854775808)%Z ->
  exists t', project ieee t s c g d = Ok t' /\ fr ieee t' = fr ieee t /\ kk ieee t' = kk ieee t /\
    proper t' /\
    B2R (co ieee t' : float32) =
      (if (Z.eqb d 0 && negb (Z.eqb s g) && (Z.eqb (Z.abs (s - c) + Z.abs (g - c)) (Z.abs (s - g))))%bool
       then 0 else B2R (co ieee t : float32)).
Proof. exact project_range. Qed.
Print Assumptions C51_projection_partial.

(* What is missing: as before.  Times that are too far apart overflow. *)
Theorem C51_overflow_partial : forall t s c g d,
  (9223372036854775808 <= Z.abs (s - c) + Z.abs (g - c))%Z -> project ieee t s c g d = UB.
Proof. exact project_overflow. Qed.
Print Assumptions C51_overflow_partial.

Example C51_far : (9223372036854775808 <= Z.abs (9223372036854775807 - 0) + Z.abs (-1 - 0))%Z.
Proof. lia. Qed.

Example C51_case : moderate 0 /\ moderate 50 /\ moderate 100 /\ is_finite (co ieee t_a : float32) = true.
Proof. exact project_case. Qed.

(* ---- C52 ---- *)
Theorem C52_weights_back : forall t wp w,
  0 <= wp <= w -> 0 < w -> 0 < kk exact t ->
  let t' := set_w exact t wp w in
  weight exact t' = w /\ weight_p exact t' = wp /\
  0 <= fr exact t' <= 1 /\ 0 <= co exact t' < 1 /\ kk exact t' = kk exact t.
Proof. exact set_w_exact. Qed.
Print Assumptions C52_weights_back.

Theorem C52_weights_add : forall f c k, c < 1 ->
  let t := exact_truth f c k in
  weight_p exact t + weight_m exact t = weight exact t.
Proof. exact weights_add. Qed.
Print Assumptions C52_weights_add.

Theorem C52_total : forall f c k, c < 1 ->
  fc_to_w exact f c k = fc_to_w_plus exact f c k + fc_to_w_minus exact f c k /\
  fc_to_w exact f c k = weight exact (exact_truth f c k).
Proof. exact total_exact. Qed.
Print Assumptions C52_total.

Example C52_case : 0 <= 1 <= 3 /\ 0 < 3 /\ 0 < kk exact (exact_truth 1 0 1).
Proof. cbn. lra. Qed.

(* ---- C87 ---- *)
Theorem C87_comparison_symmetric_refuted :
  ~ (forall t1 t2, proper t1 -> proper t2 -> truth_comparison ieee t1 t2 = truth_comparison ieee t2 t1).
Proof. exact comparison_asymmetric. Qed.
Print Assumptions C87_comparison_symmetric_refuted.

(* What is missing: rounding. *)
Theorem C87_comparison_symmetric_partial : forall t1 t2,
  truth_comparison exact t1 t2 = truth_comparison exact t2 t1.
Proof. exact comparison_symmetric_exact. Qed.
Print Assumptions C87_comparison_symmetric_partial.

(* What is missing: the last places of the results; frequencies below 2^-27. *)
Theorem C87_nearly_symmetric_partial : forall t1 t2, proper t1 -> proper t2 ->
  bpow radix2 (-27) <= Rmax (B2R (fr ieee t1 : float32)) (B2R (fr ieee t2 : float32)) ->
  let t := truth_comparison ieee t1 t2 in let t' := truth_comparison ieee t2 t1 in
  Rabs (B2R (fr ieee t : float32) - B2R (fr ieee t' : float32)) <= bpow radix2 (-20) /\
  Rabs (B2R (co ieee t : float32) - B2R (co ieee t' : float32)) <= bpow radix2 (-20).
Proof. exact comparison_nearly_symmetric. Qed.
Print Assumptions C87_nearly_symmetric_partial.

Example C87_case : (proper t_a /\ proper t_b) /\
  bpow radix2 (-27) <= Rmax (B2R (fr ieee t_a : float32)) (B2R (fr ieee t_b : float32)).
Proof. exact (conj (conj (proj1 t_a_ok) (proj1 t_b_ok)) (proj1 common_case)). Qed.

(* ---- C88 ---- *)
Theorem C88_or_lists : forall x1 x2 x3 x4,
  Or_list ieee [x1; x2] = Or2 ieee x1 x2 /\
  Or_list ieee [x1; x2; x3] = Or3 ieee x1 x2 x3 /\
  Or_list ieee [x1; x2; x3; x4] = Or4 ieee x1 x2 x3 x4.
Proof. exact or_lists. Qed.
Print Assumptions C88_or_lists.

Theorem C88_or_range : forall l, Forall (within 0 1) (l : list float64) ->
  within 0 1 (Or_list ieee l : float64).
Proof. exact or_list_range. Qed.
Print Assumptions C88_or_range.

Example C88_case : Forall (within 0 1) [to64 (f32 1 (-1)); to64 (f32 3 (-2))].
Proof.
  constructor; [|constructor; [|constructor]]; apply within_at; eexists;
    (split; [apply to64_at, f32_at; [reflexivity|lia]|cbn -[Rmult]; lra]).
Qed.

(* ---- C89 ---- *)
Theorem C89_truth_back : forall f c k,
  0 <= f <= 1 -> 0 <= c < 1 -> 0 < k ->
  let t := exact_truth f c k in
  1 / 100000000 < weight exact t ->
  let '(wp, wm) := w_from_truth exact t in
  truth_from_w exact wp (wp + wm) k = t.
Proof. exact from_w_exact. Qed.
Print Assumptions C89_truth_back.

Theorem C89_nothing : forall wp w k, is_finite (w : float32) = true -> B2R (w : float32) = 0 ->
  let t := truth_from_w ieee wp w k in
  B2R (fr ieee t : float32) = / 2 /\ B2R (co ieee t : float32) = 0 /\ kk ieee t = k.
Proof. exact no_weight. Qed.
Print Assumptions C89_nothing.

Example C89_zero : is_finite (of_Z32 0) = true /\ B2R (of_Z32 0) = 0.
Proof. exact (conj eq_refl eq_refl). Qed.

Example C89_case : 1 / 100000000 < weight exact (exact_truth (3 / 4) (1 / 2) 1).
Proof. cbn. lra. Qed.

(* ---- C90 ---- *)
Theorem C90_confidence_grows_refuted :
  ~ (forall m p1 p2, proper (m p1) -> open (m p1) -> unit_k (m p1) ->
       proper (m p2) -> open (m p2) -> unit_k (m p2) ->
       B2R (co ieee (m p1) : float32) <= B2R (co ieee (truth_revision ieee m p1 p2 p1) : float32)).
Proof. exact confidence_lowered. Qed.
Print Assumptions C90_confidence_grows_refuted.

(* What is missing: the last places of the confidence; two confidences below 2^-26. *)
Theorem C90_confidence_kept_partial : forall m p1 p2,
  proper (m p1) -> open (m p1) -> unit_k (m p1) -> proper (m p2) -> open (m p2) -> unit_k (m p2) ->
  bpow radix2 (-26) <= B2R (co ieee (m p1) : float32) + B2R (co ieee (m p2) : float32) ->
  (1 - bpow radix2 (-20)) * B2R (co ieee (m p1) : float32) <= B2R (co ieee (truth_revision ieee m p1 p2 p1) : float32).
Proof. exact confidence_kept. Qed.
Print Assumptions C90_confidence_kept_partial.

Example C90_case : ((proper t_a /\ open t_a /\ unit_k t_a /\ sane_k t_a) /\ proper t_b /\ open t_b /\ unit_k t_b /\ sane_k t_b) /\
  bpow radix2 (-26) <= B2R (co ieee t_a : float32) + B2R (co ieee t_b : float32).
Proof. exact (conj (conj t_a_ok t_b_ok) (proj2 common_case)). Qed.

(* ---- C102 ---- *)
Theorem C102_deduction : forall t1 t2, proper t1 -> proper t2 ->
  let t := truth_deduction ieee t1 t2 in
  let f1 := B2R (fr ieee t1 : float32) in let c1 := B2R (co ieee t1 : float32) in
  let f2 := B2R (fr ieee t2 : float32) in let c2 := B2R (co ieee t2 : float32) in
  B2R (fr ieee t : float32) = round radix2 (FLT_exp (-149) 24) ZnearestE (f1 * f2) /\
  Rabs (B2R (co ieee t : float32) - f1 * f2 * c1 * c2) <= / 8388608 * (f1 * f2 * c1 * c2) + bpow radix2 (-150).
Proof. exact deduction_accurate. Qed.
Print Assumptions C102_deduction.

Theorem C102_induction : forall t1 t2, proper t1 -> proper t2 ->
  let t := truth_induction ieee t1 t2 in
  let f1 := B2R (fr ieee t1 : float32) in let c1 := B2R (co ieee t1 : float32) in
  let f2 := B2R (fr ieee t2 : float32) in let c2 := B2R (co ieee t2 : float32) in
  let w := f2 * c1 * c2 in
  B2R (fr ieee t : float32) = (if Req_bool w 0 then / 2 else f1) /\
  Rabs (B2R (co ieee t : float32) - w / (w + 1)) <= / 8388608 * (w / (w + 1)) + bpow radix2 (-150) /\
  kk ieee t = of_Z32 1.
Proof. exact induction_accurate. Qed.
Print Assumptions C102_induction.

Example C102_case : proper t_a /\ proper t_b.
Proof. exact (conj (proj1 t_a_ok) (proj1 t_b_ok)). Qed.

(* ---- C103 ---- *)
Theorem C103_comparison_refuted :
  ~ (forall t1 t2, proper t1 -> proper t2 ->
       let f1 := B2R (fr ieee t1 : float32) in let c1 := B2R (co ieee t1 : float32) in
       let f2 := B2R (fr ieee t2 : float32) in let c2 := B2R (co ieee t2 : float32) in
       0 < f1 -> 0 < f2 -> 0 < c1 -> 0 < c2 ->
       Rabs (B2R (fr ieee (truth_comparison ieee t1 t2) : float32) - f1 * f2 / (f1 + f2 - f1 * f2)) <= / 4).
Proof. exact comparison_inaccurate. Qed.
Print Assumptions C103_comparison_refuted.

(* What is missing: frequencies that are both below 2^-27. *)
Theorem C103_comparison_partial : forall t1 t2, proper t1 -> proper t2 ->
  bpow radix2 (-27) <= Rmax (B2R (fr ieee t1 : float32)) (B2R (fr ieee t2 : float32)) ->
  let t := truth_comparison ieee t1 t2 in
  let f1 := B2R (fr ieee t1 : float32) in let c1 := B2R (co ieee t1 : float32) in
  let f2 := B2R (fr ieee t2 : float32) in let c2 := B2R (co ieee t2 : float32) in
  let f := f1 * f2 / (f1 + f2 - f1 * f2) in let w := (f1 + f2 - f1 * f2) * c1 * c2 in
  (c1 * c2 = 0 -> B2R (fr ieee t : float32) = / 2) /\
  (c1 * c2 <> 0 -> Rabs (B2R (fr ieee t : float32) - f) <= / 4194304 * f + bpow radix2 (-150)) /\
  Rabs (B2R (co ieee t : float32) - w / (w + 1)) <= / 4194304 * (w / (w + 1)) + bpow radix2 (-150) /\
  kk ieee t = of_Z32 1.
Proof. exact comparison_accurate. Qed.
Print Assumptions C103_comparison_partial.

Example C103_case : (proper t_a /\ proper t_b) /\
  bpow radix2 (-27) <= Rmax (B2R (fr ieee t_a : float32)) (B2R (fr ieee t_b : float32)).
Proof. exact (conj (conj (proj1 t_a_ok) (proj1 t_b_ok)) (proj1 common_case)). Qed.

(* ---- C104 ---- *)
Theorem C104_revision_refuted :
  ~ (forall m p1 p2, proper (m p1) -> open (m p1) -> unit_k (m p1) -> proper (m p2) -> open (m p2) -> unit_k (m p2) ->
       let f1 := B2R (fr ieee (m p1) : float32) in let c1 := B2R (co ieee (m p1) : float32) in
       let f2 := B2R (fr ieee (m p2) : float32) in let c2 := B2R (co ieee (m p2) : float32) in
       0 < c1 -> 0 < c2 ->
       let w := c1 / (1 - c1) + c2 / (1 - c2) in let wp := f1 * (c1 / (1 - c1)) + f2 * (c2 / (1 - c2)) in
       Rabs (B2R (fr ieee (truth_revision ieee m p1 p2 p1) : float32) - wp / w) <= / 2).
Proof. exact revision_inaccurate. Qed.
Print Assumptions C104_revision_refuted.

(* What is missing: two confidences that add up to less than 2^-26; other horizons than 1. *)
Theorem C104_revision_partial : forall m p1 p2,
  proper (m p1) -> open (m p1) -> unit_k (m p1) -> proper (m p2) -> open (m p2) -> unit_k (m p2) ->
  let f1 := B2R (fr ieee (m p1) : float32) in let c1 := B2R (co ieee (m p1) : float32) in
  let f2 := B2R (fr ieee (m p2) : float32) in let c2 := B2R (co ieee (m p2) : float32) in
  bpow radix2 (-26) <= c1 + c2 ->
  let t := truth_revision ieee m p1 p2 p1 in
  let w := c1 / (1 - c1) + c2 / (1 - c2) in let wp := f1 * (c1 / (1 - c1)) + f2 * (c2 / (1 - c2)) in
  Rabs (B2R (fr ieee t : float32) - wp / w) <= / 1048576 * (wp / w) + bpow radix2 (-70) /\
  Rabs (B2R (co ieee t : float32) - w / (w + 1)) <= / 1048576 * (w / (w + 1)).
Proof. exact revision_accurate. Qed.
Print Assumptions C104_revision_partial.

Example C104_case : ((proper t_a /\ open t_a /\ unit_k t_a /\ sane_k t_a) /\ proper t_b /\ open t_b /\ unit_k t_b /\ sane_k t_b) /\
  bpow radix2 (-26) <= B2R (co ieee t_a : float32) + B2R (co ieee t_b : float32).
Proof. exact (conj (conj t_a_ok t_b_ok) (proj2 common_case)). Qed.

(* ---- C105 ---- *)
Theorem C105_expectation_quality : forall t, proper t ->
  let f := B2R (fr ieee t : float32) in let c := B2R (co ieee t : float32) in
  let e := c * (f - / 2) + / 2 in
  Rabs (B2R (expectation ieee t : float64) - e) <= bpow radix2 (-53) /\
  Rabs (B2R (quality_from_truth ieee t : float64) - Rmax e (3 / 4 * (1 - e))) <= bpow radix2 (-52).
Proof. exact quality_accurate. Qed.
Print Assumptions C105_expectation_quality.

Example C105_case : proper t_b.
Proof. exact (proj1 t_b_ok). Qed.

(* ---- C189 ---- *)
Theorem C189_default : forall k, let t := truth_default ieee k in
  B2R (fr ieee t : float32) = 1 /\ kk ieee t = k /\
  exists m, B2R (co ieee t : float32) = IZR m / 16777216 /\
    forall m', Rabs (IZR m / 16777216 - 9 / 10) <= Rabs (IZR m' / 16777216 - 9 / 10).
Proof.
  exact (fun k => conj (proj1 (default_values k)) (conj (proj2 (proj2 (default_values k)))
    (ex_intro _ 15099494%Z (conj (proj1 (proj2 (default_values k))) nearest_nine)))).
Qed.
Print Assumptions C189_default.

Example C189_case : kk ieee (truth_default ieee (of_Z32 2)) = of_Z32 2.
Proof. exact eq_refl. Qed.
