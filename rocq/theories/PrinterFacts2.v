(* Lemmas on the numbers of a printed budget *)
From Coq Require Import ZArith Bool Reals Lra Lia String Ascii List.
From Flocq Require Import Core BinarySingleNaN.
From Verif Require Import Base Float FloatFacts Numeral Actions Printer PrinterSpec PrinterFacts.
Import ListNotations.
Open Scope string_scope.
Open Scope list_scope.
Local Open Scope Z_scope.

(* ---- the texts of the thousandths ---- *)

Definition thousandths (n : Z) : float32 := Bdiv mode_NE (of_Z32 n) (of_Z32 1000).
Definition is_ok {A} (r : res A) : bool := match r with Ok _ => true | _ => false end.

Definition good (n : Z) : bool :=
  let z := thousandths n in
  (String.eqb (fixed 2 z) (hundredths ((n + 5) / 10)) || String.eqb (fixed 2 z) (hundredths ((n + 4) / 10)))
  && is_ok (channel z) && is_ok (channel_quality z).

Lemma all_good : forallb good (map Z.of_nat (seq 0 1001)) = true.
Proof. vm_compute. reflexivity. Qed.

Lemma is_good n : 0 <= n <= 1000 -> good n = true.
Proof.
  intros B. pose proof all_good as G. rewrite forallb_forall in G. apply G. apply in_map_iff.
  exists (Z.to_nat n). split; [lia|]. apply in_seq. lia.
Qed.

Definition prints_ok (z : float32) : Prop :=
  (exists c, channel z = Ok c) /\ (exists c, channel_quality z = Ok c).

Lemma is_ok_exists {A} (r : res A) : is_ok r = true -> exists x, r = Ok x.
Proof. destruct r; try discriminate. eexists. reflexivity. Qed.

Lemma thousandths_text n : 0 <= n <= 1000 -> exists h, fixed 2 (thousandths n) = hundredths h /\ 0 <= h <= 100 /\
  Z.abs (10 * h - n) <= 5 /\ prints_ok (thousandths n).
Proof.
  intros B. pose proof (is_good n B) as G. unfold good in G. rewrite !andb_true_iff, orb_true_iff in G.
  destruct G as [[[G|G] C] Q]; apply String.eqb_eq in G; eexists; (split; [exact G|]);
    (split; [Z.to_euclidean_division_equations; lia|]); (split; [Z.to_euclidean_division_equations; lia|]);
    (split; apply is_ok_exists; assumption).
Qed.

(* ---- rounding to three places ---- *)

Local Open Scope R_scope.

Lemma err32 x e : (-149 <= e)%Z -> Rabs x <= bpow radix2 e -> Rabs (rnd32 x - x) <= / 2 * bpow radix2 (SpecFloat.fexp 24 128 (e + 1)).
Proof.
  intros E H. unfold rnd.
  pose proof (fexp_correct 24 128 prec32) as V.
  eapply Rle_trans.
  - apply error_le_half_ulp. exact V.
  - apply Rmult_le_compat_l; [lra|]. rewrite <- ulp_bpow.
    apply ulp_le; [exact V|apply fexp_monotone|].
    rewrite (Rabs_pos_eq (bpow radix2 e)) by apply bpow_ge_0. exact H.
Qed.

Lemma small_at n : (0 <= n <= 1000)%Z -> at_ (of_Z32 n) (IZR n).
Proof.
  intros B. unfold of_Z32.
  assert (F : F2R (Float radix2 n 0) = IZR n) by (unfold F2R; cbn; ring).
  assert (A : at_ (binary_normalize 24 128 prec32 emax32 mode_NE n 0 false) (rnd32 (F2R (Float radix2 n 0)))).
  { apply normalize_at with (e := 10%Z); [vm_compute; split; discriminate || reflexivity|]. rewrite F.
    rewrite Rabs_pos_eq by (apply IZR_le; lia). change (bpow radix2 10) with 1024. apply IZR_le. lia. }
  rewrite rnd_id in A; [rewrite F in A; exact A|].
  unfold fmt. apply generic_format_FLT. exists (Float radix2 n 0); [reflexivity| |cbn; lia].
  cbn. change (Z.pow_pos 2 24) with 16777216%Z. lia.
Qed.

Lemma normalized_at n s : (0 <= n <= 1000)%Z ->
  at_ (binary_normalize 24 128 prec32 emax32 mode_NE n 0 s) (IZR n).
Proof.
  intros B.
  assert (F : F2R (Float radix2 n 0) = IZR n) by (unfold F2R; cbn; ring).
  assert (A : at_ (binary_normalize 24 128 prec32 emax32 mode_NE n 0 s) (rnd32 (F2R (Float radix2 n 0)))).
  { apply normalize_at with (e := 10%Z); [vm_compute; split; discriminate || reflexivity|]. rewrite F.
    rewrite Rabs_pos_eq by (apply IZR_le; lia). change (bpow radix2 10) with 1024. apply IZR_le. lia. }
  rewrite rnd_id in A; [rewrite F in A; exact A|].
  unfold fmt. apply generic_format_FLT. exists (Float radix2 n 0); [reflexivity| |cbn; lia].
  cbn. change (Z.pow_pos 2 24) with 16777216%Z. lia.
Qed.

Lemma of_Z32_sign n : (0 <= n <= 1000)%Z -> Bsign (of_Z32 n) = false.
Proof.
  intros B. unfold of_Z32.
  pose proof (binary_normalize_correct 24 128 prec32 emax32 mode_NE n 0 false) as C. cbn zeta in C.
  assert (F : F2R (Float radix2 n 0) = IZR n) by (unfold F2R; cbn; ring).
  change (round radix2 (SpecFloat.fexp 24 128) (round_mode mode_NE)) with rnd32 in C. rewrite F in C.
  rewrite (no_overflow 24 128 _ 10) in C.
  - destruct C as (_ & _ & S). rewrite S. destruct (Z.eq_dec n 0) as [->|N].
    + rewrite Rcompare_Eq by reflexivity. reflexivity.
    + rewrite Rcompare_Gt; [reflexivity|]. apply IZR_lt. lia.
  - vm_compute. split; discriminate || reflexivity.
  - rewrite Rabs_pos_eq by (apply IZR_le; lia). change (bpow radix2 10) with 1024. apply IZR_le. lia.
Qed.

Lemma normalized_eq n : (0 <= n <= 1000)%Z ->
  binary_normalize 24 128 prec32 emax32 mode_NE n 0 false = of_Z32 n.
Proof. reflexivity. Qed.

(* std::round of a number between 0 and 1000 *)
Lemma round32_spec (x : float32) v : at_ x v -> 0 <= v <= 1000 -> Bsign x = false ->
  exists n, (0 <= n <= 1000)%Z /\ round32 x = of_Z32 n /\ Rabs (IZR n - v) <= / 2.
Proof.
  intros [F <-] B S. destruct x as [s|s| |s m e BB]; try discriminate F.
  - cbn in S. subst s. exists 0%Z. split; [lia|]. split; [reflexivity|]. cbn. rewrite Rminus_0_r, Rabs_R0. lra.
  - cbn in S. subst s. unfold round32. destruct (Z.leb_spec 0 e) as [E|E].
    + exists (Zpos m * 2 ^ e)%Z.
      assert (V : B2R (B754_finite false m e BB) = IZR (Zpos m * 2 ^ e)).
      { cbn [B2R cond_Zopp]. unfold F2R. cbn [Fnum Fexp]. rewrite mult_IZR. f_equal. rewrite <- IZR_Zpower by exact E. reflexivity. }
      rewrite V in B. assert (N : (0 <= Z.pos m * 2 ^ e <= 1000)%Z) by (split; apply le_IZR; lra).
      split; [exact N|]. split; [|rewrite V, Rminus_diag_eq, Rabs_R0 by reflexivity; lra].
      apply B2R_Bsign_inj; [reflexivity|apply (proj1 (small_at _ N))| |].
      * rewrite V. symmetry. apply (proj2 (small_at _ N)).
      * rewrite of_Z32_sign by exact N. reflexivity.
    + set (D := (2 ^ (- e))%Z). set (n := ((2 * Zpos m + D) / (2 * D))%Z).
      assert (DP : (0 < D)%Z) by (apply Z.pow_pos_nonneg; lia).
      assert (V : B2R (B754_finite false m e BB) = IZR (Zpos m) / IZR D).
      { cbn [B2R cond_Zopp]. unfold F2R. cbn [Fnum Fexp]. unfold Rdiv. f_equal.
        replace e with (- (- e))%Z by lia. rewrite bpow_opp. f_equal. unfold D. rewrite <- IZR_Zpower by lia. reflexivity. }
      rewrite V in B.
      assert (DR : 0 < IZR D) by (apply IZR_lt; exact DP).
      assert (MB : (Zpos m <= 1000 * D)%Z).
      { apply le_IZR. rewrite mult_IZR. destruct B as [_ B]. apply Rmult_le_compat_r with (r := IZR D) in B; [|lra].
        unfold Rdiv in B. rewrite Rmult_assoc, Rinv_l in B by lra. lra. }
      assert (N1 : (2 * D * n <= 2 * Zpos m + D < 2 * D * n + 2 * D)%Z).
      { unfold n. pose proof (Z.div_mod (2 * Z.pos m + D) (2 * D) ltac:(lia)).
        pose proof (Z.mod_pos_bound (2 * Z.pos m + D) (2 * D) ltac:(lia)). lia. }
      assert (N : (0 <= n <= 1000)%Z) by nia.
      exists n. split; [exact N|]. split; [reflexivity|]. rewrite V.
      apply Rabs_le.
      assert (X : IZR (2 * D * n) <= IZR (2 * Z.pos m + D) < IZR (2 * D * n + 2 * D)) by (split; [apply IZR_le|apply IZR_lt]; lia).
      rewrite !plus_IZR, !mult_IZR in X.
      assert (Y : IZR (Z.pos m) = IZR (Z.pos m) / IZR D * IZR D) by (field; lra).
      set (q := IZR (Z.pos m) / IZR D) in *. rewrite Y in X. split; nra.
Qed.

Lemma rounded_unit (y : float32) v : at_ y v -> 0 <= v <= 1 -> Bsign y = false ->
  exists n, (0 <= n <= 1000)%Z /\ Rabs (IZR n - 1000 * v) <= / 2 + / 16384 /\
  Bdiv mode_NE (round32 (Bmult mode_NE y (of_Z32 1000))) (of_Z32 1000) = thousandths n.
Proof.
  intros A B S.
  pose proof (small_at 1000 ltac:(lia)) as K.
  assert (BV : Rabs (v * 1000) <= bpow radix2 10).
  { rewrite Rabs_pos_eq by lra. change (bpow radix2 10) with 1024. lra. }
  pose proof (mul_at 24 128 y (of_Z32 1000) v 1000 10 ltac:(vm_compute; split; discriminate || reflexivity) A K BV) as M.
  assert (R1 : 0 <= rnd32 (v * 1000)) by (apply lb32; [lra|apply fmt_0]).
  assert (R2 : rnd32 (v * 1000) <= 1000) by (apply ub32; [lra|exact (at_fmt _ _ _ _ K)]).
  assert (SG : Bsign (Bmult mode_NE y (of_Z32 1000)) = false).
  { pose proof (Bmult_correct 24 128 _ _ mode_NE y (of_Z32 1000)) as C.
    change (round radix2 (SpecFloat.fexp 24 128) (round_mode mode_NE)) with rnd32 in C.
    rewrite (proj2 A), (proj2 K), (no_overflow 24 128 _ 10) in C; [|vm_compute; split; discriminate || reflexivity|exact BV].
    destruct C as (_ & _ & C). rewrite C.
    - rewrite S, of_Z32_sign by lia. reflexivity.
    - destruct M as [M _]. destruct (Bmult mode_NE y (of_Z32 1000)); try discriminate M; reflexivity. }
  destruct (round32_spec _ _ M (conj R1 R2) SG) as (n & N & E & D).
  exists n. split; [exact N|]. split; [|unfold thousandths; rewrite E; reflexivity].
  pose proof (err32 (v * 1000) 10 ltac:(lia) BV) as Q.
  change (SpecFloat.fexp 24 128 (10 + 1)) with (-13)%Z in Q. change (bpow radix2 (-13)) with (/ 8192) in Q.
  replace (IZR n - 1000 * v) with ((IZR n - rnd32 (v * 1000)) + (rnd32 (v * 1000) - v * 1000)) by ring.
  eapply Rle_trans; [apply Rabs_triang|]. apply Rplus_le_compat; [exact D|]. lra.
Qed.

(* ---- clamping ---- *)

Definition near (v : R) (h : Z) (d : R) : Prop :=
  exists n, (0 <= n <= 1000)%Z /\ Rabs (IZR n / 1000 - v) <= d /\ (Z.abs (10 * h - n) <= 5)%Z.

Lemma le32 (x y : float32) : is_finite x = true -> is_finite y = true -> Bleb x y = Rle_bool (B2R x) (B2R y).
Proof. apply Bleb_correct. Qed.

Lemma zero_at : at_ (of_Z32 0) 0. Proof. exact (small_at 0 ltac:(lia)). Qed.
Lemma one_at : at_ (of_Z32 1) 1. Proof. exact (small_at 1 ltac:(lia)). Qed.

Lemma rounded_zero s : exists h, unit_text (fixed 2 (rounded (B754_zero s))) h /\ h = 0%Z /\ prints_ok (rounded (B754_zero s)).
Proof.
  exists 0%Z. split; [split; [lia|]; destruct s; [right; split; [reflexivity|]|left]; vm_compute; reflexivity|].
  split; [reflexivity|]. destruct s; (split; [exists 10%Z|exists 10%Z]; vm_compute; reflexivity).
Qed.

Lemma clamp_infinity s : clamp (B754_infinity s) = if s then of_Z32 0 else of_Z32 1.
Proof. apply B2SF_inj. destruct s; vm_compute; reflexivity. Qed.
Lemma clamp_nan : clamp B754_nan = of_Z32 0.
Proof. apply B2SF_inj. vm_compute. reflexivity. Qed.
Lemma rounded_low x : clamp x = of_Z32 0 -> rounded x = thousandths 0.
Proof. intros E. unfold rounded. rewrite E. apply B2SF_inj. vm_compute. reflexivity. Qed.
Lemma rounded_high x : clamp x = of_Z32 1 -> rounded x = thousandths 1000.
Proof. intros E. unfold rounded. rewrite E. apply B2SF_inj. vm_compute. reflexivity. Qed.
Lemma above_zero (x : float32) : is_finite x = true -> Bleb (of_Z32 0) x = Rle_bool 0 (B2R x).
Proof. intros F. rewrite le32; [rewrite (proj2 zero_at); reflexivity|exact (proj1 zero_at)|exact F]. Qed.
Lemma below_one (x : float32) : is_finite x = true -> Bleb x (of_Z32 1) = Rle_bool (B2R x) 1.
Proof. intros F. rewrite le32; [rewrite (proj2 one_at); reflexivity|exact F|exact (proj1 one_at)]. Qed.

Lemma low_text : unit_text (fixed 2 (thousandths 0)) 0 /\ prints_ok (thousandths 0).
Proof.
  split; [split; [lia|left; vm_compute; reflexivity]|].
  destruct (thousandths_text 0 ltac:(lia)) as (h & _ & _ & _ & P). exact P.
Qed.
Lemma high_text : unit_text (fixed 2 (thousandths 1000)) 100 /\ prints_ok (thousandths 1000).
Proof.
  split; [split; [lia|left; vm_compute; reflexivity]|].
  destruct (thousandths_text 1000 ltac:(lia)) as (h & _ & _ & _ & P). exact P.
Qed.

Lemma rounded_text (x : float32) : exists h, unit_text (fixed 2 (rounded x)) h /\ prints_ok (rounded x) /\
  match x with
  | B754_nan => h = 0%Z
  | B754_infinity sign => h = if sign then 0%Z else 100%Z
  | _ => (B2R x <= 0 -> h = 0%Z) /\ (1 <= B2R x -> h = 100%Z) /\ (0 <= B2R x <= 1 -> near (B2R x) h (/ 2000 + / 16384000))
  end.
Proof.
  pose proof (rounded_low x) as CL. pose proof (rounded_high x) as CH.
  pose proof low_text as [LU LP]. pose proof high_text as [HU HP].
  destruct x as [s|s| |s m e BB].
  - destruct (rounded_zero s) as (h & U & H & P). exists h. split; [exact U|]. split; [exact P|]. cbn [B2R].
    split; [intros; exact H|]. split; [lra|]. intros _. subst h. exists 0%Z. split; [lia|]. split; [|lia].
    unfold Rdiv. rewrite Rmult_0_l, Rminus_0_r, Rabs_R0. lra.
  - destruct s.
    + rewrite (CL (clamp_infinity true)). exists 0%Z. split; [exact LU|]. split; [exact LP|reflexivity].
    + rewrite (CH (clamp_infinity false)). exists 100%Z. split; [exact HU|]. split; [exact HP|reflexivity].
  - rewrite (CL clamp_nan). exists 0%Z. split; [exact LU|]. split; [exact LP|reflexivity].
  - set (x := B754_finite s m e BB) in *.
    pose proof (above_zero x eq_refl) as L0. pose proof (below_one x eq_refl) as L1.
    unfold clamp in CL, CH. rewrite L0, L1 in CL, CH.
    destruct (Rle_bool_spec 0 (B2R x)) as [P0|P0].
    + destruct (Rle_bool_spec (B2R x) 1) as [P1|P1].
      * assert (SX : s = false).
        { destruct s; [|reflexivity]. exfalso. revert P0. unfold x. cbn [B2R cond_Zopp]. intros P0.
          assert (F2R (Float radix2 (Z.neg m) e) < 0) by (apply F2R_lt_0; reflexivity). cbn [Z.opp] in P0. lra. }
        assert (CX : clamp x = x) by (unfold clamp; rewrite L0, L1; reflexivity).
        destruct (rounded_unit x (B2R x) (conj eq_refl eq_refl) (conj P0 P1) ltac:(subst s; reflexivity)) as (n & N & D & E).
        destruct (thousandths_text n N) as (h & T & H & A & P).
        assert (RX : rounded x = thousandths n) by (unfold rounded; rewrite CX; exact E).
        rewrite RX. exists h. split; [split; [exact H|left; exact T]|]. split; [exact P|].
        assert (NE : near (B2R x) h (/ 2000 + / 16384000)).
        { exists n. split; [exact N|]. split; [|exact A].
          replace (IZR n / 1000 - B2R x) with ((IZR n - 1000 * B2R x) * / 1000) by field.
          rewrite Rabs_mult, (Rabs_pos_eq (/ 1000)) by lra. lra. }
        split; [|split; [|intros _; exact NE]].
        -- intros Z. exfalso. assert (0 < B2R x); [|lra]. subst s. unfold x. cbn [B2R cond_Zopp]. apply F2R_gt_0. reflexivity.
        -- intros Z. assert (N1 : n = 1000%Z).
           { assert (VX : B2R x = 1) by lra. rewrite VX in D. apply Rabs_le_inv in D.
             assert (999 < IZR n) by lra. apply lt_IZR in H0. lia. }
           lia.
      * rewrite (CH eq_refl). exists 100%Z. split; [exact HU|]. split; [exact HP|].
        split; [lra|]. split; [intros; reflexivity|lra].
    + rewrite (CL eq_refl). exists 0%Z. split; [exact LU|]. split; [exact LP|].
      split; [intros; reflexivity|]. split; lra.
Qed.

Lemma shows_single (x : float32) : shows x (fixed 2 (rounded x)) /\ prints_ok (rounded x).
Proof.
  destruct (rounded_text x) as (h & U & P & V). split; [|exact P]. exists h. split; [exact U|].
  assert (NN : forall v, near v h (/ 2000 + / 16384000) -> near_two v h).
  { intros v (n & A & B & C). exists n. split; [exact A|]. split; [lra|exact C]. }
  destruct x as [s|s| |s m e BB]; try exact V; destruct V as (V1 & V2 & V3);
    (split; [intros Z; apply V1; lra|]); (split; [intros Z; apply V2; lra|]); intros Z; apply NN, V3, Z.
Qed.

(* A double made a float *)
Lemma to32_cases (x : float64) : is_finite x = true ->
  at_ (to32 x) (rnd32 (B2R x)) \/ 1 < Rabs (B2R x) /\ to32 x = B754_infinity (Bsign x).
Proof.
  intros F. destruct x as [s|s| |s m e BB]; try discriminate F.
  - left. split; [reflexivity|]. cbn. rewrite rnd_id by apply fmt_0. reflexivity.
  - pose proof (binary_normalize_correct 24 128 prec32 emax32 mode_NE (cond_Zopp s (Zpos m)) e s) as C. cbn zeta in C.
    change (round radix2 (SpecFloat.fexp 24 128) (round_mode mode_NE)) with rnd32 in C.
    change (F2R (Float radix2 (cond_Zopp s (Zpos m)) e)) with (B2R (B754_finite s m e BB)) in C.
    set (x := B754_finite s m e BB) in *.
    destruct (Rlt_bool_spec (Rabs (rnd32 (B2R x))) (bpow radix2 128)) as [L|L].
    + left. destruct C as (C1 & C2 & _). split; [exact C2|exact C1].
    + right. split.
      * apply Rnot_le_lt. intros H. assert (Rabs (rnd32 (B2R x)) <= bpow radix2 0) by exact (rnd_abs 24 128 _ 0 ltac:(vm_compute; discriminate) H).
        assert (bpow radix2 0 < bpow radix2 128) by (apply bpow_lt; lia). lra.
      * unfold to32, x. fold x.
        assert (RS : Rlt_bool (B2R x) 0 = s).
        { unfold x. cbn [B2R]. destruct s; cbn [cond_Zopp].
          - apply Rlt_bool_true. apply F2R_lt_0. reflexivity.
          - apply Rlt_bool_false. apply F2R_ge_0. discriminate. }
        rewrite RS in C. apply B2SF_inj. rewrite C. reflexivity.
Qed.

Lemma rnd32_sign v : (0 <= v -> 0 <= rnd32 v) /\ (v <= 0 -> rnd32 v <= 0).
Proof. split; intros H; [apply lb32|apply ub32]; try exact H; apply fmt_0. Qed.

Lemma fmt32_1 : fmt32 1.
Proof. exact (at_fmt _ _ _ _ one_at). Qed.

Lemma near_double v h : 0 <= v <= 1 -> near (rnd32 v) h (/ 2000 + / 16384000) -> near_two v h.
Proof.
  intros B (n & A & D & C). exists n. split; [exact A|]. split; [|exact C].
  pose proof (err32 v 0 ltac:(lia) ltac:(rewrite Rabs_pos_eq by lra; cbn; lra)) as Q.
  change (SpecFloat.fexp 24 128 (0 + 1)) with (-23)%Z in Q. change (bpow radix2 (-23)) with (/ 8388608) in Q.
  replace (IZR n / 1000 - v) with ((IZR n / 1000 - rnd32 v) + (rnd32 v - v)) by ring.
  eapply Rle_trans; [apply Rabs_triang|]. lra.
Qed.

Lemma shows_double (x : float64) : shows x (fixed 2 (rounded (to32 x))) /\ prints_ok (rounded (to32 x)).
Proof.
  destruct (rounded_text (to32 x)) as (h & U & P & V). split; [|exact P]. exists h. split; [exact U|].
  assert (FIN : is_finite x = true -> (B2R x < 0 -> h = 0%Z) /\ (1 < B2R x -> h = 100%Z) /\ (0 <= B2R x <= 1 -> near_two (B2R x) h)).
  { intros F. destruct (to32_cases x F) as [[F' E]|[L E]].
    - assert (W : (B2R (to32 x) <= 0 -> h = 0%Z) /\ (1 <= B2R (to32 x) -> h = 100%Z) /\
                  (0 <= B2R (to32 x) <= 1 -> near (B2R (to32 x)) h (/ 2000 + / 16384000)))
        by (destruct (to32 x); try discriminate F'; exact V).
      rewrite E in W. destruct W as (W1 & W2 & W3). split; [|split].
      + intros H. apply W1. apply rnd32_sign. lra.
      + intros H. apply W2. apply lb32; [lra|apply fmt32_1].
      + intros H. apply near_double; [exact H|]. apply W3. split; [apply rnd32_sign; lra|]. apply ub32; [lra|apply fmt32_1].
    - rewrite E in V. assert (S : B2R x < 0 /\ Bsign x = true \/ 0 < B2R x /\ Bsign x = false).
      { destruct x as [s|s| |s m e BB]; try discriminate F; [cbn in L; rewrite Rabs_R0 in L; lra|].
        destruct s; [left|right]; (split; [|reflexivity]); cbn [B2R cond_Zopp]; [apply F2R_lt_0|apply F2R_gt_0]; reflexivity. }
      destruct S as [[S1 S2]|[S1 S2]]; rewrite S2 in V.
      + rewrite Rabs_left in L by exact S1. split; [intros _; exact V|]. split; lra.
      + rewrite Rabs_pos_eq in L by lra. split; [lra|]. split; [intros _; exact V|]. lra. }
  destruct x as [s|s| |s m e BB]; [exact (FIN eq_refl)|exact V|exact V|exact (FIN eq_refl)].
Qed.

Lemma task_text names st t w : interpret_sentence names false st (sentence_of t) = Ok w ->
  exists a b c, interpret_task names false st t = Ok ("$" ++ a ++ ";" ++ b ++ ";" ++ c ++ "$ " ++ w)%string /\
  shows (priority (budget_of t)) a /\ shows (durability (budget_of t)) b /\ shows (quality (budget_of t)) c.
Proof.
  intros E. destruct (shows_double (priority (budget_of t))) as [P [[x PC] _]].
  destruct (shows_double (durability (budget_of t))) as [D [[y DC] _]].
  destruct (shows_single (quality (budget_of t))) as [Q [_ [z QC]]].
  eexists _, _, _. split; [|split; [exact P|split; [exact D|exact Q]]].
  unfold interpret_task. revert PC DC QC.
  generalize (rounded (to32 (priority (budget_of t)))) (rounded (to32 (durability (budget_of t)))) (rounded (quality (budget_of t))).
  intros p d q -> -> ->. cbn [bind]. rewrite E. cbn [bind]. clear.
  unfold format.
  cbn -[fixed]. rewrite ?PrinterFacts.app_empty. reflexivity.
Qed.
