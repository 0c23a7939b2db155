(* Printed numbers are numerals of the grammar, near the numbers they show. *)
From Coq Require Import ZArith Bool Reals Lra Lia String Ascii List.
From Flocq Require Import Core BinarySingleNaN.
From Verif Require Import Base Float FloatFacts Numeral NumeralSpec Grammar Actions ActionsSpec ActionsFacts5 Printer PrinterSpec PrinterFacts PrinterFacts2.
From Verif Require Import Forms FormFacts2 Roundtrip.
Import ListNotations.
Open Scope string_scope.
Open Scope list_scope.
Local Open Scope Z_scope.

(** * Three places *)

Lemma nearest_even_spec a b : 0 < b -> 2 * Z.abs (a - nearest_even a b * b) <= b.
Proof.
  intros B. unfold nearest_even. pose proof (Z.div_mod a b ltac:(lia)) as D. pose proof (Z.mod_pos_bound a b B) as M.
  destruct (Z.ltb_spec (2 * (a mod b)) b); [nia|]. destruct (Z.ltb_spec b (2 * (a mod b))); [nia|].
  destruct (Z.even (a / b)); nia.
Qed.

Definition thousand (n : Z) : string := (Printer.natural 10 (n / 1000) ++ "." ++ Printer.padded 3 (n mod 1000) "")%string.

Lemma fixed_unit (x : float32) : unit_value x -> exists n, 0 <= n <= 1000 /\ fixed 3 x = thousand n /\
  (Rabs (IZR n / 1000 - B2R x) <= 1 / 2000)%R.
Proof.
  intros (F & S & U). destruct x as [s|s| |s m e BB]; try discriminate F; cbn [Bsign] in S; subst s.
  - exists 0. split; [lia|]. split; [vm_compute; reflexivity|]. cbn [B2R]. unfold Rdiv. rewrite Rmult_0_l, Rminus_0_r, Rabs_R0. lra.
  - cbn [fixed]. change (10 ^ Z.of_nat 3) with 1000.
    set (n := if 0 <=? e then Z.pos m * 2 ^ e * 1000 else nearest_even (Z.pos m * 1000) (2 ^ - e)).
    assert (X : (Rabs (IZR n / 1000 - B2R (B754_finite false m e BB)) <= 1 / 2000)%R).
    { unfold n. cbn [B2R cond_Zopp]. unfold F2R. cbn [Fnum Fexp]. destruct (Z.leb_spec 0 e) as [P|P].
      - rewrite <- IZR_Zpower by exact P. change (Z.pow (radix_val radix2) e) with (2 ^ e). rewrite !mult_IZR.
        match goal with |- (Rabs ?z <= _)%R => replace z with 0%R by field end. rewrite Rabs_R0. lra.
      - set (b := 2 ^ - e). assert (B : 0 < b) by (apply Z.pow_pos_nonneg; lia).
        assert (E : bpow radix2 e = (/ IZR b)%R).
        { unfold b. change (2 ^ - e) with (Z.pow (radix_val radix2) (- e)). rewrite IZR_Zpower by lia. rewrite bpow_opp, Rinv_inv. reflexivity. }
        rewrite E. pose proof (nearest_even_spec (Z.pos m * 1000) b B) as N. set (q := nearest_even (Z.pos m * 1000) b) in *.
        apply IZR_le in N. rewrite mult_IZR, abs_IZR, minus_IZR, !mult_IZR in N.
        assert (Bp : (0 < IZR b)%R) by (apply (IZR_lt 0); exact B).
        replace (IZR q / 1000 - IZR (Z.pos m) * / IZR b)%R with (- ((IZR (Z.pos m) * 1000 - IZR q * IZR b) * / (1000 * IZR b)))%R by (field; lra).
        rewrite Rabs_Ropp, Rabs_mult, (Rabs_pos_eq (/ (1000 * IZR b))) by (apply Rlt_le, Rinv_0_lt_compat; lra).
        apply Rmult_le_reg_r with (1000 * IZR b)%R; [lra|]. rewrite Rmult_assoc, Rinv_l by lra. lra. }
    exists n. split; [|split; [reflexivity|exact X]].
    assert (P : (0 <= B2R (B754_finite false m e BB))%R).
    { cbn [B2R cond_Zopp]. apply F2R_ge_0. discriminate. }
    apply Rabs_le_inv in X. split.
    + apply Z.lt_succ_r, lt_IZR. rewrite succ_IZR. lra.
    + apply Z.lt_succ_r, lt_IZR. rewrite succ_IZR. lra.
Qed.

(** * The characters of printed numbers *)

Lemma digit_ok d : 0 <= d < 10 -> decimal_digit (digit_char d) /\ number [digit_char d] = d.
Proof.
  intros D. pose proof (digit_char_code d D) as C. unfold decimal_digit, number. cbn [fold_left]. rewrite C. lia.
Qed.

Lemma thousand_chars n : 0 <= n <= 1000 -> exists a b, chars (thousand n) = a :: "."%char :: b /\
  decimal_digit a /\ Forall decimal_digit b /\ number [a] = n / 1000 /\ number b = n mod 1000 /\ length b = 3%nat.
Proof.
  intros B. set (r := n mod 1000). assert (R : 0 <= r < 1000) by (apply Z.mod_pos_bound; lia).
  exists (digit_char (n / 1000)), [digit_char (r / 10 / 10 mod 10); digit_char (r / 10 mod 10); digit_char (r mod 10)].
  assert (Q : 0 <= n / 1000 < 10) by (Z.to_euclidean_division_equations; lia).
  split; [|split; [apply digit_ok; exact Q|]].
  - unfold thousand. fold r. rewrite chars_app.
    assert (E : n / 1000 = 0 \/ n / 1000 = 1) by (Z.to_euclidean_division_equations; lia).
    destruct E as [-> | ->]; reflexivity.
  - split; [repeat (constructor; [apply digit_ok, Z.mod_pos_bound; lia|]); constructor|].
    split; [apply digit_ok; exact Q|]. split; [|reflexivity].
    unfold number. cbn [fold_left]. rewrite !digit_char_code by (apply Z.mod_pos_bound; lia).
    Z.to_euclidean_division_equations; lia.
Qed.

Lemma hundredths_chars n : 0 <= n <= 100 -> exists a b, chars (hundredths n) = a :: "."%char :: b /\
  decimal_digit a /\ Forall decimal_digit b /\ number [a] = n / 100 /\ number b = n mod 100 /\ length b = 2%nat.
Proof.
  intros B.
  assert (D : forall d, 0 <= d < 10 -> ascii_of_nat (Z.to_nat (48 + d)) = digit_char d).
  { intros d H. unfold digit_char. replace (d <? 10) with true by (symmetry; apply Z.ltb_lt; lia). reflexivity. }
  assert (Q : 0 <= n / 100 < 10) by (Z.to_euclidean_division_equations; lia).
  exists (digit_char (n / 100)), [digit_char (n / 10 mod 10); digit_char (n mod 10)].
  split; [unfold hundredths; rewrite !D by (apply Z.mod_pos_bound || exact Q; lia); reflexivity|].
  split; [apply digit_ok; exact Q|].
  split; [repeat (constructor; [apply digit_ok, Z.mod_pos_bound; lia|]); constructor|].
  split; [apply digit_ok; exact Q|]. split; [|reflexivity].
  unfold number. cbn [fold_left]. rewrite !digit_char_code by (apply Z.mod_pos_bound; lia).
  Z.to_euclidean_division_equations; lia.
Qed.

(** * Numerals of the grammar *)

Lemma digit_char_range c : decimal_digit c -> in_ranges [(48, 57)] (Parser.code c) = true.
Proof.
  unfold decimal_digit. intros D. unfold in_ranges. cbn [existsb fst snd]. rewrite code_nat by lia.
  rewrite orb_false_r, andb_true_iff, !Z.leb_le. lia.
Qed.

Lemma digits_star b : Forall decimal_digit b -> matches (Star digits) b.
Proof.
  induction 1 as [|c b D _ IH]; [constructor|]. apply (Grammar.M_more _ [c]); [|exact IH]. apply M_range, digit_char_range, D.
Qed.

Lemma number_cons c b : number (c :: b) = (Z.of_nat (nat_of_ascii c) - 48) * 10 ^ Z.of_nat (length b) + number b.
Proof.
  unfold number. cbn [fold_left]. replace (10 * 0 + (Z.of_nat (nat_of_ascii c) - 48)) with (Z.of_nat (nat_of_ascii c) - 48) by lia.
  generalize (Z.of_nat (nat_of_ascii c) - 48). intros z. revert z.
  induction b as [|d b IH] using rev_ind; intros z; [cbn; lia|].
  rewrite !fold_left_app, app_length. cbn [fold_left length]. rewrite IH.
  replace (Z.of_nat (length b + 1)) with (Z.of_nat (length b) + 1) by lia. rewrite Z.pow_add_r by lia. lia.
Qed.

Lemma zero_digits b : Forall decimal_digit b -> number b = 0 -> matches (Star (chr 48)) b.
Proof.
  induction 1 as [|c b D F IH]; intros N; [constructor|]. rewrite number_cons in N. pose proof (number_bounds b F) as P.
  assert (0 < 10 ^ Z.of_nat (length b)) by (apply Z.pow_pos_nonneg; lia). unfold decimal_digit in D.
  assert (E : Z.of_nat (nat_of_ascii c) = 48) by nia.
  apply (Grammar.M_more _ [c]); [|apply IH; nia]. apply M_range.
  unfold in_ranges. cbn [existsb fst snd]. rewrite code_nat by lia. rewrite E. reflexivity.
Qed.

Lemma nonzero_digits b : Forall decimal_digit b -> number b <> 0 ->
  matches (Cat (Star (chr 48)) (Cat (plus (Range [(49, 57)])) (Star digits))) b.
Proof.
  induction 1 as [|c b D F IH]; intros N; [exfalso; apply N; reflexivity|].
  destruct (Z.eq_dec (Z.of_nat (nat_of_ascii c)) 48) as [E|E].
  - rewrite number_cons, E in N. specialize (IH ltac:(lia)). inversion IH as [| | |? ? u v U V| | | |]; subst.
    apply (M_cat _ _ (c :: u)); [|exact V]. apply (Grammar.M_more _ [c]); [|exact U]. apply M_range.
    unfold in_ranges. cbn [existsb fst snd]. rewrite code_nat by lia. rewrite E. reflexivity.
  - apply (M_cat _ _ []); [constructor|]. apply (M_cat _ _ [c]); [|apply digits_star; exact F].
    apply (M_cat _ _ [c]); [|constructor]. apply M_range. unfold decimal_digit in D.
    unfold in_ranges. cbn [existsb fst snd]. rewrite code_nat by lia. rewrite orb_false_r, andb_true_iff, !Z.leb_le. lia.
Qed.

Lemma first_digit a z : decimal_digit a -> number [a] = z -> a = digit_char z.
Proof.
  unfold decimal_digit, number. cbn [fold_left]. intros D E. assert (Z : Z.of_nat (nat_of_ascii a) = 48 + z) by lia. clear E.
  unfold digit_char. replace (z <? 10) with true by (symmetry; apply Z.ltb_lt; lia). rewrite <- Z, Nat2Z.id, ascii_nat_embedding. reflexivity.
Qed.

Section Places.
Variables (s : string) (a : ascii) (b : list ascii) (n d : Z).
Hypothesis Chars : chars s = a :: "."%char :: b.
Hypothesis Da : decimal_digit a.
Hypothesis Db : Forall decimal_digit b.
Hypothesis Na : number [a] = n / d.
Hypothesis Nb : number b = n mod d.
Hypothesis Len : IZR d = (10 ^ length b)%R.
Hypothesis Pos : 1 < d <= 1000.
Hypothesis Bound : 0 <= n <= d.

Lemma places_some : b <> [].
Proof. intros E. pose proof Len as L. rewrite E in L. apply (eq_IZR d 1) in L. lia. Qed.

Lemma places_reads : reads (chars s) (IZR n / IZR d).
Proof.
  replace (IZR n / IZR d)%R with (IZR (number [a]) + IZR (number b) / 10 ^ length b)%R.
  - rewrite Chars. apply (reads_point [a]); [discriminate|constructor; [exact Da|constructor]|exact Db].
  - rewrite Na, Nb, <- Len. rewrite (Z.div_mod n d) at 3 by lia. rewrite plus_IZR, mult_IZR. field. apply IZR_neq. lia.
Qed.

Lemma places_bound : (IZR n / IZR d = 0 \/ bpow radix2 (-1022) <= IZR n / IZR d < bpow radix2 1023)%R.
Proof.
  assert (Dp : (1 < IZR d <= 1000)%R) by (split; [apply (IZR_lt 1)|apply (IZR_le d 1000)]; lia).
  destruct (Z.eq_dec n 0) as [-> |N]; [left; unfold Rdiv; apply Rmult_0_l|right].
  assert (Np : (1 <= IZR n <= IZR d)%R) by (split; apply IZR_le; lia).
  assert (X : (bpow radix2 (-1022) <= / 1024)%R).
  { change (/ 1024)%R with (bpow radix2 (-10)). apply bpow_le. lia. }
  assert (Y : (1 < bpow radix2 1023)%R).
  { change 1%R with (bpow radix2 0). apply bpow_lt. lia. }
  assert (L : (/ 1000 <= / IZR d)%R) by (apply Rinv_le; lra).
  assert (M : (/ IZR d <= IZR n / IZR d)%R).
  { unfold Rdiv. rewrite <- (Rmult_1_l (/ IZR d)) at 1. apply Rmult_le_compat_r; lra. }
  assert (U : (IZR n / IZR d <= 1)%R).
  { apply Rmult_le_reg_r with (IZR d); [lra|]. unfold Rdiv. rewrite Rmult_assoc, Rinv_l by lra. lra. }
  lra.
Qed.

Lemma places_unit : held_numeral unit_number s.
Proof.
  split; [|exists (IZR n / IZR d)%R; split; [apply places_reads|apply places_bound]].
  rewrite Chars. pose proof places_some as S. pose proof (first_digit a _ Da Na) as A.
  destruct (Z.eq_dec n d) as [E|E].
  - assert (Q : n / d = 1) by (subst; apply Z.div_same; lia). rewrite Q in A. subst a. apply M_right, M_left.
    apply (M_cat _ _ ["1"%char]); [apply M_range; reflexivity|]. apply (M_cat _ _ ["."%char]); [apply M_range; reflexivity|].
    apply zero_digits; [exact Db|]. rewrite Nb, E. apply Z.mod_same. lia.
  - assert (Q : n / d = 0) by (apply Z.div_small; lia). rewrite Q in A. subst a. apply M_left.
    apply (M_cat _ _ ["0"%char]); [apply M_right, M_range; reflexivity|]. apply (M_cat _ _ ["."%char]); [apply M_range; reflexivity|].
    destruct b as [|c b']; [contradiction|]. inversion Db; subst. apply (M_cat _ _ [c]); [apply M_range, digit_char_range; assumption|].
    apply digits_star. assumption.
Qed.

Lemma places_open : 0 < n < d -> held_numeral open_number s.
Proof.
  intros I. split; [|exists (IZR n / IZR d)%R; split; [apply places_reads|apply places_bound]].
  rewrite Chars. pose proof (first_digit a _ Da Na) as A.
  assert (Q : n / d = 0) by (apply Z.div_small; lia). rewrite Q in A. subst a.
  apply (M_cat _ _ ["0"%char]); [apply M_right, M_range; reflexivity|]. apply (M_cat _ _ ["."%char]); [apply M_range; reflexivity|].
  apply nonzero_digits; [exact Db|]. rewrite Nb, Z.mod_small; lia.
Qed.
End Places.

Lemma thousand_numeral n : 0 <= n <= 1000 -> held_numeral unit_number (thousand n) /\
  (0 < n < 1000 -> held_numeral open_number (thousand n)) /\ reads (chars (thousand n)) (IZR n / 1000).
Proof.
  intros B. destruct (thousand_chars n B) as (a & b & C & Da & Db & Na & Nb & L).
  assert (Le : IZR 1000 = (10 ^ length b)%R) by (rewrite L; cbn; lra).
  split; [eapply (places_unit _ a b n 1000); eauto; lia|]. split; [intros I; eapply (places_open _ a b n 1000); eauto; lia|].
  eapply (places_reads _ a b n 1000); eauto; lia.
Qed.

Lemma hundredths_numeral n : 0 <= n <= 100 -> held_numeral unit_number (hundredths n) /\
  (0 < n < 100 -> held_numeral open_number (hundredths n)) /\ reads (chars (hundredths n)) (IZR n / 100).
Proof.
  intros B. destruct (hundredths_chars n B) as (a & b & C & Da & Db & Na & Nb & L).
  assert (Le : IZR 100 = (10 ^ length b)%R) by (rewrite L; cbn; lra).
  split; [eapply (places_unit _ a b n 100); eauto; lia|]. split; [intros I; eapply (places_open _ a b n 100); eauto; lia|].
  eapply (places_reads _ a b n 100); eauto; lia.
Qed.

(** * Reading them *)

Local Open Scope R_scope.

Lemma keeps_near s x v : keeps s x -> reads (chars s) v -> 0 <= v <= 1 ->
  is_finite x = true /\ 0 <= B2R x <= 1 /\ Rabs (B2R x - v) <= 1 / 10000000.
Proof.
  intros K Rv B. destruct (keeps_unit s x v K Rv B) as (F & U). split; [exact F|]. split; [exact U|].
  destruct K as (w & y & R & Fy & _ & E & ->). rewrite (reads_unique _ _ _ R Rv) in E.
  change (round radix2 (FLT_exp (-1074) 53) ZnearestE v) with (rnd64 v) in E.
  assert (Y : 0 <= B2R y <= 1).
  { rewrite E. split; [apply lb64; [lra|apply fmt_0]|].
    apply ub64; [lra|]. apply fmt_32_64, fmt32_1. }
  destruct (to32_at y (B2R y) 0 ltac:(lia) (conj Fy eq_refl)) as [FX EX].
  { change (bpow radix2 0) with 1. rewrite Rabs_pos_eq by lra. lra. }
  rewrite EX.
  assert (Q1 : Rabs (rnd32 (B2R y) - B2R y) <= / 16777216).
  { pose proof (err32 (B2R y) 0 ltac:(lia) ltac:(rewrite Rabs_pos_eq by lra; cbn; lra)) as Q.
    change (SpecFloat.fexp 24 128 (0 + 1)) with (-23)%Z in Q. change (bpow radix2 (-23)) with (/ 8388608) in Q. lra. }
  assert (Q2 : Rabs (rnd64 v - v) <= / 4503599627370496).
  { unfold rnd. pose proof (fexp_correct 53 1024 prec64) as V. eapply Rle_trans; [apply error_le_half_ulp; exact V|].
    assert (Q : ulp radix2 (SpecFloat.fexp 53 1024) v <= ulp radix2 (SpecFloat.fexp 53 1024) (bpow radix2 0)).
    { apply ulp_le; [exact V|apply fexp_monotone|]. rewrite (Rabs_pos_eq (bpow radix2 0)) by apply bpow_ge_0. cbn. rewrite Rabs_pos_eq; lra. }
    rewrite ulp_bpow in Q. change (SpecFloat.fexp 53 1024 (0 + 1)) with (-52)%Z in Q. change (bpow radix2 (-52)) with (/ 4503599627370496) in Q.
    lra. }
  rewrite E in Q1 |- *. replace (rnd32 (rnd64 v) - v) with ((rnd32 (rnd64 v) - rnd64 v) + (rnd64 v - v)) by ring.
  eapply Rle_trans; [apply Rabs_triang|]. lra.
Qed.

(** * Two places *)

Lemma hundredths_unsigned h : (0 <= h <= 100)%Z -> hundredths h <> "-0.00".
Proof.
  intros B E. destruct (hundredths_chars h B) as (a & b & C & D & _). rewrite E in C. injection C as <- _.
  unfold decimal_digit in D. cbn in D. lia.
Qed.

Lemma rounded_unsigned (x : float32) : Bsign x = false -> fixed 2 (rounded x) <> "-0.00".
Proof.
  assert (T : forall n, (0 <= n <= 1000)%Z -> fixed 2 (thousandths n) <> "-0.00").
  { intros n N. destruct (thousandths_text n N) as (h & -> & H & _). apply hundredths_unsigned, H. }
  intros S. destruct x as [s|s| |s m e BB]; cbn [Bsign] in S; subst.
  - intros E. vm_compute in E. discriminate E.
  - rewrite (rounded_high _ (clamp_infinity false)). apply T. lia.
  - rewrite (rounded_low _ clamp_nan). apply T. lia.
  - set (x := B754_finite false m e BB). pose proof (rounded_low x) as CL. pose proof (rounded_high x) as CH.
    pose proof (above_zero x eq_refl) as L0. pose proof (below_one x eq_refl) as L1. unfold clamp in CL, CH. rewrite L0, L1 in CL, CH.
    destruct (Rle_bool_spec 0 (B2R x)) as [P0|P0]; [|rewrite (CL eq_refl); apply T; lia].
    destruct (Rle_bool_spec (B2R x) 1) as [P1|P1]; [|rewrite (CH eq_refl); apply T; lia].
    assert (CX : clamp x = x) by (unfold clamp; rewrite L0, L1; reflexivity).
    destruct (rounded_unit x (B2R x) (conj eq_refl eq_refl) (conj P0 P1) eq_refl) as (n & N & _ & E).
    unfold rounded. rewrite CX, E. apply T, N.
Qed.

Lemma to32_sign (x : float64) : is_finite x = true -> Bsign x = false -> B2R x <= 1 -> Bsign (to32 x) = false.
Proof.
  intros F S U. destruct x as [s|s| |s m e BB]; try discriminate F; cbn [Bsign] in S; subst s; [reflexivity|].
  pose proof (binary_normalize_correct 24 128 prec32 emax32 mode_NE (Zpos m) e false) as C. cbv zeta in C.
  change (round radix2 (SpecFloat.fexp 24 128) (round_mode mode_NE)) with rnd32 in C.
  cbn [B2R cond_Zopp] in U.
  assert (P : 0 < F2R (Float radix2 (Zpos m) e)) by (apply F2R_gt_0; reflexivity).
  rewrite (no_overflow 24 128 _ 0) in C; [|vm_compute; split; discriminate || reflexivity|rewrite Rabs_pos_eq by lra; cbn; lra].
  destruct C as (_ & _ & C). cbn [to32 cond_Zopp]. rewrite C. rewrite Rcompare_Gt by exact P. reflexivity.
Qed.

Lemma shows_near {prec emax} (x : binary_float prec emax) s : shows x s -> unit_value x -> s <> "-0.00" ->
  exists h, (0 <= h <= 100)%Z /\ s = hundredths h /\ Rabs (IZR h / 100 - B2R x) <= 55002 / 10000000.
Proof.
  intros (h & (H & T) & V) (F & S & U) N. exists h. split; [exact H|]. split; [destruct T as [T|(_ & T)]; [exact T|contradiction]|].
  assert (P : 0 <= B2R x).
  { destruct x as [s0|s0| |s0 m e BB]; try discriminate F; cbn [Bsign] in S; subst s0; cbn [B2R]; [lra|]. apply F2R_ge_0. discriminate. }
  assert (NT : near_two (B2R x) h) by (destruct x; try discriminate F; apply V; lra).
  destruct NT as (n & _ & D & A). apply Z.abs_le in A. destruct A as (A1 & A2). apply IZR_le in A1, A2. rewrite minus_IZR, mult_IZR in A1, A2.
  apply Rabs_le_inv in D. apply Rabs_le. change (IZR (- (5))) with (-5) in A1. lra.
Qed.

(** * Numbers read from a text print as the same text *)

Lemma unit_positive {prec emax} (x : binary_float prec emax) : is_finite x = true -> 0 < B2R x <= 1 -> unit_value x.
Proof.
  intros F B. split; [exact F|]. split; [|lra]. destruct x as [s0|s0| |s0 m e BB]; try discriminate F; cbn [B2R] in B; [lra|].
  destruct s0; [|reflexivity]. exfalso. cbn [cond_Zopp] in B. assert (F2R (Float radix2 (Z.neg m) e) < 0) by (apply F2R_lt_0; reflexivity).
  cbn [Z.opp] in B. lra.
Qed.

Lemma keeps_unsigned s x v : keeps s x -> reads (chars s) v -> 0 <= v <= 1 -> unit_value x.
Proof.
  intros K Rv B. destruct (keeps_near s x v K Rv B) as (F & U & _). split; [exact F|]. split; [|lra].
  destruct K as (w & y & R & Fy & Sy & E & ->). rewrite (reads_unique _ _ _ R Rv) in E.
  apply to32_sign; [exact Fy|exact Sy|]. rewrite E. change (round radix2 (FLT_exp (-1074) 53) ZnearestE v) with (rnd64 v).
  apply ub64; [lra|]. apply fmt_32_64, fmt32_1.
Qed.

Lemma to64_unit (x : float32) : unit_value x -> unit_value (to64 x).
Proof.
  intros (F & S & U). destruct (to64_at x (B2R x) (conj F eq_refl)) as (F' & E).
  destruct x as [s|s| |s m e BB]; try discriminate F; cbn [Bsign] in S; subst s; [repeat split; exact U|].
  apply unit_positive; [exact F'|]. rewrite E. split; [|exact U]. cbn [B2R cond_Zopp]. apply F2R_gt_0. reflexivity.
Qed.

Lemma settles_three (y : float32) n : (0 <= n <= 1000)%Z -> unit_value y -> Rabs (B2R y - IZR n / 1000) <= 1 / 10000000 ->
  fixed 3 y = thousand n.
Proof.
  intros B U D. destruct (fixed_unit y U) as (m & Bm & -> & Dm). f_equal. apply Rabs_le_inv in D, Dm.
  assert (A : -1 < IZR m - IZR n < 1) by lra. rewrite <- minus_IZR in A. destruct A as (A1 & A2).
  apply (lt_IZR (-1)) in A1. apply (lt_IZR _ 1) in A2. lia.
Qed.

Lemma settles_two {prec emax} (y : binary_float prec emax) s h : (0 <= h <= 100)%Z -> shows y s -> unit_value y -> s <> "-0.00" ->
  Rabs (B2R y - IZR h / 100) <= 1 / 10000000 -> s = hundredths h.
Proof.
  intros B (h' & (H & T) & V) (F & S & U) N D.
  assert (E : s = hundredths h') by (destruct T as [T|(_ & T)]; [exact T|contradiction]). rewrite E. f_equal.
  assert (P : 0 <= B2R y).
  { destruct y as [s0|s0| |s0 m e BB]; try discriminate F; cbn [Bsign] in S; subst s0; cbn [B2R]; [lra|]. apply F2R_ge_0. discriminate. }
  assert (NT : near_two (B2R y) h') by (destruct y; try discriminate F; apply V; lra).
  destruct NT as (n & _ & Dn & A). apply Rabs_le_inv in D, Dn.
  assert (Q : -1 < IZR n - 10 * IZR h < 1) by lra. rewrite <- mult_IZR, <- minus_IZR in Q. destruct Q as (Q1 & Q2).
  apply (lt_IZR (-1)) in Q1. apply (lt_IZR _ 1) in Q2. lia.
Qed.
