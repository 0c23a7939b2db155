(* Correctness of the reading of numbers. *)
From Coq Require Import ZArith String Ascii List Bool Reals Lra Lia.
From Flocq Require Import Core BinarySingleNaN Round_odd.
From Verif Require Import Base Float FloatFacts Numeral NumeralSpec.
Import ListNotations.
Local Open Scope Z_scope.
Open Scope list_scope.

(* ---- the nearest double ---- *)

Lemma odd_quotient a d : 0 <= a -> 0 < d ->
  Zrnd_odd (IZR (2 * a) / IZR d) = 2 * (a / d) + (if a mod d =? 0 then 0 else 1).
Proof.
  intros A D. pose proof (Z.div_mod a d ltac:(lia)) as E. pose proof (Z.mod_pos_bound a d D) as B.
  set (q := a / d) in *. set (r := a mod d) in *. clearbody q r.
  assert (D' : (IZR d <> 0)%R) by (apply not_0_IZR; lia).
  unfold Zrnd_odd. rewrite Zfloor_div by lia.
  assert (F : (2 * a) / d = 2 * q + (2 * r) / d).
  { rewrite E. replace (2 * (d * q + r)) with (2 * r + (2 * q) * d) by ring. rewrite Z.div_add by lia. ring. }
  rewrite F.
  destruct (Z.eqb_spec r 0) as [R0|R0].
  - rewrite R0. change (2 * 0) with 0. rewrite Z.div_0_l by lia.
    destruct (Req_EM_T _ _) as [_|N]; [lia|]. exfalso. apply N.
    rewrite E, R0. rewrite !Z.add_0_r, !mult_IZR. field. exact D'.
  - destruct (Z.lt_trichotomy (2 * r) d) as [L|[L|L]].
    + rewrite (Z.div_small (2 * r) d) by lia. rewrite Z.add_0_r.
      destruct (Req_EM_T _ _) as [Q|N].
      * exfalso. apply (f_equal (fun x => x * IZR d)%R) in Q. unfold Rdiv in Q.
        rewrite Rmult_assoc, Rinv_l, Rmult_1_r in Q by exact D'. rewrite <- mult_IZR in Q. apply eq_IZR in Q. lia.
      * replace (Z.even (2 * q)) with true by (symmetry; apply Z.even_spec; exists q; reflexivity).
        rewrite Zceil_floor_neq.
        -- rewrite Zfloor_div by lia. rewrite F. rewrite (Z.div_small (2 * r) d) by lia. lia.
        -- rewrite Zfloor_div by lia. rewrite F. rewrite (Z.div_small (2 * r) d) by lia.
           rewrite Z.add_0_r. intros Q. apply N. symmetry. exact Q.
    + rewrite L, Z.div_same by lia. destruct (Req_EM_T _ _) as [_|N]; [reflexivity|]. exfalso. apply N.
      replace (2 * a) with ((2 * q + 1) * d) by lia. rewrite mult_IZR. field. exact D'.
    + replace ((2 * r) / d) with 1 by (apply Z.div_unique with (2 * r - d); lia).
      destruct (Req_EM_T _ _) as [_|N]; [reflexivity|].
      replace (Z.even (2 * q + 1)) with false; [reflexivity|].
      symmetry. rewrite <- Z.negb_odd. apply negb_false_iff. apply Z.odd_spec. exists q. reflexivity.
Qed.

Lemma odd_value n k : 0 <= n -> 0 <= k ->
  F2R (Float radix2 (2 * (n * 2 ^ 1100 / 10 ^ k) + (if (n * 2 ^ 1100) mod 10 ^ k =? 0 then 0 else 1)) (-1101)) =
  round radix2 (FIX_exp (-1101)) Zrnd_odd (IZR n / IZR (10 ^ k)).
Proof.
  intros N K. pose proof (Z.pow_pos_nonneg 10 k ltac:(lia) K) as D. set (d := 10 ^ k) in *. clearbody d.
  rewrite <- odd_quotient; [|apply Z.mul_nonneg_nonneg; [lia|apply Z.pow_nonneg; lia]|lia].
  unfold round. f_equal. f_equal. f_equal. unfold scaled_mantissa, cexp, FIX_exp.
  change (- -1101) with (1 + 1100). rewrite bpow_plus. change (bpow radix2 1) with 2%R.
  assert (P : bpow radix2 1100 = IZR (2 ^ 1100)) by (symmetry; apply (IZR_Zpower radix2); lia).
  rewrite P. set (z := 2 ^ 1100). clearbody z. clear P.
  rewrite !mult_IZR. field. apply not_0_IZR. lia.
Qed.

Lemma valid_fixed : Valid_exp (FIX_exp (-1101)).
Proof. apply FIX_exp_valid. Qed.

Lemma even_fixed : Exists_NE radix2 (FIX_exp (-1101)).
Proof. apply exists_NE_FIX. Qed.

Lemma even_64 : Exists_NE radix2 (SpecFloat.fexp 53 1024).
Proof. change (SpecFloat.fexp 53 1024) with (FLT_exp (-1074) 53). apply exists_NE_FLT. right. reflexivity. Qed.

Lemma odd_round x : rnd64 (round radix2 (FIX_exp (-1101)) Zrnd_odd x) = rnd64 x.
Proof.
  apply round_N_odd.
  - reflexivity.
  - apply fexp_valid. exact prec64.
  - exact even_64.
  - exact valid_fixed.
  - exact even_fixed.
  - intros e. change (SpecFloat.fexp 53 1024 e) with (FLT_exp (-1074) 53 e). unfold FIX_exp, FLT_exp. lia.
Qed.

Definition signed (neg : bool) (x : R) : R := if neg then (- x)%R else x.

Lemma finite64 x : is_finite64 x = is_finite x.
Proof. destruct x; reflexivity. Qed.

Lemma nearest_value neg n k : 0 <= n -> 0 <= k ->
  (Rlt (Rabs (rnd64 (IZR n / IZR (10 ^ k)))) (bpow radix2 1024) ->
     is_finite (nearest neg n k) = true) /\
  (is_finite (nearest neg n k) = true ->
     B2R (nearest neg n k) = rnd64 (signed neg (IZR n / IZR (10 ^ k)))).
Proof.
  intros N K. unfold nearest. cbv zeta.
  pose proof (odd_value n k N K) as V.
  set (m := 2 * (n * 2 ^ 1100 / 10 ^ k) + (if (n * 2 ^ 1100) mod 10 ^ k =? 0 then 0 else 1)) in *.
  clearbody m. set (x := (IZR n / IZR (10 ^ k))%R) in *. clearbody x.
  assert (E : rnd64 (F2R (Float radix2 (if neg then - m else m) (-1101))) = rnd64 (signed neg x)).
  { destruct neg; cbn [signed].
    - rewrite F2R_Zopp. unfold rnd. rewrite !round_NE_opp. f_equal. fold (rnd64 (F2R (Float radix2 m (-1101)))).
      rewrite V. apply odd_round.
    - rewrite V. apply odd_round. }
  assert (A : Rabs (rnd64 (signed neg x)) = Rabs (rnd64 x)).
  { destruct neg; cbn [signed]; [|reflexivity]. unfold rnd. rewrite round_NE_opp. apply Rabs_Ropp. }
  pose proof (binary_normalize_correct 53 1024 prec64 emax64 mode_NE (if neg then - m else m) (-1101) neg) as C.
  cbv zeta in C. change (round radix2 (SpecFloat.fexp 53 1024) (round_mode mode_NE)) with rnd64 in C.
  rewrite E in C. set (z := binary_normalize _ _ _ _ _ _ _ _) in *. clearbody z. rewrite A in C.
  destruct (Rlt_bool_spec (Rabs (rnd64 x)) (bpow radix2 1024)) as [L|L].
  - destruct C as (C1 & C2 & _). split; intros _; assumption.
  - split; [intros L'; exfalso; apply (Rlt_irrefl _ (Rlt_le_trans _ _ _ L' L))|].
    intros F. exfalso. destruct z as [s|s| |s p e B]; try discriminate F; cbn in C;
      unfold binary_overflow in C; cbn in C; discriminate C.
Qed.

(* ---- the digits ---- *)

Lemma digit_value c : decimal_digit c -> digit c = Some (Z.of_nat (nat_of_ascii c) - 48).
Proof.
  unfold decimal_digit, digit. intros [A B]. apply Z.leb_le in A, B. rewrite A, B. reflexivity.
Qed.

Lemma digits_append a : Forall decimal_digit a -> forall rest n k,
  digits (string_of_list_ascii (a ++ rest)) n k =
  digits (string_of_list_ascii rest) (fold_left (fun n c => 10 * n + (Z.of_nat (nat_of_ascii c) - 48)) a n)
         (k + Z.of_nat (length a)).
Proof.
  induction 1 as [|c a D _ IH]; intros rest n k; cbn [app fold_left length].
  - rewrite Z.add_0_r. reflexivity.
  - cbn [string_of_list_ascii digits]. rewrite (digit_value _ D), IH. f_equal. lia.
Qed.

Lemma fold_shift b : forall n, fold_left (fun n c => 10 * n + (Z.of_nat (nat_of_ascii c) - 48)) b n =
  n * 10 ^ Z.of_nat (length b) + number b.
Proof.
  unfold number.
  induction b as [|c b IH]; intros n; cbn [fold_left length]; [lia|].
  rewrite IH, (IH (10 * 0 + _)). rewrite Nat2Z.inj_succ, Z.pow_succ_r by lia. ring.
Qed.

Lemma number_nonneg l : Forall decimal_digit l -> 0 <= number l.
Proof.
  unfold number. assert (G : forall n, 0 <= n -> Forall decimal_digit l ->
    0 <= fold_left (fun n c => 10 * n + (Z.of_nat (nat_of_ascii c) - 48)) l n).
  { induction l as [|c l IH]; intros n N F; cbn [fold_left]; [exact N|].
    inversion F as [|? ? D F']; subst. apply IH; [|exact F']. unfold decimal_digit in D. lia. }
  apply G. lia.
Qed.

Lemma digit_not c x : decimal_digit c -> (nat_of_ascii x < 48)%nat -> Ascii.eqb c x = false.
Proof.
  intros D X. apply Ascii.eqb_neq. intros ->. unfold decimal_digit in D. lia.
Qed.

Lemma no_sign a rest : Forall decimal_digit a -> a <> [] ->
  sign (string_of_list_ascii (a ++ rest)) = (false, string_of_list_ascii (a ++ rest)).
Proof.
  intros D N. destruct a as [|c a]; [contradiction|]. inversion D as [|? ? C _]; subst.
  cbn [app string_of_list_ascii sign].
  rewrite (digit_not c "-") by (exact C || (vm_compute; lia)).
  rewrite (digit_not c "+") by (exact C || (vm_compute; lia)). reflexivity.
Qed.

Lemma decimal_value l v : reads l v ->
  exists n k count, decimal (string_of_list_ascii l) = (false, n, k, count) /\ 0 <= n /\ 0 <= k /\ 0 < count /\
    (v = IZR n / IZR (10 ^ k))%R.
Proof.
  intros H. destruct H as [a N D|a b N D E].
  - exists (number a), 0, (Z.of_nat (length a)).
    assert (L : 0 < Z.of_nat (length a)) by (destruct a; [contradiction|cbn [length]; lia]).
    split; [|split; [exact (number_nonneg _ D)|split; [lia|split; [exact L|]]]].
    + unfold decimal. rewrite <- (app_nil_r a). rewrite no_sign by assumption.
      rewrite digits_append by exact D. cbn [string_of_list_ascii digits after_point].
      rewrite app_nil_r. reflexivity.
    + change (10 ^ 0) with 1. field.
  - exists (number (a ++ b)), (Z.of_nat (length b)), (Z.of_nat (length (a ++ b))).
    assert (L : 0 < Z.of_nat (length (a ++ b))) by (destruct (a ++ b); [contradiction|cbn [length]; lia]).
    split; [|split; [apply number_nonneg, Forall_app; split; assumption|split; [lia|split; [exact L|]]]].
    + assert (M : sign (string_of_list_ascii (a ++ "."%char :: b)) = (false, string_of_list_ascii (a ++ "."%char :: b))).
      { destruct a as [|c a]; [reflexivity|]. apply no_sign; [exact D|discriminate]. }
      unfold decimal. rewrite M. rewrite digits_append by exact D. cbn [string_of_list_ascii].
      assert (P : forall n k, digits (String "." (string_of_list_ascii b)) n k = (n, k, String "." (string_of_list_ascii b)))
        by reflexivity.
      rewrite P. cbn [after_point]. change (Ascii.eqb "." ".") with true. cbv iota.
      pose proof (digits_append b E [] (fold_left (fun n c => 10 * n + (Z.of_nat (nat_of_ascii c) - 48)) a 0) 0) as G.
      rewrite app_nil_r in G. rewrite G. cbn [string_of_list_ascii digits].
      unfold number. rewrite fold_left_app, app_length, Nat2Z.inj_add. reflexivity.
    + unfold number at 3. rewrite fold_left_app. fold (number a). rewrite fold_shift.
      rewrite plus_IZR, mult_IZR. rewrite pow_IZR. rewrite <- Zpower_nat_Z. 
      assert (Z1 : IZR (Zpower_nat 10 (length b)) <> 0%R).
      { rewrite Zpower_nat_Z. apply not_0_IZR. pose proof (Z.pow_pos_nonneg 10 (Z.of_nat (length b))). lia. }
      field. exact Z1.
Qed.

(* ---- reading a numeral ---- *)

Lemma normalize_sign prec emax Hp He m e : 0 <= m ->
  let z := binary_normalize prec emax Hp He mode_NE m e false in is_nan z = false /\ Bsign z = false.
Proof.
  intros M z. pose proof (binary_normalize_correct prec emax Hp He mode_NE m e false) as C.
  cbv zeta in C. fold z in C. clearbody z.
  assert (P : (0 <= F2R (Float radix2 m e))%R) by (apply F2R_ge_0; exact M).
  destruct (Rlt_bool _ _).
  - destruct C as (_ & F & S0). split; [destruct z; try discriminate F; reflexivity|].
    rewrite S0. destruct (Rcompare_spec (F2R (Float radix2 m e)) 0); try reflexivity.
    exfalso. apply (Rlt_irrefl 0). apply Rle_lt_trans with (1 := P). assumption.
  - rewrite Rlt_bool_false in C by exact P. unfold binary_overflow in C. cbn in C.
    destruct z; try discriminate C. injection C as ->. split; reflexivity.
Qed.

(* A double that no minus sign was read for. *)
Definition positive64 (x : float64) : Prop := is_nan x = false /\ Bsign x = false.
Definition positive32 (x : float32) : Prop := is_nan x = false /\ Bsign x = false.

Lemma nearest_sign n k : 0 <= n -> 0 <= k -> positive64 (nearest false n k).
Proof.
  intros N K. unfold nearest. apply normalize_sign.
  assert (0 <= n * 2 ^ 1100) by (apply Z.mul_nonneg_nonneg; [lia|apply Z.pow_nonneg; lia]).
  pose proof (Z.pow_pos_nonneg 10 k ltac:(lia) K). set (a := n * 2 ^ 1100) in *. clearbody a. set (d := 10 ^ k) in *.
  clearbody d. assert (0 <= a / d) by (apply Z.div_pos; lia).
  destruct (a mod d =? 0); lia.
Qed.

Lemma to32_sign x : positive64 x -> positive32 (to32 x).
Proof.
  intros [N S0]. destruct x as [s|s| |s m e B]; cbn in N, S0; try discriminate N; subst.
  - split; reflexivity.
  - split; reflexivity.
  - cbn [to32 cond_Zopp]. apply normalize_sign. lia.
Qed.

Lemma to64_sign x : positive32 x -> positive64 (to64 x).
Proof.
  intros [N S0]. destruct x as [s|s| |s m e B]; cbn in N, S0; try discriminate N; subst.
  - split; reflexivity.
  - split; reflexivity.
  - cbn [to64 cond_Zopp]. apply normalize_sign. lia.
Qed.

Lemma stod_reads s v x : reads (list_ascii_of_string s) v -> stod s = Ok x ->
  is_finite x = true /\ B2R x = rnd64 v /\ positive64 x.
Proof.
  intros R H. destruct (decimal_value _ _ R) as (n & k & count & D & N & K & C & V).
  rewrite string_of_list_ascii_of_string in D. unfold stod in H. rewrite D in H.
  replace (count =? 0) with false in H by (symmetry; apply Z.eqb_neq; lia).
  destruct (underflow n k); [discriminate H|].
  destruct (is_finite64 (nearest false n k)) eqn:F; [|discriminate H]. injection H as <-.
  rewrite finite64 in F. destruct (nearest_value false n k N K) as [_ B]. specialize (B F).
  cbn [signed] in B. rewrite <- V in B. split; [exact F|]. split; [exact B|]. apply nearest_sign; assumption.
Qed.

(* Zero and every value in the normal range is read. *)
Lemma stod_succeeds s v : reads (list_ascii_of_string s) v -> (v = 0 \/ bpow radix2 (-1022) <= v < bpow radix2 1023)%R ->
  exists x, stod s = Ok x.
Proof.
  intros R B. destruct (decimal_value _ _ R) as (n & k & count & D & N & K & C & V).
  rewrite string_of_list_ascii_of_string in D. unfold stod. rewrite D.
  replace (count =? 0) with false by (symmetry; apply Z.eqb_neq; lia).
  pose proof (Z.pow_pos_nonneg 10 k ltac:(lia) K) as P.
  assert (P' : (0 < IZR (10 ^ k))%R) by (apply IZR_lt; exact P).
  assert (U : underflow n k = false).
  { unfold underflow. destruct B as [B|[B _]].
    - assert (n = 0) as ->.
      { rewrite V in B. apply eq_IZR. apply (Rmult_eq_reg_r (/ IZR (10 ^ k))); [|apply Rinv_neq_0_compat; lra].
        rewrite Rmult_0_l. exact B. }
      reflexivity.
    - assert (L : 10 ^ k * 2 ^ 54 <= n * 2 ^ 1076).
      { apply le_IZR. rewrite !mult_IZR.
        assert (E1 : IZR (2 ^ 54) = bpow radix2 54) by (apply (IZR_Zpower radix2); lia).
        assert (E2 : IZR (2 ^ 1076) = bpow radix2 1076) by (apply (IZR_Zpower radix2); lia).
        rewrite E1, E2. clear E1 E2.
        rewrite V in B. apply (Rmult_le_compat_r (IZR (10 ^ k))) in B; [|lra].
        unfold Rdiv in B. rewrite Rmult_assoc, Rinv_l, Rmult_1_r in B by lra.
        replace (bpow radix2 54) with (bpow radix2 (-1022) * bpow radix2 1076)%R
          by (rewrite <- bpow_plus; reflexivity).
        rewrite <- Rmult_assoc. apply Rmult_le_compat_r; [apply bpow_ge_0|]. rewrite Rmult_comm. exact B. }
      replace (n * 2 ^ 1076 <? (2 ^ 54 - 1) * 10 ^ k) with false; [rewrite andb_false_r; reflexivity|].
      symmetry. apply Z.ltb_ge. set (c := 2 ^ 54) in *. set (z := 2 ^ 1076) in *. clearbody c z. nia. }
  rewrite U. destruct (nearest_value false n k N K) as [F _].
  rewrite finite64. rewrite F; [eexists; reflexivity|].
  rewrite <- V. assert (A : (Rabs v <= bpow radix2 1023)%R).
  { destruct B as [->|[B1 B2]]; [rewrite Rabs_R0; apply bpow_ge_0|].
    rewrite Rabs_pos_eq; [lra|]. pose proof (bpow_ge_0 radix2 (-1022)). lra. }
  pose proof (no_overflow 53 1024 v 1023 ltac:(vm_compute; split; discriminate || reflexivity) A) as O.
  apply Rlt_bool_true_iff in O || (destruct (Rlt_bool_spec (Rabs (rnd64 v)) (bpow radix2 1024)); [assumption|discriminate O]).
Qed.
