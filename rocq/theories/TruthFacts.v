(* Truth functions in IEEE arithmetic *)
From Coq Require Import ZArith List Bool Reals Lra Lia.
From Flocq Require Import Core BinarySingleNaN Mult_error Plus_error.
From Verif Require Import Float FloatFacts Truth TruthSpec.
Import ListNotations.
Local Open Scope R_scope.

Lemma within_at {prec emax} lo hi (x : binary_float prec emax) :
  within lo hi x <-> exists v, at_ x v /\ lo <= v <= hi.
Proof.
  split.
  - intros [F H]. exists (B2R x). repeat split; auto; apply H.
  - intros (v & [F <-] & H). split; auto.
Qed.

(* Dyadic numbers in the formats *)
Lemma fmt64_dyadic m e : (Z.abs m < 2 ^ 53)%Z -> (-1074 <= e)%Z -> fmt64 (IZR m * bpow radix2 e).
Proof.
  intros H E. unfold fmt. apply generic_format_FLT.
  exists (Float radix2 m e); cbn [Fnum Fexp]; auto.
Qed.

Lemma fmt32_dyadic m e : (Z.abs m < 2 ^ 24)%Z -> (-149 <= e)%Z -> fmt32 (IZR m * bpow radix2 e).
Proof.
  intros H E. unfold fmt. apply generic_format_FLT.
  exists (Float radix2 m e); cbn [Fnum Fexp]; auto.
Qed.

Lemma fmt64_Z m : (Z.abs m < 2 ^ 53)%Z -> fmt64 (IZR m).
Proof. intros H. replace (IZR m) with (IZR m * bpow radix2 0) by (cbn; lra). apply fmt64_dyadic; lia. Qed.

Lemma fmt32_Z m : (Z.abs m < 2 ^ 24)%Z -> fmt32 (IZR m).
Proof. intros H. replace (IZR m) with (IZR m * bpow radix2 0) by (cbn; lra). apply fmt32_dyadic; lia. Qed.

Lemma fmt64_0 : fmt64 0. Proof. apply fmt_0. Qed.
Lemma fmt32_0 : fmt32 0. Proof. apply fmt_0. Qed.
Lemma fmt64_1 : fmt64 1. Proof. apply (fmt64_Z 1). reflexivity. Qed.
Lemma fmt32_1 : fmt32 1. Proof. apply (fmt32_Z 1). reflexivity. Qed.
Lemma fmt64_half : fmt64 (/ 2).
Proof. replace (/ 2) with (IZR 1 * bpow radix2 (-1)) by (cbn; lra). apply fmt64_dyadic; reflexivity || lia. Qed.
Lemma fmt32_half : fmt32 (/ 2).
Proof. replace (/ 2) with (IZR 1 * bpow radix2 (-1)) by (cbn; lra). apply fmt32_dyadic; reflexivity || lia. Qed.
#[global] Hint Resolve fmt64_0 fmt32_0 fmt64_1 fmt32_1 fmt64_half fmt32_half : fmt.

(* Literals *)
Lemma of_Z64_at n : (Z.abs n < 2 ^ 53)%Z -> at_ (of_Z64 n) (IZR n).
Proof.
  intros H.
  assert (L : Rabs (IZR n) <= bpow radix2 53).
  { rewrite <- abs_IZR, <- IZR_Zpower by lia. apply IZR_le. cbn. lia. }
  pose proof (normalize_at 53 1024 n 0 false 53
    ltac:(vm_compute; split; discriminate || reflexivity)) as A.
  unfold F2R in A. cbn [Fnum Fexp] in A. change (bpow radix2 0) with 1 in A. rewrite Rmult_1_r in A.
  specialize (A L). rewrite rnd_id in A; [exact A|]. now apply fmt64_Z.
Qed.

Lemma of_Z32_at n : (Z.abs n < 2 ^ 24)%Z -> at_ (of_Z32 n) (IZR n).
Proof.
  intros H.
  assert (L : Rabs (IZR n) <= bpow radix2 24).
  { rewrite <- abs_IZR, <- IZR_Zpower by lia. apply IZR_le. cbn. lia. }
  pose proof (normalize_at 24 128 n 0 false 24
    ltac:(vm_compute; split; discriminate || reflexivity)) as A.
  unfold F2R in A. cbn [Fnum Fexp] in A. change (bpow radix2 0) with 1 in A. rewrite Rmult_1_r in A.
  specialize (A L). rewrite rnd_id in A; [exact A|]. now apply fmt32_Z.
Qed.

Lemma Rabs_unit x e : (0 <= e)%Z -> -1 <= x <= 1 -> Rabs x <= bpow radix2 e.
Proof.
  intros E H. apply Rle_trans with 1.
  - apply Rabs_le. lra.
  - change 1 with (bpow radix2 0). now apply bpow_le.
Qed.

Ltac side := vm_compute; split; discriminate || reflexivity.

Lemma dfrac_at n d v : (Z.abs n < 2 ^ 53)%Z -> (Z.abs d < 2 ^ 53)%Z -> IZR d <> 0 ->
  v = IZR n / IZR d -> fmt64 v -> -1 <= v <= 1 -> at_ (dfrac ieee n d : float64) v.
Proof.
  intros Hn Hd N E F B. cbn [dfrac ieee]. rewrite <- (rnd_id 53 1024 v F). subst v.
  apply div_at with (e := 0%Z); [side|now apply of_Z64_at|now apply of_Z64_at|auto|].
  apply Rabs_unit; [lia|auto].
Qed.

Lemma done_at : at_ (done ieee : float64) 1.
Proof. apply dfrac_at; try reflexivity; auto with fmt; lra. Qed.
Lemma half_at : at_ (half ieee : float64) (/ 2).
Proof. apply dfrac_at; try reflexivity; auto with fmt; lra. Qed.
Lemma dzero_at : at_ (dzero ieee : float64) 0.
Proof. apply dfrac_at; try reflexivity; auto with fmt; lra. Qed.
Lemma three_quarters_at : at_ (three_quarters ieee : float64) (3 / 4).
Proof.
  apply dfrac_at; try reflexivity; try lra.
  replace (3 / 4) with (IZR 3 * bpow radix2 (-2)) by (cbn; lra). apply fmt64_dyadic; reflexivity || lia.
Qed.
Lemma one_at : at_ (one ieee : float32) 1.
Proof. apply (of_Z32_at 1). reflexivity. Qed.

(* Operations within the unit interval *)
Lemma mul64 x y a b : at_ x a -> at_ y b -> -1 <= a * b <= 1 ->
  at_ (dmul ieee x y : float64) (rnd64 (a * b)).
Proof. intros X Y H. apply mul_at with (e := 0%Z); auto; [side|]. apply Rabs_unit; [lia|auto]. Qed.

Lemma sub64 x y a b : at_ x a -> at_ y b -> -1 <= a - b <= 1 ->
  at_ (dsub ieee x y : float64) (rnd64 (a - b)).
Proof. intros X Y H. apply sub_at with (e := 0%Z); auto; [side|]. apply Rabs_unit; [lia|auto]. Qed.

Lemma add64 x y a b : at_ x a -> at_ y b -> Rabs (a + b) <= bpow radix2 200 ->
  at_ (dadd ieee x y : float64) (rnd64 (a + b)).
Proof. intros X Y H. apply add_at with (e := 200%Z); auto. side. Qed.

Lemma div64 x y a b : at_ x a -> at_ y b -> b <> 0 -> -1 <= a / b <= 1 ->
  at_ (ddiv ieee x y : float64) (rnd64 (a / b)).
Proof. intros X Y N H. apply div_at with (e := 0%Z); auto; [side|]. apply Rabs_unit; [lia|auto]. Qed.

Lemma down_unit x a : at_ x a -> -1 <= a <= 1 -> at_ (down ieee x : float32) (rnd32 a).
Proof. intros X H. apply to32_at with (e := 0%Z); auto; [lia|]. apply Rabs_unit; [lia|auto]. Qed.

Lemma up_at x a : at_ x a -> at_ (up ieee x : float64) a.
Proof. apply to64_at. Qed.

Definition unit (v : R) : Prop := 0 <= v <= 1.

Lemma unit_mul a b : unit a -> unit b -> unit (a * b) /\ a * b <= a /\ a * b <= b.
Proof. unfold unit. intros. repeat split; nra. Qed.

(* Rounded product of two numbers in the unit interval *)
Lemma mul_unit x y a b : at_ x a -> at_ y b -> unit a -> unit b ->
  at_ (dmul ieee x y : float64) (rnd64 (a * b)) /\
  unit (rnd64 (a * b)) /\ rnd64 (a * b) <= a /\ rnd64 (a * b) <= b.
Proof.
  intros X Y Ha Hb. destruct (unit_mul a b Ha Hb) as (U & L1 & L2).
  split; [apply mul64; auto; unfold unit in *; lra|].
  pose proof (at_fmt _ _ _ _ X). pose proof (at_fmt _ _ _ _ Y).
  assert (rnd64 (a * b) <= a) by now first [apply ub64|apply ub32].
  assert (rnd64 (a * b) <= b) by now first [apply ub64|apply ub32].
  assert (0 <= rnd64 (a * b)) by (first [apply lb64|apply lb32]; auto with fmt; apply U).
  unfold unit in *. repeat split; auto; lra.
Qed.

Lemma down_in x a lo hi : at_ x a -> unit a -> fmt32 lo -> fmt32 hi -> lo <= a <= hi ->
  within lo hi (down ieee x : float32).
Proof.
  intros X U Fl Fh H. apply within_at. exists (rnd32 a).
  split; [apply down_unit; auto; unfold unit in U; lra|].
  split; [now first [apply lb64|apply lb32]|now first [apply ub64|apply ub32]].
Qed.

Lemma proper_at t : proper t -> exists f c,
  at_ (fr ieee t : float32) f /\ at_ (co ieee t : float32) c /\ unit f /\ unit c.
Proof.
  intros [Hf Hc]. apply within_at in Hf. apply within_at in Hc.
  destruct Hf as (f & Ff & Uf). destruct Hc as (c & Fc & Uc).
  exists f, c. unfold unit. tauto.
Qed.

(* C45 *)
Lemma deduction_ok t1 t2 : proper t1 -> proper t2 ->
  let t := truth_deduction ieee t1 t2 in
  proper t /\
  B2R (co ieee t : float32) <= B2R (co ieee t1 : float32) /\
  B2R (co ieee t : float32) <= B2R (co ieee t2 : float32) /\
  B2R (fr ieee t : float32) <= B2R (fr ieee t1 : float32) /\
  B2R (fr ieee t : float32) <= B2R (fr ieee t2 : float32) /\
  B2R (co ieee t : float32) <= B2R (fr ieee t : float32) /\
  kk ieee t = kk ieee t1.
Proof.
  intros P1 P2 t. destruct (proper_at _ P1) as (f1 & c1 & F1 & C1 & U1 & V1).
  destruct (proper_at _ P2) as (f2 & c2 & F2 & C2 & U2 & V2).
  destruct (mul_unit _ _ _ _ (up_at _ _ F1) (up_at _ _ F2) U1 U2) as (A1 & A2 & A3 & A4).
  destruct (mul_unit _ _ _ _ A1 (up_at _ _ C1) A2 V1) as (B1 & B2 & B3 & B4).
  destruct (mul_unit _ _ _ _ B1 (up_at _ _ C2) B2 V2) as (D1 & D2 & D3 & D4).
  set (p := rnd64 (f1 * f2)) in *. set (q := rnd64 (p * c1)) in *. set (r := rnd64 (q * c2)) in *.
  assert (T1 : at_ (fr ieee t : float32) (rnd32 p)) by (apply down_unit; [exact A1|unfold unit in *; lra]).
  assert (T2 : at_ (co ieee t : float32) (rnd32 r)) by (apply down_unit; [exact D1|unfold unit in *; lra]).
  pose proof (at_fmt _ _ _ _ F1). pose proof (at_fmt _ _ _ _ F2).
  pose proof (at_fmt _ _ _ _ C1). pose proof (at_fmt _ _ _ _ C2).
  unfold unit in *.
  unfold proper, within.
  rewrite (proj1 T1), (proj1 T2), (proj2 T1), (proj2 T2), (proj2 F1), (proj2 F2), (proj2 C1), (proj2 C2).
  repeat split; auto;
    first [apply lb32; [|now auto with fmt]|apply ub32; [|now auto with fmt]|apply le32]; lra.
Qed.

(* set_w with k = 1 on weights in the unit interval *)
Lemma set_w_ok t wp w a b :
  at_ (kk ieee t : float32) 1 -> at_ (wp : float64) a -> at_ (w : float64) b ->
  unit a -> unit b -> (a <= b \/ b = 0) ->
  let t' := set_w ieee t wp w in
  within 0 1 (fr ieee t' : float32) /\ within 0 (/ 2) (co ieee t' : float32).
Proof.
  intros K A B Ua Ub H t'. unfold unit in *. split.
  - unfold t', set_w. cbn [fr].
    replace (dlt ieee (dzero ieee) w) with (Rlt_bool 0 b) by (symmetry; apply lt_at; [apply dzero_at|auto]).
    destruct (Rlt_bool_spec 0 b) as [L|L].
    + assert (a <= b) by lra.
      assert (Q : 0 <= a / b <= 1).
      { split; [apply Rmult_le_pos; [lra|]; apply Rlt_le, Rinv_0_lt_compat; lra|].
        apply Rmult_le_reg_r with b; auto. unfold Rdiv. rewrite Rmult_assoc, Rinv_l; lra. }
      assert (D : at_ (ddiv ieee wp w : float64) (rnd64 (a / b))) by (apply div64; auto; lra).
      eapply down_in; [exact D| | | |]; auto with fmt; unfold unit;
        (split; [first [apply lb64|apply lb32]|first [apply ub64|apply ub32]]; auto with fmt; lra).
    + eapply down_in; [apply half_at| | | |]; auto with fmt; unfold unit; lra.
  - unfold t', set_w. cbn [co].
    assert (S : at_ (dadd ieee w (up ieee (kk ieee t)) : float64) (rnd64 (b + 1))).
    { apply add64; auto; [now apply up_at|]. apply Rle_trans with (bpow radix2 1).
      - rewrite Rabs_pos_eq by lra. cbn. lra.
      - apply bpow_le. lia. }
    set (s := rnd64 (b + 1)) in *.
    assert (S1 : 1 <= s) by (first [apply lb64|apply lb32]; auto with fmt; lra).
    assert (S2 : 2 * b <= s).
    { first [apply lb64|apply lb32]; [lra|]. pose proof (at_fmt _ _ _ _ B) as Fb.
      unfold fmt. replace (2 * b) with (b * bpow radix2 1) by (cbn; lra).
      destruct (Req_dec b 0) as [->|N]; [rewrite Rmult_0_l; apply generic_format_0|].
      apply (mult_bpow_pos_exact_FLT radix2 (-1074) 53); [exact Fb|lia]. }
    assert (Q : 0 <= b / s <= / 2).
    { split; [apply Rmult_le_pos; [lra|]; apply Rlt_le, Rinv_0_lt_compat; lra|].
      apply Rmult_le_reg_r with s; [lra|]. unfold Rdiv. rewrite Rmult_assoc, Rinv_l; lra. }
    assert (D : at_ (ddiv ieee w (dadd ieee w (up ieee (kk ieee t))) : float64) (rnd64 (b / s)))
      by (apply div64; auto; lra).
    assert (R : 0 <= rnd64 (b / s) <= / 2)
      by (split; [first [apply lb64|apply lb32]|first [apply ub64|apply ub32]]; auto with fmt; lra).
    eapply down_in; [exact D| | | |]; auto with fmt. unfold unit. lra.
Qed.

Lemma default_k : at_ (kk ieee (truth_default ieee (down ieee (done ieee))) : float32) 1.
Proof.
  cbn [kk truth_default]. replace 1 with (rnd32 1) by (apply rnd_id; auto with fmt).
  apply down_unit; [apply done_at|lra].
Qed.

(* C46, induction *)
Lemma induction_ok t1 t2 : proper t1 -> proper t2 ->
  let t := truth_induction ieee t1 t2 in
  within 0 1 (fr ieee t : float32) /\ within 0 (/ 2) (co ieee t : float32).
Proof.
  intros P1 P2. destruct (proper_at _ P1) as (f1 & c1 & F1 & C1 & U1 & V1).
  destruct (proper_at _ P2) as (f2 & c2 & F2 & C2 & U2 & V2).
  destruct (mul_unit _ _ _ _ (up_at _ _ F1) (up_at _ _ F2) U1 U2) as (A1 & A2 & A3 & A4).
  destruct (mul_unit _ _ _ _ A1 (up_at _ _ C1) A2 V1) as (B1 & B2 & B3 & B4).
  destruct (mul_unit _ _ _ _ B1 (up_at _ _ C2) B2 V2) as (D1 & D2 & D3 & D4).
  destruct (mul_unit _ _ _ _ (up_at _ _ F2) (up_at _ _ C1) U2 V1) as (E1 & E2 & E3 & E4).
  destruct (mul_unit _ _ _ _ E1 (up_at _ _ C2) E2 V2) as (G1 & G2 & G3 & G4).
  apply (set_w_ok _ _ _ _ _ default_k D1 G1 D2 G2).
  left. unfold unit in *. first [apply le64|apply le32]. apply Rmult_le_compat_r; [lra|].
  first [apply le64|apply le32]. apply Rmult_le_compat_r; lra.
Qed.

(* Numbers of a format near 1 *)
Lemma fmt64_below_1 x : fmt64 x -> x < 1 -> x <= 1 - bpow radix2 (-53).
Proof.
  intros F L. destruct (Rlt_or_le x (/ 2)) as [H|H].
  - assert (bpow radix2 (-53) <= / 2) by (change (/ 2) with (bpow radix2 (-1)); apply bpow_le; lia). lra.
  - assert (M : mag radix2 x = 0%Z :> Z).
    { apply mag_unique. rewrite Rabs_pos_eq by lra. cbn. lra. }
    destruct (ex_shift radix2 _ x (-53) F) as (n & ->).
    { unfold cexp. rewrite M. unfold SpecFloat.fexp, SpecFloat.emin. lia. }
    assert (B : bpow radix2 53 * bpow radix2 (-53) = 1) by (rewrite <- bpow_plus; reflexivity).
    assert (P : 0 < bpow radix2 (-53)) by apply bpow_gt_0.
    assert (IZR n < bpow radix2 53) by (apply Rmult_lt_reg_r with (1 := P); lra).
    rewrite <- IZR_Zpower in H0 by lia. apply lt_IZR in H0.
    assert (IZR n <= bpow radix2 53 - 1).
    { rewrite <- IZR_Zpower by lia. rewrite <- minus_IZR. apply IZR_le. lia. }
    apply Rle_trans with ((bpow radix2 53 - 1) * bpow radix2 (-53)).
    + apply Rmult_le_compat_r; lra.
    + lra.
Qed.

Lemma fmt32_below_1 x : fmt32 x -> x < 1 -> x <= 1 - bpow radix2 (-24).
Proof.
  intros F L. destruct (Rlt_or_le x (/ 2)) as [H|H].
  - assert (bpow radix2 (-24) <= / 2) by (change (/ 2) with (bpow radix2 (-1)); apply bpow_le; lia). lra.
  - assert (M : mag radix2 x = 0%Z :> Z).
    { apply mag_unique. rewrite Rabs_pos_eq by lra. cbn. lra. }
    destruct (ex_shift radix2 _ x (-24) F) as (n & ->).
    { unfold cexp. rewrite M. unfold SpecFloat.fexp, SpecFloat.emin. lia. }
    assert (B : bpow radix2 24 * bpow radix2 (-24) = 1) by (rewrite <- bpow_plus; reflexivity).
    assert (P : 0 < bpow radix2 (-24)) by apply bpow_gt_0.
    assert (IZR n < bpow radix2 24) by (apply Rmult_lt_reg_r with (1 := P); lra).
    rewrite <- IZR_Zpower in H0 by lia. apply lt_IZR in H0.
    assert (IZR n <= bpow radix2 24 - 1).
    { rewrite <- IZR_Zpower by lia. rewrite <- minus_IZR. apply IZR_le. lia. }
    apply Rle_trans with ((bpow radix2 24 - 1) * bpow radix2 (-24)).
    + apply Rmult_le_compat_r; lra.
    + lra.
Qed.

(* 1 - f is a double for a float f that is not tiny *)
Lemma one_minus f : fmt32 f -> bpow radix2 (-29) <= f <= 1 -> fmt64 (1 - f).
Proof.
  intros F [L H].
  assert (P : 0 < bpow radix2 (-29)) by apply bpow_gt_0.
  assert (M : (-28 <= mag radix2 f)%Z).
  { apply mag_ge_bpow. rewrite Rabs_pos_eq by lra. exact L. }
  destruct (ex_shift radix2 _ f (-52) F) as (n & ->).
  { unfold cexp, SpecFloat.fexp, SpecFloat.emin. lia. }
  assert (Q : 0 < bpow radix2 (-52)) by apply bpow_gt_0.
  assert (B : bpow radix2 52 * bpow radix2 (-52) = 1) by (rewrite <- bpow_plus; reflexivity).
  replace (1 - IZR n * bpow radix2 (-52)) with (IZR (2 ^ 52 - n) * bpow radix2 (-52)).
  2: { rewrite minus_IZR. change (IZR (2 ^ 52)) with (bpow radix2 52). lra. }
  apply fmt64_dyadic; [|lia].
  assert (0 < IZR n) by (apply Rmult_lt_reg_r with (1 := Q); lra).
  assert (IZR n <= bpow radix2 52) by (apply Rmult_le_reg_r with (1 := Q); lra).
  rewrite <- IZR_Zpower in H1 by lia. apply lt_IZR in H0. apply le_IZR in H1.
  change (Zpower radix2 52) with (2 ^ 52)%Z in H1. lia.
Qed.

(* Or in double, and its relation to And *)
Lemma or_ok x y f g : at_ x f -> at_ y g -> fmt32 f -> fmt32 g -> unit f -> unit g ->
  exists o, at_ (Or2 ieee x y : float64) o /\ unit o /\ (rnd64 (f * g) <= o \/ o = 0).
Proof.
  intros X Y Ff Fg Uf Ug. unfold unit in *.
  pose proof (sub64 _ _ _ _ done_at X ltac:(lra)) as A.
  pose proof (sub64 _ _ _ _ done_at Y ltac:(lra)) as B.
  set (a := rnd64 (1 - f)) in *. set (b := rnd64 (1 - g)) in *.
  assert (Ua : unit a) by (split; [apply lb64|apply ub64]; auto with fmt; lra).
  assert (Ub : unit b) by (split; [apply lb64|apply ub64]; auto with fmt; lra).
  destruct (mul_unit _ _ _ _ A B Ua Ub) as (C1 & C2 & C3 & C4).
  set (p := rnd64 (a * b)) in *. unfold unit in *.
  pose proof (sub64 _ _ _ _ done_at C1 ltac:(lra)) as D.
  exists (rnd64 (1 - p)). split; [exact D|].
  split; [split; [apply lb64|apply ub64]; auto with fmt; lra|].
  assert (M1 : rnd64 (f * g) <= f) by (apply ub64; [nra|now apply fmt_32_64]).
  assert (M2 : rnd64 (f * g) <= g) by (apply ub64; [nra|now apply fmt_32_64]).
  destruct (Rle_or_lt (bpow radix2 (-29)) f) as [Hf|Hf].
  - left. apply Rle_trans with f; auto. apply lb64; [|now apply fmt_32_64].
    assert (a = 1 - f) by (apply rnd_id; apply one_minus; auto; lra). lra.
  - destruct (Rle_or_lt (bpow radix2 (-29)) g) as [Hg|Hg].
    + left. apply Rle_trans with g; auto. apply lb64; [|now apply fmt_32_64].
      assert (b = 1 - g) by (apply rnd_id; apply one_minus; auto; lra). lra.
    + destruct (Req_dec p 1) as [E|N].
      * right. rewrite E, Rminus_diag_eq by auto. apply rnd_id. auto with fmt.
      * left. assert (P : p <= 1 - bpow radix2 (-53)).
        { apply fmt64_below_1; [apply (rnd_fmt 53 1024)|lra]. }
        apply Rle_trans with (bpow radix2 (-53)).
        -- apply ub64; [|apply (fmt_bpow 53 1024); vm_compute; discriminate].
           apply Rle_trans with (bpow radix2 (-29) * bpow radix2 (-29)).
           ++ apply Rmult_le_compat; lra.
           ++ rewrite <- bpow_plus. apply bpow_le. lia.
        -- apply lb64; [lra|apply (fmt_bpow 53 1024); vm_compute; discriminate].
Qed.

(* C46, comparison *)
Lemma comparison_ok t1 t2 : proper t1 -> proper t2 ->
  let t := truth_comparison ieee t1 t2 in
  within 0 1 (fr ieee t : float32) /\ within 0 (/ 2) (co ieee t : float32).
Proof.
  intros P1 P2. destruct (proper_at _ P1) as (f1 & c1 & F1 & C1 & U1 & V1).
  destruct (proper_at _ P2) as (f2 & c2 & F2 & C2 & U2 & V2).
  destruct (mul_unit _ _ _ _ (up_at _ _ F1) (up_at _ _ F2) U1 U2) as (A1 & A2 & A3 & A4).
  destruct (mul_unit _ _ _ _ A1 (up_at _ _ C1) A2 V1) as (B1 & B2 & B3 & B4).
  destruct (mul_unit _ _ _ _ B1 (up_at _ _ C2) B2 V2) as (D1 & D2 & D3 & D4).
  destruct (or_ok _ _ _ _ (up_at _ _ F1) (up_at _ _ F2) (at_fmt _ _ _ _ F1) (at_fmt _ _ _ _ F2) U1 U2)
    as (o & O1 & O2 & O3).
  destruct (mul_unit _ _ _ _ O1 (up_at _ _ C1) O2 V1) as (E1 & E2 & E3 & E4).
  destruct (mul_unit _ _ _ _ E1 (up_at _ _ C2) E2 V2) as (G1 & G2 & G3 & G4).
  apply (set_w_ok _ _ _ _ _ default_k D1 G1 D2 G2).
  unfold unit in *. destruct O3 as [O3| ->].
  - left. apply le64. apply Rmult_le_compat_r; [lra|].
    apply le64. apply Rmult_le_compat_r; lra.
  - right. rewrite Rmult_0_l, (rnd_id 53 1024 0) by auto with fmt.
    rewrite Rmult_0_l. apply rnd_id. auto with fmt.
Qed.

(* C50 *)
Lemma expectation_at t : proper t -> exists e, at_ (expectation ieee t : float64) e /\ unit e.
Proof.
  intros P. destruct (proper_at _ P) as (f & c & F & C & U & V). unfold unit in *.
  pose proof (sub64 _ _ _ _ (up_at _ _ F) half_at ltac:(lra)) as A.
  set (a := rnd64 (f - / 2)) in *.
  assert (Fm : fmt64 (- / 2)) by (apply fmt_opp; auto with fmt).
  assert (Ua : - / 2 <= a <= / 2) by (split; [apply lb64|apply ub64]; auto with fmt; lra).
  assert (- / 2 <= c * a <= / 2) by (split; nra).
  pose proof (mul64 _ _ _ _ (up_at _ _ C) A ltac:(lra)) as B.
  set (b := rnd64 (c * a)) in *.
  assert (Ub : - / 2 <= b <= / 2) by (split; [apply lb64|apply ub64]; auto with fmt; lra).
  assert (D : at_ (expectation ieee t : float64) (rnd64 (b + / 2))).
  { apply add64; [exact B|apply half_at|]. apply Rabs_unit; [lia|lra]. }
  exists (rnd64 (b + / 2)). split; auto.
  split; [apply lb64|apply ub64]; auto with fmt; lra.
Qed.

(* Two doubles near 4/7 and 3/7 *)
Definition near47 : R := IZR 5146971002709137 * bpow radix2 (-53).
Definition near37 : R := IZR 3860228252031852 * bpow radix2 (-53).

Lemma quality_ok t : proper t ->
  within (3 / 7 - bpow radix2 (-50)) 1 (quality_from_truth ieee t : float64).
Proof.
  intros P. destruct (expectation_at t P) as (e & E & U). unfold unit in U.
  pose proof (sub64 _ _ _ _ done_at E ltac:(lra)) as A.
  set (a := rnd64 (1 - e)) in *.
  assert (Ua : 0 <= a <= 1) by (split; [apply lb64|apply ub64]; auto with fmt; lra).
  pose proof (mul64 _ _ _ _ A three_quarters_at ltac:(lra)) as B.
  set (b := rnd64 (a * (3 / 4))) in *.
  assert (Ub : 0 <= b <= 1) by (split; [apply lb64|apply ub64]; auto with fmt; lra).
  apply within_at. unfold quality_from_truth. cbn zeta.
  assert (F47 : fmt64 near47) by (apply fmt64_dyadic; [reflexivity|lia]).
  assert (F37 : fmt64 near37) by (apply fmt64_dyadic; [reflexivity|lia]).
  assert (N : 3 / 7 - bpow radix2 (-50) <= near37) by (unfold near37; cbn; lra).
  assert (N1 : near37 <= near47 * (3 / 4)) by (unfold near37, near47; cbn; lra).
  assert (N2 : near37 <= 1 - near47) by (unfold near37, near47; cbn; lra).
  replace (dlt ieee (expectation ieee t) (dmul ieee (dsub ieee (done ieee) (expectation ieee t)) (three_quarters ieee)))
    with (Rlt_bool e b) by (symmetry; now apply lt_at).
  assert (M : near37 <= e \/ near37 <= b).
  { destruct (Rle_or_lt near37 e); auto. right.
    assert (near47 <= a) by (apply lb64; auto; lra).
    apply lb64; auto. lra. }
  destruct (Rlt_bool_spec e b).
  - exists b. split; auto. lra.
  - exists e. split; auto. lra.
Qed.
