(* Lemmas on IEEE arithmetic within range *)
From Coq Require Import ZArith Bool Reals Lra Lia.
From Flocq Require Import Core BinarySingleNaN.
From Verif Require Import Float.
Local Open Scope R_scope.

Section Generic.
Variables prec emax : Z.
Context {Hp : Prec_gt_0 prec} {He : Prec_lt_emax prec emax}.
Notation fexp := (SpecFloat.fexp prec emax).
Notation emin := (SpecFloat.emin prec emax).
Definition rnd (x : R) : R := round radix2 fexp ZnearestE x.
Definition fmt (x : R) : Prop := generic_format radix2 fexp x.
Notation bf := (binary_float prec emax).

Instance fexp_valid : Valid_exp fexp := fexp_correct prec emax Hp.

(* A finite number and its value *)
Definition at_ (x : bf) (v : R) : Prop := is_finite x = true /\ B2R x = v.

Lemma rnd_le x y : x <= y -> rnd x <= rnd y.
Proof. intros H. apply round_le; [exact fexp_valid| |exact H]. apply valid_rnd_N. Qed.

Lemma rnd_id x : fmt x -> rnd x = x.
Proof. intros H. apply round_generic; [apply valid_rnd_N|exact H]. Qed.

Lemma rnd_fmt x : fmt (rnd x).
Proof. apply generic_format_round; [exact fexp_valid|apply valid_rnd_N]. Qed.

Lemma rnd_ub x y : x <= y -> fmt y -> rnd x <= y.
Proof. intros H F. rewrite <- (rnd_id y F). now apply rnd_le. Qed.

Lemma rnd_lb x y : y <= x -> fmt y -> y <= rnd x.
Proof. intros H F. rewrite <- (rnd_id y F). now apply rnd_le. Qed.

Lemma fmt_0 : fmt 0.
Proof. apply generic_format_0. Qed.

Lemma fmt_opp x : fmt x -> fmt (- x).
Proof. apply generic_format_opp. Qed.

Lemma fmt_bpow e : (emin <= e)%Z -> fmt (bpow radix2 e).
Proof.
  intros H. apply generic_format_bpow. unfold SpecFloat.fexp.
  unfold Prec_gt_0 in Hp. lia.
Qed.

Lemma at_fmt x v : at_ x v -> fmt v.
Proof. intros [_ <-]. apply generic_format_B2R. Qed.

Lemma rnd_abs x e : (emin <= e)%Z -> Rabs x <= bpow radix2 e -> Rabs (rnd x) <= bpow radix2 e.
Proof.
  intros H Hx. apply fmt_bpow in H. apply Rabs_le_inv in Hx. apply Rabs_le. split.
  - apply rnd_lb; [lra|]. now apply fmt_opp.
  - apply rnd_ub; [lra|auto].
Qed.

Lemma no_overflow x e : (emin <= e < emax)%Z -> Rabs x <= bpow radix2 e ->
  Rlt_bool (Rabs (rnd x)) (bpow radix2 emax) = true.
Proof.
  intros [H1 H2] Hx. apply Rlt_bool_true. eapply Rle_lt_trans.
  - apply rnd_abs; eauto.
  - now apply bpow_lt.
Qed.

Lemma mul_at x y a b e : (emin <= e < emax)%Z -> at_ x a -> at_ y b ->
  Rabs (a * b) <= bpow radix2 e -> at_ (Bmult mode_NE x y) (rnd (a * b)).
Proof.
  intros E [Fx <-] [Fy <-] H.
  pose proof (Bmult_correct prec emax _ _ mode_NE x y) as C.
  change (round radix2 fexp (round_mode mode_NE)) with rnd in C.
  rewrite (no_overflow _ e) in C by auto.
  destruct C as (C1 & C2 & _). split; auto. now rewrite C2, Fx, Fy.
Qed.

Lemma add_at x y a b e : (emin <= e < emax)%Z -> at_ x a -> at_ y b ->
  Rabs (a + b) <= bpow radix2 e -> at_ (Bplus mode_NE x y) (rnd (a + b)).
Proof.
  intros E [Fx <-] [Fy <-] H.
  pose proof (Bplus_correct prec emax _ _ mode_NE x y Fx Fy) as C.
  change (round radix2 fexp (round_mode mode_NE)) with rnd in C.
  rewrite (no_overflow _ e) in C by auto.
  destruct C as (C1 & C2 & _). split; auto.
Qed.

Lemma sub_at x y a b e : (emin <= e < emax)%Z -> at_ x a -> at_ y b ->
  Rabs (a - b) <= bpow radix2 e -> at_ (Bminus mode_NE x y) (rnd (a - b)).
Proof.
  intros E [Fx <-] [Fy <-] H.
  pose proof (Bminus_correct prec emax _ _ mode_NE x y Fx Fy) as C.
  change (round radix2 fexp (round_mode mode_NE)) with rnd in C.
  rewrite (no_overflow _ e) in C by auto.
  destruct C as (C1 & C2 & _). split; auto.
Qed.

Lemma div_at x y a b e : (emin <= e < emax)%Z -> at_ x a -> at_ y b -> b <> 0 ->
  Rabs (a / b) <= bpow radix2 e -> at_ (Bdiv mode_NE x y) (rnd (a / b)).
Proof.
  intros E [Fx <-] [Fy <-] N H.
  pose proof (Bdiv_correct prec emax _ _ mode_NE x y N) as C.
  change (round radix2 fexp (round_mode mode_NE)) with rnd in C.
  rewrite (no_overflow _ e) in C by auto.
  destruct C as (C1 & C2 & _). split; auto. now rewrite C2.
Qed.

Lemma normalize_at m e0 s e : (emin <= e < emax)%Z ->
  Rabs (F2R (Float radix2 m e0)) <= bpow radix2 e ->
  at_ (binary_normalize prec emax Hp He mode_NE m e0 s) (rnd (F2R (Float radix2 m e0))).
Proof.
  intros E H.
  pose proof (binary_normalize_correct prec emax _ _ mode_NE m e0 s) as C. cbn zeta in C.
  change (round radix2 fexp (round_mode mode_NE)) with rnd in C.
  rewrite (no_overflow _ e) in C by auto.
  destruct C as (C1 & C2 & _). split; auto.
Qed.

Lemma lt_at x y a b : at_ x a -> at_ y b -> Bltb x y = Rlt_bool a b.
Proof. intros [Fx <-] [Fy <-]. now apply Bltb_correct. Qed.

End Generic.

Arguments at_ {prec emax} x v.

Notation rnd32 := (rnd 24 128).
Notation rnd64 := (rnd 53 1024).
Notation fmt32 := (fmt 24 128).
Notation fmt64 := (fmt 53 1024).

(* Every float is a double *)
Lemma fmt_32_64 x : fmt32 x -> fmt64 x.
Proof.
  unfold fmt. apply generic_inclusion_mag. intros _. unfold SpecFloat.fexp, SpecFloat.emin. lia.
Qed.

Lemma bound32 (x : float32) : Rabs (B2R x) <= bpow radix2 128.
Proof. apply Rlt_le. destruct x as [| | |]; try (cbn -[bpow]; rewrite Rabs_R0; apply bpow_gt_0).
  apply abs_B2R_lt_emax.
Qed.

Lemma to64_at (x : float32) v : at_ x v -> at_ (to64 x) v.
Proof.
  intros H. pose proof (at_fmt _ _ x v H) as F. destruct H as [H <-].
  destruct x as [s|s| |s m e B]; try discriminate H.
  - split; auto.
  - cbn [to64].
    pose proof (bound32 (B754_finite s m e B)) as L.
    pose proof (normalize_at 53 1024 (cond_Zopp s (Zpos m)) e s 128
      ltac:(vm_compute; split; discriminate || reflexivity) L) as A.
    rewrite rnd_id in A. { exact A. }
    apply fmt_32_64, F.
Qed.

Lemma to32_at (x : float64) v e : (-149 <= e < 128)%Z -> at_ x v -> Rabs v <= bpow radix2 e ->
  at_ (to32 x) (rnd32 v).
Proof.
  intros E [H <-] L.
  destruct x as [s|s| |s m e' B]; try discriminate H.
  - split; auto. cbn. now rewrite rnd_id by apply fmt_0.
  - cbn [to32]. apply normalize_at with (e := e); auto.
Qed.

Definition lb64 := rnd_lb 53 1024.
Definition ub64 := rnd_ub 53 1024.
Definition le64 := rnd_le 53 1024.
Definition lb32 := rnd_lb 24 128.
Definition ub32 := rnd_ub 24 128.
Definition le32 := rnd_le 24 128.
