(* Revision in IEEE arithmetic against pooling of evidence: errors *)
From Coq Require Import ZArith List Bool Reals Lra Lia.
From Flocq Require Import Core BinarySingleNaN Relative.
From Verif Require Import Float FloatFacts Truth TruthSpec TruthFacts TruthFacts2 TruthFacts4.
Local Open Scope R_scope.

(* Relative error with an absolute rest *)
Definition err (d a x y : R) : Prop := Rabs (x - y) <= d * y + a.

Lemma err_bounds d a x y : err d a x y <-> y - d * y - a <= x <= y + d * y + a.
Proof. unfold err. split; intros H; [apply Rabs_le_inv in H|apply Rabs_le]; lra. Qed.

Lemma err_weaken d d' a a' x y : 0 <= y -> d <= d' -> a <= a' -> err d a x y -> err d' a' x y.
Proof. intros Y D A. rewrite !err_bounds. intros. assert (d * y <= d' * y) by (apply Rmult_le_compat_r; assumption). lra. Qed.

Lemma err_add d a1 a2 x1 y1 x2 y2 : err d a1 x1 y1 -> err d a2 x2 y2 -> err d (a1 + a2) (x1 + x2) (y1 + y2).
Proof. rewrite !err_bounds. lra. Qed.

Lemma err_round32 d a x y : err d a x y -> 0 <= d -> 0 <= a -> 0 <= x -> 0 <= y ->
  err (d + e32 + e32 * d) (2 * a + bpow radix2 (-150)) (rnd32 x) y.
Proof.
  intros H D A X Y. pose proof (near32 x X) as N. apply Rabs_le_inv in N. apply err_bounds in H. apply err_bounds.
  assert (e32 * x <= e32 * (y + d * y + a)) by (apply Rmult_le_compat_l; lra). split; lra.
Qed.

Lemma rel64_at_least x : 0 <= x -> Rabs (rnd64 x - x) <= e64 * x + bpow radix2 (-150).
Proof.
  intros P.
  destruct (error_N_FLT radix2 (-1074) 53 eq_refl (fun z => negb (Z.even z)) x) as (eps & eta & A & B & _ & E).
  change (rnd64 x) with (round radix2 (FLT_exp (-1074) 53) (Znearest (fun z => negb (Z.even z))) x). rewrite E.
  replace (x * (1 + eps) + eta - x) with (x * eps + eta) by ring.
  eapply Rle_trans; [apply Rabs_triang|]. rewrite Rabs_mult, (Rabs_pos_eq x) by assumption.
  assert (Rabs eps <= e64) by (eapply Rle_trans; [exact A|]; change (bpow radix2 (Z.opp 53 + 1)) with (/ 4503599627370496); lra).
  assert (Rabs eta <= bpow radix2 (-150)).
  { eapply Rle_trans; [exact B|]. apply Rle_trans with (bpow radix2 (-1074)); [pose proof (bpow_ge_0 radix2 (-1074)); lra|apply bpow_le; lia]. }
  assert (x * Rabs eps <= x * e64) by (apply Rmult_le_compat_l; assumption). lra.
Qed.

Lemma err_round64 d a x y : err d a x y -> 0 <= d -> 0 <= a -> 0 <= x -> 0 <= y ->
  err (d + e64 + e64 * d) (2 * a + bpow radix2 (-150)) (rnd64 x) y.
Proof.
  intros H D A X Y. pose proof (rel64_at_least x X) as N. apply Rabs_le_inv in N. apply err_bounds in H. apply err_bounds.
  assert (e64 * x <= e64 * (y + d * y + a)) by (apply Rmult_le_compat_l; lra). split; lra.
Qed.

(* 2^-n in terms of 2^-100 *)
Notation tiny := (bpow radix2 (-100)).
Lemma tiny_pos : 0 < tiny. Proof. apply bpow_gt_0. Qed.
Lemma tiny_150 : bpow radix2 (-150) <= / 1125899906842624 * tiny.
Proof. change (-150)%Z with (-50 + -100)%Z. rewrite bpow_plus. change (bpow radix2 (-50)) with (/ 1125899906842624). lra. Qed.

(* The weights of one truth value with k = 1 *)
Lemma one_weight f c : fmt32 f -> fmt32 c -> unit f -> unit c -> c < 1 ->
  err (3 * e32) (/ 1048576 * tiny) (fst (w_of 1 f c)) (c / (1 - c)) /\
  err (4 * e32) (/ 1048576 * tiny) (snd (w_of 1 f c)) (f * (c / (1 - c))).
Proof.
  intros Ff Fc Uf Uc Lc. unfold w_of. cbn [fst snd]. rewrite !Rmult_1_l, (rnd_id 24 128 c Fc), (rnd_id 24 128 f Ff). unfold unit in *.
  pose proof (fmt32_below_1 c Fc Lc) as Lc'. rewrite bpow_24 in Lc'.
  pose proof (one_minus_c c Fc Uc Lc) as (O1 & O2). rewrite bpow_24 in O1.
  assert (Ro : rel e32 (rnd32 (1 - c)) (1 - c)).
  { apply rel32. apply Rle_trans with (bpow radix2 (-24)); [apply bpow_le; lia|rewrite bpow_24; lra]. }
  set (om := rnd32 (1 - c)) in *.
  pose proof tiny_pos as Tp. pose proof tiny_150 as T150. pose proof (bpow_ge_0 radix2 (-150)) as T0.
  assert (Pw : 0 <= c / (1 - c)) by (apply div_pos; lra).
  split.
  - pose proof (rel_div 0 e32 c c om (1 - c) ltac:(lra) ltac:(lra) ltac:(lra) ltac:(lra) (rel_refl c) Ro) as D.
    assert (E : err (e32 + 3 * e32 * e32) 0 (c / om) (c / (1 - c))).
    { unfold err. unfold rel in D. rewrite Rplus_0_r. eapply Rle_trans; [exact D|]. apply Rmult_le_compat_r; [exact Pw|]. lra. }
    pose proof (err_round32 _ _ _ _ E ltac:(lra) ltac:(lra) ltac:(apply div_pos; lra) Pw) as R.
    eapply err_weaken; [exact Pw| | |exact R]; lra.
  - assert (Pf : 0 <= f * c) by (apply Rmult_le_pos; lra).
    pose proof (near32 (f * c) Pf) as N. apply Rabs_le_inv in N.
    assert (Pn : 0 <= rnd32 (f * c)) by (apply lb32; auto with fmt).
    set (n := rnd32 (f * c)) in *.
    assert (Io : 0 < / om <= 16777216).
    { split; [apply Rinv_0_lt_compat; lra|]. replace 16777216 with (/ e32) by (field). apply Rinv_le; lra. }
    pose proof (rel_inv e32 om (1 - c) ltac:(lra) ltac:(lra) Ro) as I. apply rel_bounds in I.
    assert (Ic : 0 < / (1 - c)) by (apply Rinv_0_lt_compat; lra).
    assert (Pfw : 0 <= f * (c / (1 - c))) by (apply Rmult_le_pos; lra).
    assert (E : err (2 * e32 + 10 * e32 * e32) (/ 33554432 * tiny) (n / om) (f * (c / (1 - c)))).
    { apply err_bounds. unfold Rdiv in *. set (i := / om) in *. set (j := / (1 - c)) in *.
      assert (A1 : n * i <= (f * c + e32 * (f * c) + bpow radix2 (-150)) * i) by (apply Rmult_le_compat_r; lra).
      assert (A2 : (f * c - e32 * (f * c) - bpow radix2 (-150)) * i <= n * i) by (apply Rmult_le_compat_r; lra).
      assert (A3 : bpow radix2 (-150) * i <= bpow radix2 (-150) * 16777216) by (apply Rmult_le_compat_l; lra).
      assert (A4 : f * c * i <= f * c * (j + (e32 + 2 * e32 * e32) * j)) by (apply Rmult_le_compat_l; lra).
      assert (A5 : f * c * (j - (e32 + 2 * e32 * e32) * j) <= f * c * i) by (apply Rmult_le_compat_l; lra).
      replace (f * (c * j)) with (f * c * j) by ring. set (v := f * c * j) in *.
      replace (f * c * (j + (e32 + 2 * e32 * e32) * j)) with (v + (e32 + 2 * e32 * e32) * v) in A4 by (unfold v; ring).
      replace (f * c * (j - (e32 + 2 * e32 * e32) * j)) with (v - (e32 + 2 * e32 * e32) * v) in A5 by (unfold v; ring).
      set (g := f * c * i) in *.
      replace ((f * c + e32 * (f * c) + bpow radix2 (-150)) * i) with (g + e32 * g + bpow radix2 (-150) * i) in A1 by (unfold g; ring).
      replace ((f * c - e32 * (f * c) - bpow radix2 (-150)) * i) with (g - e32 * g - bpow radix2 (-150) * i) in A2 by (unfold g; ring).
      assert (0 <= v) by (unfold v; apply Rmult_le_pos; lra).
      split; lra. }
    pose proof (err_round32 _ _ _ _ E ltac:(lra) ltac:(lra) ltac:(apply div_pos; lra) Pfw) as R.
    eapply err_weaken; [exact Pfw| | |exact R]; lra.
Qed.

Lemma threshold_below : exists v, at_ (threshold ieee : float64) v /\ v <= 3 * / 268435456.
Proof.
  exists (rnd64 (1 / 100000000)). split.
  - cbn [threshold dfrac ieee]. apply div64; [now apply of_Z64_at|now apply of_Z64_at|lra|lra].
  - apply ub64; [lra|]. change (3 * / 268435456) with (IZR 3 * bpow radix2 (-28)). apply fmt64_dyadic; [reflexivity|lia].
Qed.

(* At least one confidence is not tiny *)
Lemma revision_accurate m p1 p2 :
  proper (m p1) -> open (m p1) -> unit_k (m p1) -> proper (m p2) -> open (m p2) -> unit_k (m p2) ->
  let f1 := B2R (fr ieee (m p1) : float32) in let c1 := B2R (co ieee (m p1) : float32) in
  let f2 := B2R (fr ieee (m p2) : float32) in let c2 := B2R (co ieee (m p2) : float32) in
  bpow radix2 (-26) <= c1 + c2 ->
  let t := truth_revision ieee m p1 p2 p1 in
  let w := c1 / (1 - c1) + c2 / (1 - c2) in let wp := f1 * (c1 / (1 - c1)) + f2 * (c2 / (1 - c2)) in
  Rabs (B2R (fr ieee t : float32) - wp / w) <= / 1048576 * (wp / w) + bpow radix2 (-70) /\
  Rabs (B2R (co ieee t : float32) - w / (w + 1)) <= / 1048576 * (w / (w + 1)).
Proof.
  intros Q1 O1 K1 Q2 O2 K2. cbn zeta. intros Hc.
  assert (S1 : sane_k (m p1)).
  { pose proof (unit_k_at _ K1) as (X & Y). split; [exact X|]. rewrite Y. split; [lra|]. change 1 with (bpow radix2 0). apply bpow_le. lia. }
  assert (S2 : sane_k (m p2)).
  { pose proof (unit_k_at _ K2) as (X & Y). split; [exact X|]. rewrite Y. split; [lra|]. change 1 with (bpow radix2 0). apply bpow_le. lia. }
  pose proof (usable_of _ Q1 O1 S1) as U1. pose proof (usable_of _ Q2 O2 S2) as U2.
  rewrite (proj2 (unit_k_at _ K1)) in U1. rewrite (proj2 (unit_k_at _ K2)) in U2.
  set (f1 := B2R (fr ieee (m p1) : float32)) in *. set (c1 := B2R (co ieee (m p1) : float32)) in *.
  set (f2 := B2R (fr ieee (m p2) : float32)) in *. set (c2 := B2R (co ieee (m p2) : float32)) in *.
  destruct U1 as [A1 A2 A3 A4 A5 A6 A7]. destruct U2 as [B1 B2 B3 B4 B5 B6 B7].
  destruct (weights_ok (m p1) 1 f1 c1 A1 A2 A3 A4 A5 A6 A7) as (X1 & X2 & X3 & X4 & _).
  destruct (weights_ok (m p2) 1 f2 c2 B1 B2 B3 B4 B5 B6 B7) as (Y1 & Y2 & Y3 & Y4 & _).
  destruct (one_weight f1 c1 (at_fmt _ _ _ _ A2) (at_fmt _ _ _ _ A3) A5 A6 A7) as (E1 & E2).
  destruct (one_weight f2 c2 (at_fmt _ _ _ _ B2) (at_fmt _ _ _ _ B3) B5 B6 B7) as (G1 & G2).
  set (w1 := fst (w_of 1 f1 c1)) in *. set (q1 := snd (w_of 1 f1 c1)) in *.
  set (w2 := fst (w_of 1 f2 c2)) in *. set (q2 := snd (w_of 1 f2 c2)) in *.
  set (W1 := c1 / (1 - c1)) in *. set (W2 := c2 / (1 - c2)) in *. unfold unit in *.
  assert (L1 : c1 <= W1) by (unfold W1; apply Rmult_le_reg_r with (1 - c1); [lra|]; unfold Rdiv; rewrite Rmult_assoc, Rinv_l; nra).
  assert (L2 : c2 <= W2) by (unfold W2; apply Rmult_le_reg_r with (1 - c2); [lra|]; unfold Rdiv; rewrite Rmult_assoc, Rinv_l; nra).
  pose proof (err_add _ _ _ _ _ _ _ E1 G1) as Sw. pose proof (err_add _ _ _ _ _ _ _ E2 G2) as Sp.
  assert (P : bpow radix2 125 = bpow radix2 124 + bpow radix2 124).
  { change (bpow radix2 125) with (bpow radix2 (1 + 124)). rewrite bpow_plus. cbn [bpow].
    change (IZR (Zpower_pos radix2 1)) with 2. lra. }
  assert (B : bpow radix2 125 <= bpow radix2 200) by (apply bpow_le; lia).
  assert (S : at_ (dadd ieee (weight ieee (m p1)) (weight ieee (m p2)) : float64) (rnd64 (w1 + w2)))
    by (apply add64; auto; rewrite Rabs_pos_eq; lra).
  assert (Sq : at_ (dadd ieee (weight_p ieee (m p1)) (weight_p ieee (m p2)) : float64) (rnd64 (q1 + q2)))
    by (apply add64; auto; rewrite Rabs_pos_eq; lra).
  pose proof (rnd64_range (w1 + w2) 125 ltac:(lia) ltac:(lra)) as R1.
  pose proof (rnd64_range (q1 + q2) 125 ltac:(lia) ltac:(lra)) as R2.
  assert (B' : bpow radix2 125 <= bpow radix2 126) by (apply bpow_le; lia).
  assert (Dw : at_ (down ieee (dadd ieee (weight ieee (m p1)) (weight ieee (m p2))) : float32) (rnd32 (rnd64 (w1 + w2))))
    by (apply to32_at with (e := 125%Z); auto; [lia|]; rewrite Rabs_pos_eq; lra).
  assert (Dq : at_ (down ieee (dadd ieee (weight_p ieee (m p1)) (weight_p ieee (m p2))) : float32) (rnd32 (rnd64 (q1 + q2))))
    by (apply to32_at with (e := 125%Z); auto; [lia|]; rewrite Rabs_pos_eq; lra).
  pose proof tiny_pos as Tp. pose proof tiny_150 as T150. pose proof (bpow_ge_0 radix2 (-150)) as T0.
  set (W := W1 + W2) in *. set (Q := f1 * W1 + f2 * W2) in *.
  assert (PQ : 0 <= Q) by (unfold Q; apply Rplus_le_le_0_compat; apply Rmult_le_pos; lra).
  assert (QW : Q <= W) by (unfold Q, W; apply Rplus_le_compat; nra).
  assert (LW : / 67108864 <= W) by (change (bpow radix2 (-26)) with (/ 67108864) in Hc; unfold W; lra).
  assert (Ew : err (5 * e32) (/ 65536 * tiny) (rnd32 (rnd64 (w1 + w2))) W).
  { pose proof (err_round64 _ _ _ _ Sw ltac:(lra) ltac:(lra) ltac:(lra) ltac:(lra)) as Z1.
    pose proof (err_round32 _ _ _ _ Z1 ltac:(lra) ltac:(lra) ltac:(lra) ltac:(lra)) as Z2.
    eapply err_weaken; [lra| | |exact Z2]; lra. }
  assert (Eq : err (6 * e32) (/ 65536 * tiny) (rnd32 (rnd64 (q1 + q2))) Q).
  { pose proof (err_round64 _ _ _ _ Sp ltac:(lra) ltac:(lra) ltac:(lra) PQ) as Z1.
    pose proof (err_round32 _ _ _ _ Z1 ltac:(lra) ltac:(lra) ltac:(lra) PQ) as Z2.
    eapply err_weaken; [exact PQ| | |exact Z2]; lra. }
  pose proof (rnd32_range (rnd64 (w1 + w2)) 126 ltac:(lia) ltac:(lra)) as Rw.
  assert (Rq : 0 <= rnd32 (rnd64 (q1 + q2)) <= rnd32 (rnd64 (w1 + w2))) by (split; [apply lb32; auto with fmt; lra|apply le32, le64; lra]).
  set (w := rnd32 (rnd64 (w1 + w2))) in *. set (q := rnd32 (rnd64 (q1 + q2))) in *.
  assert (T100 : tiny <= / 1000000 * e32 * W).
  { apply Rle_trans with (bpow radix2 (-80)); [apply bpow_le; lia|].
    change (bpow radix2 (-80)) with (/ 1208925819614629174706176). lra. }
  assert (Rlw : rel (11 / 2 * e32) w W) by (apply err_bounds in Ew; apply rel_bounds; lra).
  assert (Wp : 0 < W) by lra. assert (wp0 : / 80000000 <= w) by (apply rel_bounds in Rlw; lra).
  unfold truth_revision. rewrite Z.eqb_refl. cbn [fr co]. split.
  - (* frequency *)
    unfold w_to_f. destruct threshold_below as (th & Th & Lth).
    replace (dlt ieee (threshold ieee) (up ieee (down ieee (dadd ieee (weight ieee (m p1)) (weight ieee (m p2)))))) with (Rlt_bool th w)
      by (symmetry; apply lt_at; [exact Th|now apply up_at]).
    rewrite Rlt_bool_true by lra.
    assert (D : 0 <= q / w <= 1) by (split; [apply div_pos; lra|apply div_le; lra]).
    pose proof (div32 _ _ _ _ 0 ltac:(lia) Dq Dw ltac:(lra) D) as Dd.
    assert (D' : 0 <= rnd32 (q / w) <= 1) by (apply (rnd32_range _ 0); [lia|exact D]).
    rewrite (proj2 (down_unit _ _ (up_at _ _ Dd) ltac:(lra))). rewrite (rnd_id 24 128 (rnd32 (q / w))) by apply (rnd_fmt 24 128).
    pose proof (near32 (q / w) (proj1 D)) as N. apply Rabs_le_inv in N.
    pose proof (rel_inv (11 / 2 * e32) _ _ ltac:(lra) Wp Rlw) as I. apply rel_bounds in I. apply err_bounds in Eq.
    assert (Iw : 0 < / w) by (apply Rinv_0_lt_compat; lra). assert (IW : 0 < / W) by (apply Rinv_0_lt_compat; lra).
    assert (IWb : / W <= 67108864) by (replace 67108864 with (/ / 67108864) by field; apply Rinv_le; lra).
    unfold Rdiv in *. set (i := / w) in *. set (j := / W) in *.
    assert (A1' : q * i <= (Q + 6 * e32 * Q + / 65536 * tiny) * i) by (apply Rmult_le_compat_r; lra).
    assert (A2' : (Q - 6 * e32 * Q - / 65536 * tiny) * i <= q * i) by (apply Rmult_le_compat_r; lra).
    assert (Ib : i <= 70000000) by lra.
    assert (A3' : tiny * i <= tiny * 70000000) by (apply Rmult_le_compat_l; lra).
    assert (A4' : Q * i <= Q * (j + 6 * e32 * j)) by (apply Rmult_le_compat_l; lra).
    assert (A5' : Q * (j - 6 * e32 * j) <= Q * i) by (apply Rmult_le_compat_l; lra).
    assert (T70 : tiny * 70000000 <= / 4 * bpow radix2 (-70)).
    { change (-100)%Z with (-30 + -70)%Z. rewrite bpow_plus. change (bpow radix2 (-30)) with (/ 1073741824).
      pose proof (bpow_ge_0 radix2 (-70)). lra. }
    assert (T150' : bpow radix2 (-150) <= / 4 * bpow radix2 (-70)).
    { change (-150)%Z with (-80 + -70)%Z. rewrite bpow_plus. change (bpow radix2 (-80)) with (/ 1208925819614629174706176).
      pose proof (bpow_ge_0 radix2 (-70)). lra. }
    assert (0 <= Q * j) by (apply Rmult_le_pos; lra).
    set (v := Q * j) in *. set (g := Q * i) in *.
    replace (Q * (j + 6 * e32 * j)) with (v + 6 * e32 * v) in A4' by (unfold v; ring).
    replace (Q * (j - 6 * e32 * j)) with (v - 6 * e32 * v) in A5' by (unfold v; ring).
    replace ((Q + 6 * e32 * Q + / 65536 * tiny) * i) with (g + 6 * e32 * g + / 65536 * (tiny * i)) in A1' by (unfold g; ring).
    replace ((Q - 6 * e32 * Q - / 65536 * tiny) * i) with (g - 6 * e32 * g - / 65536 * (tiny * i)) in A2' by (unfold g; ring).
    apply Rabs_le. clear - N A1' A2' A3' A4' A5' T70 T150' H. lra.
  - (* confidence *)
    destruct (w_to_c_ok _ _ _ _ Dw A1 ltac:(lra) A4) as (C1 & _). rewrite (proj2 C1).
    assert (Ls : rel e32 (rnd32 (w + 1)) (w + 1)).
    { apply rel32. apply Rle_trans with (bpow radix2 0); [apply bpow_le; lia|cbn; lra]. }
    assert (Lw : rel (11 / 2 * e32) (w + 1) (W + 1)) by (apply rel_bounds in Rlw; apply rel_bounds; lra).
    pose proof (rel_trans e32 _ _ _ _ ltac:(lra) Ls Lw) as Ls'.
    assert (Ls2 : rel (7 * e32) (rnd32 (w + 1)) (W + 1)) by (eapply rel_weaken; [lra| |exact Ls']; lra).
    pose proof (rel_div (11 / 2 * e32) (7 * e32) w W _ (W + 1) ltac:(lra) ltac:(lra) ltac:(lra) ltac:(lra) Rlw Ls2) as Rd.
    assert (W0 : 0 <= W / (W + 1)) by (apply div_pos; lra).
    assert (Rd2 : rel (13 * e32) (w / rnd32 (w + 1)) (W / (W + 1))) by (eapply rel_weaken; [exact W0| |exact Rd]; lra).
    assert (big_c : / 134217728 <= W / (W + 1)).
    { apply Rmult_le_reg_r with (W + 1); [lra|]. unfold Rdiv. rewrite Rmult_assoc, Rinv_l by lra. lra. }
    assert (N : bpow radix2 (-126) <= w / rnd32 (w + 1)).
    { apply Rle_trans with (bpow radix2 (-30)); [apply bpow_le; lia|]. change (bpow radix2 (-30)) with (/ 1073741824).
      apply rel_bounds in Rd2. lra. }
    pose proof (rel_trans e32 _ _ _ _ ltac:(lra) (rel32 _ N) Rd2) as F.
    unfold rel in F. eapply Rle_trans; [exact F|]. apply Rmult_le_compat_r; [exact W0|lra].
Qed.
