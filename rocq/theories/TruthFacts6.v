(* Weights without evidence, the default truth value, and projections over
   times too far apart. *)
From Coq Require Import ZArith List Bool Reals Lra Lia Psatz.
From Flocq Require Import Core BinarySingleNaN.
From Verif Require Import Base Hash Float FloatFacts Truth TruthSpec TruthFacts TruthFacts2 TruthFacts3.
Local Open Scope R_scope.

Lemma total_exact : forall f c k, c < 1 ->
  fc_to_w exact f c k = fc_to_w_plus exact f c k + fc_to_w_minus exact f c k /\
  fc_to_w exact f c k = weight exact (exact_truth f c k).
Proof.
  intros f c k H. unfold fc_to_w, fc_to_w_plus, fc_to_w_minus, weight, one. cbn. split; [|reflexivity].
  field. lra.
Qed.

Lemma no_weight : forall wp w k, is_finite (w : float32) = true -> B2R (w : float32) = 0 ->
  let t := truth_from_w ieee wp w k in
  B2R (fr ieee t : float32) = / 2 /\ B2R (co ieee t : float32) = 0 /\ kk ieee t = k.
Proof.
  intros wp w k F Z0.
  assert (E : deq ieee (up ieee w) (dzero ieee) = true).
  { destruct w as [s| | |s m e B]; try discriminate F; [destruct s; reflexivity|].
    exfalso. cbn in Z0. apply eq_0_F2R in Z0. destruct s; discriminate Z0. }
  unfold truth_from_w. rewrite E. cbn [negb fr co kk].
  split; [|split; [|reflexivity]].
  - destruct (down_unit _ _ half_at) as [_ G]; [lra|]. rewrite G. apply rnd_id. apply fmt32_half.
  - destruct (down_unit _ _ dzero_at) as [_ G]; [lra|]. rewrite G. apply rnd_id. apply fmt32_0.
Qed.

Lemma default_values : forall k, let t := truth_default ieee k in
  B2R (fr ieee t : float32) = 1 /\ B2R (co ieee t : float32) = 15099494 / 16777216 /\ kk ieee t = k.
Proof.
  intros k. cbn [truth_default fr co kk]. split; [|split; [|reflexivity]].
  - destruct (down_unit _ _ done_at) as [_ G]; [lra|]. exact (eq_trans G (rnd_id _ _ _ fmt32_1)).
  - assert (E : B2SF (config_c ieee : float32) = SpecFloat.S754_finite false 15099494 (-24)) by (vm_compute; reflexivity).
    rewrite <- SF2R_B2SF, E. cbn. unfold F2R. cbn. lra.
Qed.

Lemma nearest_nine : forall m, Rabs (15099494 / 16777216 - 9 / 10) <= Rabs (IZR m / 16777216 - 9 / 10).
Proof.
  intros m. assert (H : (m <= 15099494 \/ 15099495 <= m)%Z) by lia.
  rewrite (Rabs_left (15099494 / 16777216 - 9/10)) by lra.
  destruct H as [H|H]; apply IZR_le in H; [rewrite Rabs_left|rewrite Rabs_pos_eq]; lra.
Qed.

Local Open Scope Z_scope.
Definition time (z : Z) : Prop := - 9223372036854775808 <= z <= 9223372036854775807.

Lemma int64_bad : forall z, ~ time z -> int64 z = UB.
Proof.
  intros z H. unfold int64, time in *. destruct (Z.leb_spec (- 9223372036854775808) z); [|reflexivity].
  destruct (Z.leb_spec z 9223372036854775807); [lia|reflexivity].
Qed.

Lemma project_overflow : forall t s c g d,
  9223372036854775808 <= Z.abs (s - c) + Z.abs (g - c) -> project ieee t s c g d = UB.
Proof.
  intros t s c g d H. unfold project.
  destruct (Z.le_gt_cases (Z.abs (s - c)) 9223372036854775807).
  - rewrite !(int64_ok (s - c)) by lia. cbn [bind]. rewrite (int64_ok (Z.abs (s - c))) by lia. cbn [bind].
    destruct (Z.le_gt_cases (Z.abs (g - c)) 9223372036854775807).
    + rewrite (int64_ok (g - c)) by lia. cbn [bind]. rewrite (int64_ok (Z.abs (g - c))) by lia. cbn [bind].
      rewrite (int64_bad (Z.abs (s - c) + Z.abs (g - c))) by (unfold time; lia). reflexivity.
    + destruct (Z.le_gt_cases (- 9223372036854775808) (g - c)) as [L|L].
      * destruct (Z.le_gt_cases (g - c) 9223372036854775807).
        -- rewrite (int64_ok (g - c)) by lia. cbn [bind]. rewrite (int64_bad (Z.abs (g - c))) by (unfold time; lia). reflexivity.
        -- rewrite (int64_bad (g - c)) by (unfold time; lia). reflexivity.
      * rewrite (int64_bad (g - c)) by (unfold time; lia). reflexivity.
  - destruct (Z.le_gt_cases (- 9223372036854775808) (s - c)) as [L|L].
    + destruct (Z.le_gt_cases (s - c) 9223372036854775807).
      * rewrite (int64_ok (s - c)) by lia. cbn [bind]. rewrite (int64_bad (Z.abs (s - c))) by (unfold time; lia). reflexivity.
      * rewrite (int64_bad (s - c)) by (unfold time; lia). reflexivity.
    + rewrite (int64_bad (s - c)) by (unfold time; lia). reflexivity.
Qed.
