(* Proofs about the escape sequences of colours. *)
From Coq Require Import ZArith String Ascii List Bool Lia.
From Verif Require Import Base Printer PrinterSpec PrinterFacts3 ColourSpec.
Import ListNotations.
Open Scope string_scope.
Open Scope Z_scope.

Lemma digit_denotes : forall d, 0 <= d <= 9 -> forall acc s, denotes acc (String (digit_char d) s) = denotes (10 * acc + d) s.
Proof.
  intros d H acc s.
  assert (E : d = 0 \/ d = 1 \/ d = 2 \/ d = 3 \/ d = 4 \/ d = 5 \/ d = 6 \/ d = 7 \/ d = 8 \/ d = 9) by lia.
  repeat (destruct E as [->|E]; [reflexivity|]). rewrite E. reflexivity.
Qed.

Lemma padded_denotes : forall k n s acc, 0 <= n < 10 ^ Z.of_nat k ->
  denotes acc (padded k n s) = denotes (acc * 10 ^ Z.of_nat k + n) s.
Proof.
  induction k as [|k IH]; intros n s acc H.
  - cbn in H. assert (n = 0) by lia. subst n. cbn [padded]. f_equal. cbn. lia.
  - cbn [padded]. rewrite Nat2Z.inj_succ, Z.pow_succ_r in H by lia.
    rewrite IH by (split; [apply Z.div_pos; lia|apply Z.div_lt_upper_bound; lia]).
    rewrite digit_denotes by (pose proof (Z.mod_pos_bound n 10); lia).
    f_equal. rewrite Nat2Z.inj_succ, Z.pow_succ_r by lia.
    pose proof (Z.div_mod n 10 ltac:(lia)). lia.
Qed.

Lemma padded_length : forall k n s, String.length (padded k n s) = (k + String.length s)%nat.
Proof. induction k as [|k IH]; intros n s; [reflexivity|]. cbn [padded]. rewrite IH. cbn. lia. Qed.

Theorem coloured : forall r g b s, 0 <= r <= 255 -> 0 <= g <= 255 -> 0 <= b <= 255 -> tame s ->
  exists x y z, fg (RGB r g b) s [] =
      Ok (String "027" ("[38;2;" ++ x ++ ";" ++ y ++ ";" ++ z ++ "m" ++ s ++ String "027" "[0m")) /\
    String.length x = 3%nat /\ String.length y = 3%nat /\ String.length z = 3%nat /\
    denotes 0 x = Some r /\ denotes 0 y = Some g /\ denotes 0 z = Some b.
Proof.
  intros r g b s R G B T. exists (padded 3 r ""), (padded 3 g ""), (padded 3 b "").
  split.
  - unfold fg, styled. rewrite format_tame by exact T. cbn [bind]. unfold escape, reset_colour. f_equal.
  - rewrite !padded_length. repeat (split; [reflexivity|]).
    assert (P : forall n, 0 <= n <= 255 -> denotes 0 (padded 3 n "") = Some n).
    { intros n H. rewrite padded_denotes by (change (10 ^ Z.of_nat 3) with 1000; lia). reflexivity. }
    auto.
Qed.

Lemma colour_case : (0 <= 77 <= 255 /\ 0 <= 196 <= 255 /\ 0 <= 9 <= 255) /\ tame "<a --> b>" /\
  fg (RGB 77 196 9) "x" [] = Ok (String "027" ("[38;2;077;196;009mx" ++ String "027" "[0m")).
Proof. split; [lia|]. split; [apply tameb_ok; reflexivity|vm_compute; reflexivity]. Qed.
