(* Cases for what Python shows of a Budget and of a Truth *)
From Coq Require Import ZArith Bool Reals Lra Lia String Ascii List.
From Flocq Require Import Core BinarySingleNaN.
From Verif Require Import Base Enums Term Float Truth Actions Printer PrinterSpec.
From Verif Require Import Api ApiCases Shown ShownSpec.
From Verif Require Evidence Interning.
Import ListNotations.
Open Scope string_scope.
Open Scope list_scope.
Local Open Scope Z_scope.

Definition asked : sentence := Sentence (Atom false 1) Question None (snd (Evidence.stamp_bool (store known) true)).
Definition fine_task : task := Task (Budget (dfrac ieee 246 10000) (dfrac ieee 1 2) (to32 (dfrac ieee 3 4))) asked.
Definition large_task : task := Task (Budget (dfrac ieee 2 1) (dfrac ieee 1 2) (to32 (dfrac ieee 3 4))) asked.

Lemma asked_prints : interpret_sentence (dictionary_of (Interning.tab (atoms known))) false (store known) asked = Ok "A? ".
Proof. vm_compute. reflexivity. Qed.

Lemma unit_compared {prec emax} (x : binary_float prec emax) s m e B : x = B754_finite s m e B -> s = false -> e < 0 -> Z.pos m <= 2 ^ (- e) -> in_unit x.
Proof.
  intros -> -> L M. split; [reflexivity|]. cbn [B2R cond_Zopp]. unfold F2R. cbn [Fnum Fexp].
  assert (P : (0 < bpow radix2 e)%R) by apply bpow_gt_0. assert (Q : (IZR (Z.pos m) <= bpow radix2 (- e))%R).
  { rewrite <- IZR_Zpower by lia. apply IZR_le. exact M. }
  split.
  - apply Rmult_le_pos; [apply IZR_le; lia|lra].
  - apply Rle_trans with (bpow radix2 (- e) * bpow radix2 e)%R; [apply Rmult_le_compat_r; lra|].
    rewrite <- bpow_plus. replace (- e + e) with 0 by lia. cbn. lra.
Qed.

Definition finite_unit {prec emax} (x : binary_float prec emax) : bool :=
  match x with B754_finite false m e _ => (e <? 0) && (Z.pos m <=? 2 ^ (- e)) | _ => false end.

Lemma finite_unit_in {prec emax} (x : binary_float prec emax) : finite_unit x = true -> in_unit x.
Proof.
  destruct x as [s|s| |[] m e B]; try discriminate. cbn [finite_unit]. intros H. apply andb_prop in H. destruct H as [H1 H2].
  apply Z.ltb_lt in H1. apply Z.leb_le in H2. exact (unit_compared _ _ _ _ _ eq_refl eq_refl H1 H2).
Qed.

Lemma fine_units : in_unit (priority (budget_of fine_task)) /\ in_unit (durability (budget_of fine_task)) /\ in_unit (Actions.quality (budget_of fine_task)).
Proof. split; [|split]; apply finite_unit_in; vm_compute; reflexivity. Qed.

Lemma fine_texts ord fresh room short own rest :
  evaluate ord fresh room (library_text short own) known rest (Api.Call "__repr__" [Literal (PyTask fine_task); Literal PyNone]) =
    Ok (known, rest, Returned (PyStr "<Task: $0.03;0.50;0.75$ A? >")) /\
  evaluate ord fresh room (library_text short own) known rest (Api.Call "repr" [Literal (PyBudget (budget_of fine_task))]) =
    Ok (known, rest, Returned (PyStr "<Budget: $0.02;0.50;0.75$>")).
Proof.
  assert (E : interpret_task (dictionary_of (Interning.tab (atoms known))) false (store known) fine_task = Ok "$0.03;0.50;0.75$ A? ") by (vm_compute; reflexivity).
  split.
  - cbn [evaluate bind]. unfold call_function. cbn [String.eqb Ascii.eqb Bool.eqb call_repr shown]. rewrite E. reflexivity.
  - assert (F : budget_text (budget_of fine_task) = "<Budget: $0.02;0.50;0.75$>") by (vm_compute; reflexivity).
    cbn [evaluate bind]. unfold call_function. cbn [String.eqb Ascii.eqb Bool.eqb repr call_repr shown library_text]. rewrite F. reflexivity.
Qed.

Lemma large_texts ord fresh room short own rest :
  evaluate ord fresh room (library_text short own) known rest (Api.Call "__repr__" [Literal (PyTask large_task); Literal PyNone]) =
    Ok (known, rest, Returned (PyStr "<Task: $1.00;0.50;0.75$ A? >")) /\
  evaluate ord fresh room (library_text short own) known rest (Api.Call "repr" [Literal (PyBudget (budget_of large_task))]) =
    Ok (known, rest, Returned (PyStr "<Budget: $2.00;0.50;0.75$>")).
Proof.
  assert (E : interpret_task (dictionary_of (Interning.tab (atoms known))) false (store known) large_task = Ok "$1.00;0.50;0.75$ A? ") by (vm_compute; reflexivity).
  split.
  - cbn [evaluate bind]. unfold call_function. cbn [String.eqb Ascii.eqb Bool.eqb call_repr shown]. rewrite E. reflexivity.
  - assert (F : budget_text (budget_of large_task) = "<Budget: $2.00;0.50;0.75$>") by (vm_compute; reflexivity).
    cbn [evaluate bind]. unfold call_function. cbn [String.eqb Ascii.eqb Bool.eqb repr call_repr shown library_text]. rewrite F. reflexivity.
Qed.

Lemma half_clearly : clearly (durability (budget_of fine_task)) 50.
Proof.
  unfold clearly. assert (E : B2SF (durability (budget_of fine_task)) = SpecFloat.S754_finite false 4503599627370496 (-53)) by (vm_compute; reflexivity).
  rewrite <- SF2R_B2SF, E. cbn [SF2R cond_Zopp]. unfold F2R. cbn [Fnum Fexp bpow].
  replace (IZR 4503599627370496 * / IZR (Z.pow_pos radix2 53))%R with (/ 2)%R by (change (Z.pow_pos radix2 53) with 9007199254740992; lra).
  rewrite Rabs_pos_eq; lra.
Qed.

Lemma odd_places : budget_text (Budget B754_nan (dfrac ieee (-1) 3) (B754_infinity true)) = "<Budget: $nan;-0.33;-inf$>".
Proof. vm_compute. reflexivity. Qed.
