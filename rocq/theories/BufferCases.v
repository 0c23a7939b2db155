(* Examples for the properties of the input buffer. *)
From Coq Require Import ZArith String Ascii List Bool Arith Lia.
From Verif Require Import Base Tables Parser ParserSpec ParserCases Buffer BufferSpec.
Import ListNotations.
Open Scope string_scope.
Open Scope list_scope.
Open Scope Z_scope.

(* A word of n letters with a full stop. *)
Fixpoint long (n : nat) : string :=
  match n with
  | O => "."
  | S n' => String "a" (long n')
  end.

(* After a word of 127 letters the block of 129 characters is full, and
   clear_input copies one character more. *)
Lemma long_accepted : exists t, parse allocated [] (long 127) = Ok (Accepted t, []).
Proof. eexists. vm_compute. reflexivity. Qed.

Lemma long_overread : mparse allocated no_buffer (long 127) = UB.
Proof. vm_compute. reflexivity. Qed.

(* One letter less, or one more, and all is well. *)
Lemma long_around : (exists t b, mparse allocated no_buffer (long 126) = Ok (Built t, b)) /\
  (exists t b, mparse allocated no_buffer (long 128) = Ok (Built t, b)).
Proof. split; do 2 eexists; vm_compute; reflexivity. Qed.

Lemma no_buffer_idle : idle no_buffer.
Proof. split; [reflexivity|left; reflexivity]. Qed.

Lemma line_126 : (length (line (long 126)) = 127)%nat.
Proof. vm_compute. reflexivity. Qed.

Lemma line_127 : (length (line (long 127)) = 128)%nat.
Proof. vm_compute. reflexivity. Qed.

(* The report of an error at the end of the input. *)
Lemma report_unwritten : parse allocated [] "a" = Ok (Rejected, []) /\
  exists b, mparse allocated no_buffer "a" = Ok (Failed (1, 2)%nat UB, b).
Proof. split; [vm_compute; reflexivity|]. eexists. vm_compute. reflexivity. Qed.

Lemma report_stale : exists b, mparse allocated no_buffer "<a --> b>" =
  Ok (Failed (1, 10)%nat (Ok [10; 32; 32; 32]), b).
Proof. eexists. vm_compute. reflexivity. Qed.

Lemma stale_elsewhere : ~ exists a z, fill "<a --> b>" = a ++ [10; 32; 32; 32] ++ z.
Proof.
  intros (a & z & E). vm_compute in E.
  do 10 (destruct a as [|? a]; [discriminate|injection E as _ E]).
  destruct a; discriminate.
Qed.

(* An error in the middle. *)
Lemma report_middle : exists b, mparse allocated no_buffer "<a -->} b>." =
  Ok (Failed (1, 7)%nat (Ok [125]), b).
Proof. eexists. vm_compute. reflexivity. Qed.

(* An error at a character outside of ASCII. *)
Lemma report_high : exists b, mparse allocated no_buffer (String (ascii_of_nat 195) "a. ") =
  Ok (Failed (1, 1)%nat UB, b).
Proof. eexists. vm_compute. reflexivity. Qed.

Lemma buffer_session : exists p q t b,
  msession allocated no_buffer ["<bird --> "; sample; "}"; long 126] =
    Ok ([Failed p q; Built sample_tree; Failed (1, 1)%nat (Ok [125]); Built t], b).
Proof. do 4 eexists. vm_compute. reflexivity. Qed.
