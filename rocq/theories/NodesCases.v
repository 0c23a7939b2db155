(* Concrete cases for the memory of the syntax tree *)
From Coq Require Import ZArith String Ascii List Bool Lia Permutation.
From Verif Require Import Base Parser ParserSpec Nodes NodesSpec NodesFacts3.
Import ListNotations.
Open Scope string_scope.
Open Scope list_scope.
Open Scope Z_scope.

(* One block of somebody else's. *)
Definition some_memory : heap := Heap 8 [(3, BText "kept")].

Lemma some_sound : sound some_memory.
Proof. split; [repeat constructor; intros []|]. intros a b [E|[]]. injection E as <- <-. reflexivity. Qed.

Lemma some_room : allocated <> Some O.
Proof. discriminate. Qed.

Definition told : string := "$0.5$ <(*, a, {b, c}) --> d>. :|: %0.9%".

(* How many blocks there are in the end. *)
Definition parsed (input : string) : nat * bool :=
  let '(h, r) := pparse allocated [] input some_memory in
  (length (live h), match r with Ok (Some _, []) => true | _ => false end).

Lemma told_parsed : parsed told = (30%nat, true).
Proof. vm_compute. reflexivity. Qed.

Lemma told_accepted : exists trees, parse allocated [] told = Ok (Accepted trees, []) /\
  list_sum (map blocks_of trees) = 29%nat.
Proof. eexists. split; vm_compute; reflexivity. Qed.

Lemma session_accepted : exists os, session allocated [] [told; "<a --> b>?"] = Ok (os, []) /\
  length os = 2%nat /\ Forall (fun o => o <> Rejected) os.
Proof. eexists. split; [vm_compute; reflexivity|]. split; [reflexivity|]. repeat (constructor; try discriminate). Qed.

Lemma nothing_sound : sound (Heap 0 []).
Proof. split; [constructor|]. intros a b []. Qed.

Lemma lost_ever n : exists inputs h os, length inputs = n /\
  preads allocated [] inputs (Heap 0 []) = (h, Ok (os, [])) /\ length (live h) = (3 * n)%nat.
Proof.
  destruct (preads_lose n (Heap 0 []) nothing_sound) as (h & E & _ & L).
  exists (repeat "a b" n), h, (repeat Rejected n). split; [apply repeat_length|]. split; [exact E|].
  rewrite L. cbn [length live]. lia.
Qed.

Lemma halfway_lost : exists h, pread allocated [] "<a --> b" some_memory = (h, Ok (Rejected, [])) /\ length (live h) = 8%nat.
Proof. eexists. split; [vm_compute; reflexivity|]. vm_compute. reflexivity. Qed.

Lemma halfway_rejected : parse allocated [] "<a --> b" = Ok (Rejected, []) /\ parse allocated [] "<" = Ok (Rejected, []).
Proof. split; vm_compute; reflexivity. Qed.

Lemma start_lost : exists h, pread allocated [] "<" some_memory = (h, Ok (Rejected, [])) /\ length (live h) = 1%nat.
Proof. eexists. split; [vm_compute; reflexivity|]. vm_compute. reflexivity. Qed.
