(* Instances for the members that are not initialised. *)
From Coq Require Import ZArith String Ascii List Bool Lia.
From Verif Require Import Base Maps Tables Parser ParserSpec Nodes NodesSpec NodesCases Fresh FreshSpec FreshFacts FreshFacts2.
From Verif Require Buffer.
Import ListNotations.
Open Scope string_scope.
Open Scope list_scope.
Open Scope Z_scope.

Lemma delay_differs : exists input d d' tree left left',
  plain (dparse allocated d [] input) = Ok (Rejected, left) /\
  plain (dparse allocated d' [] input) = Ok (Accepted tree, left').
Proof.
  destruct delay_matters as (tree & kept & _ & E0 & E3 & _).
  exists "]) <a --> b>.", 0, 3, tree, [], kept. unfold plain. rewrite E0, E3. split; reflexivity.
Qed.

Lemma delay_case : (-7 < 3 \/ 23 + 20 * Z.of_nat (0 + length (line "<a --> b>.")) < -7) /\
  23 + 20 * Z.of_nat (0 + length (line "<a --> b>.")) < 100000 /\
  dsession allocated 2 [] ["]) a."; "a."] = session allocated [] ["]) a."; "a."] /\
  dsession allocated 3 [] ["]) a."; "a."] <> session allocated [] ["]) a."; "a."].
Proof.
  split; [left; lia|]. split; [vm_compute; reflexivity|]. split; [apply session_away; lia|].
  vm_compute. discriminate.
Qed.

Lemma bufend_matters : forall room k input, (0 < k)%nat ->
  Buffer.mparse room (stale_buffer k) input = UB /\
  Buffer.mparse room (stale_buffer 0) input = Buffer.mparse room Buffer.no_buffer input.
Proof. intros room k input H. split; [exact (stale_buffer_ub room k input H)|reflexivity]. Qed.

Lemma pointers_matter : forall room left input h, room <> Some O -> sound h ->
  (forall x a, stale x h -> snd (first_read (Some x) a room left input h) = UB) /\
  (forall a kept, stale a h -> parse room left input = Ok (Rejected, kept) ->
     snd (first_read None (Some a) room left input h) = UB) /\
  (forall a trees kept, parse room left input = Ok (Accepted trees, kept) ->
     first_read None a room left input h = pread room left input h) /\
  first_read None None room left input h = pread room left input h.
Proof.
  intros room left input h R S0. split; [|split; [|split]].
  - intros x a H. exact (stale_read x a room left input h R S0 H).
  - intros a kept H E. exact (stale_ast a room left input h kept R S0 H E).
  - intros a trees kept E. exact (accepted_anyway a room left input h trees kept R S0 E).
  - exact (null_anyway room left input h R S0).
Qed.

Lemma pointers_case : allocated <> Some O /\ sound some_memory /\ stale 5 some_memory /\
  (exists kept, parse allocated [] "<a --> b" = Ok (Rejected, kept)) /\
  exists trees kept, parse allocated [] told = Ok (Accepted trees, kept).
Proof.
  split; [discriminate|]. split; [exact some_sound|]. split; [split; [reflexivity|reflexivity]|].
  split; [eexists; vm_compute; reflexivity|].
  destruct told_accepted as (trees & E & _). exists trees, []. exact E.
Qed.
