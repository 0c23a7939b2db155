(* Properties of the memory of the syntax tree *)
From Coq Require Import ZArith String Ascii List Bool Permutation.
From Verif Require Import Base Parser ParserSpec Nodes NodesSpec NodesFacts3 NodesCases.
Import ListNotations.
Open Scope string_scope.
Open Scope list_scope.
Open Scope Z_scope.

(* ---- C112 ---- *)
(* From any memory the parser with pointers ends as the one with trees does.
   When the input is accepted ast points to exactly its trees, linked in both
   directions, every node and every text in a block of its own; these blocks
   are all that is new.  Nothing else goes wrong than the parse stack. *)
Theorem C112_tree_in_memory : forall room left input h, room <> Some O -> sound h ->
  match parse room left input with
  | Ok (Accepted ts, kept) => exists h' p l, pparse room left input h = (h', Ok (Some p, kept)) /\ sound h' /\
      nodes_at None p ts l /\ Permutation (live h') (l ++ live h)
  | Ok (Rejected, kept) => exists h', pparse room left input h = (h', Ok (None, kept)) /\ sound h'
  | UB => exists h', pparse room left input h = (h', UB)
  | _ => False
  end.
Proof. exact pparse_memory. Qed.
Print Assumptions C112_tree_in_memory.

Example C112_case : allocated <> Some O /\ sound some_memory /\ parsed told = (30%nat, true) /\
  exists trees, parse allocated [] told = Ok (Accepted trees, []) /\ list_sum (map blocks_of trees) = 29%nat.
Proof. exact (conj some_room (conj some_sound (conj told_parsed told_accepted))). Qed.

(* ---- C113 ---- *)
(* Inputs that are accepted one after the other are looked through as Parser.v
   has them, and in the end every node has been freed exactly once: the memory
   is as it was before. *)
Theorem C113_tree_freed : forall room, room <> Some O -> forall inputs left h os kept, sound h ->
  session room left inputs = Ok (os, kept) -> Forall (fun o => o <> Rejected) os ->
  exists h', preads room left inputs h = (h', Ok (os, kept)) /\ sound h' /\ Permutation (live h') (live h).
Proof. exact preads_memory. Qed.
Print Assumptions C113_tree_freed.

Example C113_case : allocated <> Some O /\ sound some_memory /\
  exists os, session allocated [] [told; "<a --> b>?"] = Ok (os, []) /\ length os = 2%nat /\ Forall (fun o => o <> Rejected) os.
Proof. exact (conj some_room (conj some_sound session_accepted)). Qed.

(* ---- C114 ---- *)
(* Inputs that are rejected lose memory, as much as one likes. *)
Theorem C114_rejected_refuted : forall n, exists inputs h os, length inputs = n /\
  preads allocated [] inputs (Heap 0 []) = (h, Ok (os, [])) /\ length (live h) = (3 * n)%nat.
Proof. exact lost_ever. Qed.
Print Assumptions C114_rejected_refuted.

(* Missing: the nodes of the trees that lie on the parse stack when an input is
   given up.  Exactly these are lost, and nothing is when there are none. *)
Theorem C114_rejected_partial : forall room left input h c x kept, room <> Some O -> sound h ->
  parse room left input = Ok (Rejected, kept) -> reached room left input c -> step c = Ok (inr x) ->
  (exists h' lost, pread room left input h = (h', Ok (Rejected, kept)) /\ sound h' /\
    cells_at (map nodes (stack c)) lost /\ Permutation (live h') (lost ++ live h)) /\
  forall lost, cells_at (map nodes (stack c)) lost ->
    length lost = list_sum (map blocks_of (concat (map nodes (stack c)))) /\
    (lost = [] <-> concat (map nodes (stack c)) = []).
Proof.
  exact (fun room left input h c x kept R S P RC ST =>
    conj (lost_blocks room left input h c x kept R S P RC ST)
      (fun lost CA => conj (cells_weight _ lost CA) (cells_empty _ lost CA))).
Qed.
Print Assumptions C114_rejected_partial.

Example C114_case : sound some_memory /\
  (parse allocated [] "<a --> b" = Ok (Rejected, []) /\ parse allocated [] "<" = Ok (Rejected, [])) /\
  (exists h, pread allocated [] "<a --> b" some_memory = (h, Ok (Rejected, [])) /\ length (live h) = 8%nat) /\
  (exists h, pread allocated [] "<" some_memory = (h, Ok (Rejected, [])) /\ length (live h) = 1%nat).
Proof. exact (conj some_sound (conj halfway_rejected (conj halfway_lost start_lost))). Qed.
