(* Properties of the iterators over components *)
From Coq Require Import ZArith String List Bool Permutation.
From Verif Require Import Base Maps Term Printer Iterators IteratorsSpec IteratorsFacts IteratorsFacts2 IteratorsFacts3 IteratorsCases.
Import ListNotations.
Open Scope string_scope.
Open Scope list_scope.
Open Scope Z_scope.

(* ---- C115 ---- *)
(* Without assignment and without using the value of x++, iterators behave as
   positions: the program sees the same, is undefined exactly when the program
   with positions is, and each variable owns exactly one block. *)
Theorem C115_positions : forall cs h p, sound h -> forallb plain p = true ->
  match ideal (View cs []) p with
  | Ok (v, out) => exists h' m l, run (Machine cs []) p h = (h', Ok (m, out)) /\ conts m = boxes v /\ sound h' /\
      held (vars m) (marks v) l /\ Permutation (live h') (l ++ live h)
  | UB => exists h', run (Machine cs []) p h = (h', UB)
  | _ => False
  end.
Proof. exact plain_programs. Qed.
Print Assumptions C115_positions.

Example C115_case : sound before /\ forallb plain walking = true /\
  exists v, ideal (View two []) walking = Ok (v, [Saw t2; Saw t1; Told false; Saw t3; Told false]) /\ marks v = [].
Proof. exact (conj before_sound (conj walking_plain walking_ideal)). Qed.

(* ---- C116 ---- *)
(* x = y makes two variables share a block, which both delete. *)
Theorem C116_assignment_refuted : exists cs p h v out h',
  forallb (fun i => match i with Post _ _ => false | _ => true end) p = true /\ sound h /\
  ideal (View cs []) p = Ok (v, out) /\ marks v = [] /\ run (Machine cs []) p h = (h', UB).
Proof.
  exact (match moving_bad with conj P (ex_intro _ v (ex_intro _ out (ex_intro _ h' E))) =>
    ex_intro _ two (ex_intro _ moving (ex_intro _ before (ex_intro _ v (ex_intro _ out (ex_intro _ h'
      (conj P (conj before_sound E))))))) end).
Qed.
Print Assumptions C116_assignment_refuted.

(* Missing: assignment of one variable to another.  A program that is defined
   until all its variables have left their scopes has none. *)
Theorem C116_assignment_partial : forall cs p h h' m out, sound h ->
  run (Machine cs []) p h = (h', Ok (m, out)) -> vars m = [] -> forall x y, In (Assign x y) p -> x = y.
Proof. exact assigning. Qed.
Print Assumptions C116_assignment_partial.

Example C116_case : sound before /\
  exists h' m, run (Machine two []) [Begin "x" 16; Assign "x" "x"; Read "x"; Drop "x"] before = (h', Ok (m, [Saw t1])) /\ vars m = [].
Proof. exact (conj before_sound standing). Qed.

(* ---- C117 ---- *)
(* The value of x++ is the position after the step. *)
Theorem C117_post_increment_refuted : exists cs p h v out h' m out', forallb unassigned p = true /\ sound h /\
  ideal (View cs []) p = Ok (v, out) /\ run (Machine cs []) p h = (h', Ok (m, out')) /\ out <> out'.
Proof. exact post_refuted. Qed.
Print Assumptions C117_post_increment_refuted.

(* Missing: the old position.  y++ behaves as ++y does, in every program
   without assignments. *)
Theorem C117_post_increment_partial : forall cs h p, sound h -> forallb unassigned p = true ->
  match ideal (View cs []) (flat_map stepped p) with
  | Ok (v, out) => exists h' m l, run (Machine cs []) p h = (h', Ok (m, out)) /\ conts m = boxes v /\ sound h' /\
      held (vars m) (marks v) l /\ Permutation (live h') (l ++ live h)
  | UB => exists h', run (Machine cs []) p h = (h', UB)
  | _ => False
  end.
Proof. exact programs. Qed.
Print Assumptions C117_post_increment_partial.

Example C117_case : sound before /\
  forallb unassigned [Begin "x" 16; Post "y" "x"; Next "y"; Read "x"; Read "y"; Drop "x"; Drop "y"] = true /\
  exists v, ideal (View two []) (flat_map stepped [Begin "x" 16; Post "y" "x"; Next "y"; Read "x"; Read "y"; Drop "x"; Drop "y"]) =
    Ok (v, [Saw t2; Saw t3]).
Proof. exact (conj before_sound post_case). Qed.

(* ---- C118 ---- *)
(* Blocks are deleted as what they are not. *)
Theorem C118_deleted_as_made_refuted : exists cs p h h' m out, sound h /\
  run (Machine cs []) p h = (h', Ok (m, out)) /\ odd h = 0%nat /\ odd h' = 1%nat.
Proof.
  exact (match odd_delete with ex_intro _ h' (ex_intro _ m E) =>
    ex_intro _ two (ex_intro _ _ (ex_intro _ before (ex_intro _ h' (ex_intro _ m (ex_intro _ [] (conj before_sound E)))))) end).
Qed.
Print Assumptions C118_deleted_as_made_refuted.

(* Missing: everything; every single delete is of the wrong type. *)
Theorem C118_deleted_as_made_partial : forall cs p h h' m out, sound h -> run (Machine cs []) p h = (h', Ok (m, out)) ->
  odd h' = (drops p + odd h)%nat.
Proof. exact deleting. Qed.
Print Assumptions C118_deleted_as_made_partial.

Example C118_case : sound before /\
  exists h' m out, run (Machine two []) walking before = (h', Ok (m, out)) /\ odd h' = 7%nat /\ vars m = [].
Proof. exact (conj before_sound walking_odd). Qed.

(* ---- C119 ---- *)
(* Both kinds of loops over a container, with a body that may throw, fold over
   its members in order and give their iterators back. *)
Theorem C119_loops : forall cs c k, lookup Z.eqb c cs = Some k -> forall A (f : A -> term -> res A) acc h, sound h ->
  (exists h', for_each cs c (fun it acc => mbind (deref cs it) (fun t => lift (f acc t))) acc h = (h', folded f (members k) acc) /\
    (folded f (members k) acc <> UB -> folded f (members k) acc <> OutOfFuel -> sound h' /\ live h' = live h)) /\
  (exists h', range_for cs c f acc h = (h', folded f (members k) acc) /\
    (folded f (members k) acc <> UB -> folded f (members k) acc <> OutOfFuel -> sound h' /\ Permutation (live h') (live h))) /\
  exists h', collect cs c h = (h', Ok (members k)) /\ sound h' /\ live h' = live h.
Proof.
  exact (fun cs c k T A f acc h S =>
    conj (looping cs c k T A f acc h S) (conj (ranging cs c k T A f acc h S) (collecting cs c k h T S))).
Qed.
Print Assumptions C119_loops.

Example C119_case : lookup Z.eqb 16 two = Some (Container true [t1; t2; t3]) /\ sound before /\
  folded greedy [t1; t2; t3] [] = Throw /\ folded greedy [t2; t1] [] = Ok [t2; t1].
Proof. exact (conj there_set (conj before_sound greedy_throws)). Qed.

(* ---- C120 ---- *)
(* The loop of the pretty-printer with its comparison against end() - 1 puts
   separators exactly between the texts, and gives all iterators back, however
   the terms are printed. *)
Theorem C120_separators : forall cs c k h colored interpret, lookup Z.eqb c cs = Some k -> sound h ->
  exists h', append_loop cs colored interpret c h = (h', append_strs colored interpret (members k)) /\
  (append_strs colored interpret (members k) <> UB -> append_strs colored interpret (members k) <> OutOfFuel ->
   sound h' /\ live h' = live h).
Proof. exact appending. Qed.
Print Assumptions C120_separators.

Example C120_case : lookup Z.eqb 16 two = Some (Container true [t1; t2; t3]) /\ sound before /\
  append_strs false (fun t => Ok (if (match t with Atom _ w => w | _ => 0 end =? 4096) then "A" else "B")) [t1; t2; t3] = Ok "A, B, B".
Proof. exact (conj there_set (conj before_sound appended)). Qed.

(* ---- C121 ---- *)
(* When the compound goes away during the loop, its members are read after
   their end. *)
Theorem C121_python_refuted : exists cs c k h n h', lookup Z.eqb c cs = Some k /\ sound h /\ py_for cs c (Some n) h = (h', UB).
Proof. exact py_bad_refuted. Qed.
Print Assumptions C121_python_refuted.

(* Missing: loops during which the compound goes away.  These are undefined;
   all others give the members in order, and the memory back. *)
Theorem C121_python_partial : forall cs c k h gone, lookup Z.eqb c cs = Some k -> sound h ->
  match gone with
  | Some n => if (n <=? length (members k))%nat then exists h', py_for cs c gone h = (h', UB)
              else exists h', py_for cs c gone h = (h', Ok (members k)) /\ sound h' /\ Permutation (live h') (live h)
  | None => exists h', py_for cs c gone h = (h', Ok (members k)) /\ sound h' /\ Permutation (live h') (live h)
  end.
Proof. exact pythonic. Qed.
Print Assumptions C121_python_partial.

Example C121_case : lookup Z.eqb 16 two = Some (Container true [t1; t2; t3]) /\ sound before.
Proof. exact (conj there_set before_sound). Qed.
