(* Properties of the globals of the translation units: C173, C174. *)
From Coq Require Import ZArith List Bool.
From Verif Require Import Base Hash Evidence EvidenceSpec Units UnitsSpec UnitsFacts UnitsCases.
Import ListNotations.
Local Open Scope Z_scope.

(* ---- C173 ---- *)
Theorem C173_distinct_refuted :
  ~ (forall maximum duration copy d0 x0 s1 x1 p1 b1 d x2 s2 x3 p2 b2 u,
      goes maximum duration copy any anywhere first_units d0 x0 ->
      read_stamp copy duration x0 s1 None = (x1, p1) -> evidential_base p1 = Some b1 ->
      goes maximum duration copy (sparing [set_at (bases (memory x1) b1)]) anywhere x1 d x2 ->
      read_stamp copy duration x2 s2 None = (x3, p2) -> evidential_base p2 = Some b2 ->
      (forall v, d v + 1 < two64) -> is_overlaped (look x3 u) b1 b2 = Ok false).
Proof. exact shared_evidence. Qed.
Print Assumptions C173_distinct_refuted.

(* What is missing: sentences read with different copies of the counter from
   which equally many ids were taken before. *)
Theorem C173_exact_partial : forall maximum duration copy d0 x0 s1 x1 p1 b1 d x2 s2 x3 p2 b2 d' x4 u,
  goes maximum duration copy any anywhere first_units d0 x0 ->
  read_stamp copy duration x0 s1 None = (x1, p1) -> evidential_base p1 = Some b1 ->
  goes maximum duration copy (sparing [set_at (bases (memory x1) b1)]) anywhere x1 d x2 ->
  read_stamp copy duration x2 s2 None = (x3, p2) -> evidential_base p2 = Some b2 ->
  goes maximum duration copy (sparing [set_at (bases (memory x1) b1); set_at (bases (memory x3) b2)]) anywhere x3 d' x4 ->
  exists r, is_overlaped (look x4 u) b1 b2 = Ok r /\
    (r = true <-> d0 (copy s1) mod two64
       = (d0 (copy s2) + (if copy s2 =? copy s1 then 1 else 0) + d (copy s2)) mod two64).
Proof. exact units_overlap. Qed.
Print Assumptions C173_exact_partial.

Theorem C173_one_copy_partial : forall maximum duration copy d0 x0 s1 x1 p1 b1 d x2 s2 x3 p2 b2 d' x4 u,
  goes maximum duration copy any anywhere first_units d0 x0 ->
  read_stamp copy duration x0 s1 None = (x1, p1) -> evidential_base p1 = Some b1 ->
  goes maximum duration copy (sparing [set_at (bases (memory x1) b1)]) anywhere x1 d x2 ->
  read_stamp copy duration x2 s2 None = (x3, p2) -> evidential_base p2 = Some b2 ->
  goes maximum duration copy (sparing [set_at (bases (memory x1) b1); set_at (bases (memory x3) b2)]) anywhere x3 d' x4 ->
  copy s1 = copy s2 -> d (copy s2) + 1 < two64 -> is_overlaped (look x4 u) b1 b2 = Ok false.
Proof. exact same_counter. Qed.
Print Assumptions C173_one_copy_partial.

Example C173_case : exists x0 d0 x1 p1 d x2 x3 p2,
  goes 20000 5 joined any anywhere first_units d0 x0 /\ d0 1 = 1 /\ d0 3 = 1
  /\ read_stamp joined 5 x0 1 None = (x1, p1) /\ evidential_base p1 = Some 3
  /\ goes 20000 5 joined (sparing [set_at (bases (memory x1) 3)]) anywhere x1 d x2 /\ d 1 = 1
  /\ read_stamp joined 5 x2 2 None = (x3, p2) /\ evidential_base p2 = Some 5
  /\ ids (look x3 0) 3 = [1] /\ ids (look x3 0) 5 = [3] /\ clock x2 1 = 7.
Proof. exact joined_case. Qed.

(* ---- C174 ---- *)
Theorem C174_clock_refuted :
  ~ (forall maximum duration copy d x u t s p,
      goes maximum duration copy any anywhere first_units d x -> 0 < duration -> 0 <= t -> t + duration < 2147483648 ->
      is_eternal p = false ->
      (shown_tense copy duration (write x u t) s p = Past <-> t_occurrence p <= t - duration)).
Proof. exact clock_unseen. Qed.
Print Assumptions C174_clock_refuted.

(* What is missing: places that use the clock of another unit. *)
Theorem C174_own_partial : forall maximum duration copy (W : Z -> Prop) d x u t d' x' s p,
  goes maximum duration copy any anywhere first_units d x -> 0 < duration -> 0 <= t -> t + duration < 2147483648 ->
  goes maximum duration copy any W (write x u t) d' x' -> ~ W u -> copy s = u -> is_eternal p = false ->
  (shown_tense copy duration x' s p = Past <-> t_occurrence p <= t - duration)
  /\ (shown_tense copy duration x' s p = Present <-> t - duration < t_occurrence p < t + duration)
  /\ (shown_tense copy duration x' s p = Future <-> t + duration <= t_occurrence p).
Proof. exact own_clock. Qed.
Print Assumptions C174_own_partial.

(* A place whose clock nobody writes shows what was said, forever. *)
Theorem C174_unwritten_partial : forall maximum duration copy (W : Z -> Prop) d x s y s' mk y' p,
  0 < duration < 2147483648 -> goes maximum duration copy any W first_units d x -> ~ W (copy s) ->
  read_stamp copy duration y s' mk = (y', p) -> said duration mk (shown_tense copy duration x s p).
Proof. exact unwritten_clock. Qed.
Print Assumptions C174_unwritten_partial.

Example C174_case : exists x d, goes 20000 5 joined any (fun u => u = 1) first_units d x /\ clock x 1 = 7 /\ ~ joined 3 = 1.
Proof.
  exists (write first_units 1 7), (fun _ => 0). split; [|split; [reflexivity|discriminate]].
  apply goes_write; [constructor|reflexivity|split; [discriminate|reflexivity]].
Qed.
