(* Concrete programs for the properties of the units. *)
From Coq Require Import ZArith List Bool Lia.
From Verif Require Import Base Hash Evidence EvidenceSpec Units UnitsSpec UnitsFacts.
Import ListNotations.
Local Open Scope Z_scope.

(* Everything put in place: each unit uses its own copies. *)
Definition inlined (s : Z) : Z := s.

Lemma shared_evidence :
  ~ (forall maximum duration copy d0 x0 s1 x1 p1 b1 d x2 s2 x3 p2 b2 u,
      goes maximum duration copy any anywhere first_units d0 x0 ->
      read_stamp copy duration x0 s1 None = (x1, p1) -> evidential_base p1 = Some b1 ->
      goes maximum duration copy (sparing [set_at (bases (memory x1) b1)]) anywhere x1 d x2 ->
      read_stamp copy duration x2 s2 None = (x3, p2) -> evidential_base p2 = Some b2 ->
      (forall v, d v + 1 < two64) -> is_overlaped (look x3 u) b1 b2 = Ok false).
Proof.
  intros H.
  destruct (read_stamp inlined 5 first_units 1 None) as [x1 p1] eqn:R1.
  destruct (read_stamp inlined 5 x1 2 None) as [x2 p2] eqn:R2.
  specialize (H 20000 5 inlined (fun _ => 0) first_units 1 x1 p1 1 (fun _ => 0) x1 2 x2 p2 2 0).
  assert (X : is_overlaped (look x2 0) 1 2 = Ok false).
  { apply H; try assumption; try constructor; try reflexivity.
    - unfold read_stamp in R1. injection R1 as _ <-. reflexivity.
    - unfold read_stamp in R1, R2. injection R1 as <- _. injection R2 as _ <-. reflexivity. }
  unfold read_stamp in R1, R2. injection R1 as <- _. injection R2 as <- _. vm_compute in X. discriminate.
Qed.

Definition at_zero : stamp := Stamp None 0 0 (-1) false.

Lemma clock_unseen :
  ~ (forall maximum duration copy d x u t s p,
      goes maximum duration copy any anywhere first_units d x -> 0 < duration -> 0 <= t -> t + duration < 2147483648 ->
      is_eternal p = false ->
      (shown_tense copy duration (write x u t) s p = Past <-> t_occurrence p <= t - duration)).
Proof.
  intros H. specialize (H 20000 5 inlined (fun _ => 0) first_units 1 100 2 at_zero (goes_none _ _ _ _ _ _)).
  assert (X : shown_tense inlined 5 (write first_units 1 100) 2 at_zero = Past) by (apply H; cbn; try lia; reflexivity).
  vm_compute in X. discriminate.
Qed.

(* Three sentences read at two places that use one copy, and one at another. *)
Definition joined (s : Z) : Z := if s =? 3 then 3 else 1.

Lemma joined_case : exists x0 d0 x1 p1 d x2 x3 p2,
  goes 20000 5 joined any anywhere first_units d0 x0 /\ d0 1 = 1 /\ d0 3 = 1
  /\ read_stamp joined 5 x0 1 None = (x1, p1) /\ evidential_base p1 = Some 3
  /\ goes 20000 5 joined (sparing [set_at (bases (memory x1) 3)]) anywhere x1 d x2 /\ d 1 = 1
  /\ read_stamp joined 5 x2 2 None = (x3, p2) /\ evidential_base p2 = Some 5
  /\ ids (look x3 0) 3 = [1] /\ ids (look x3 0) 5 = [3] /\ clock x2 1 = 7.
Proof.
  set (a := keep first_units 1 (fst (stamp_bool (look first_units 1) true))).
  set (b := keep a 3 (fst (stamp_bool (look a 3) true))).
  set (b7 := write b 1 7).
  destruct (read_stamp joined 5 b7 1 None) as [x1 p1] eqn:R1.
  set (c := keep x1 1 (fst (stamp_bool (look x1 1) true))).
  destruct (read_stamp joined 5 c 2 None) as [x3 p2] eqn:R2.
  exists b7, (fun u => if u =? joined 3 then (if u =? joined 1 then 0 + 1 else 0) + 1 else (if u =? joined 1 then 0 + 1 else 0)), x1, p1,
    (fun u => if u =? joined 1 then 0 + 1 else 0), c, x3, p2.
  assert (G : goes 20000 5 joined any anywhere first_units
    (fun u => if u =? joined 3 then (if u =? joined 1 then 0 + 1 else 0) + 1 else (if u =? joined 1 then 0 + 1 else 0)) b7).
  { apply goes_write; [|exact I|unfold two64; lia].
    apply (goes_work 20000 5 joined any anywhere first_units (fun u => if u =? joined 1 then 0 + 1 else 0) a 3 Make 1); [|exact I|discriminate|].
    - apply (goes_work 20000 5 joined any anywhere first_units (fun _ => 0) first_units 1 Make 1); [constructor|exact I|discriminate|].
      eapply (step_stamp_bool _ _ _ true). unfold stamp_bool, get_input_id, new_base_of, stamp5. reflexivity.
    - eapply (step_stamp_bool _ _ _ true). unfold stamp_bool, get_input_id, new_base_of, stamp5. reflexivity. }
  split; [exact G|]. split; [reflexivity|]. split; [reflexivity|]. split; [exact R1|].
  split; [unfold read_stamp in R1; injection R1 as _ <-; reflexivity|].
  split.
  { apply (goes_work 20000 5 joined _ anywhere x1 (fun _ => 0) x1 1 Make 1); [constructor|exact I|discriminate|].
    eapply (step_stamp_bool _ _ _ true). unfold stamp_bool, get_input_id, new_base_of, stamp5. reflexivity. }
  split; [reflexivity|]. split; [exact R2|].
  unfold read_stamp in R1, R2. injection R1 as <- <-. injection R2 as <- <-.
  vm_compute. auto.
Qed.
