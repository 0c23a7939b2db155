(* Properties of evidential bases and stamps: C36-C44, C86. *)
From Coq Require Import ZArith List Bool.
From Verif Require Import Base Hash Evidence EvidenceSpec EvidenceFacts EvidenceFacts2 EvidenceFacts3 EvidenceFacts4 EvidenceCases.
Import ListNotations.
Local Open Scope Z_scope.

(* ---- C36 ---- *)
Theorem C36_overlap : forall maximum duration st b other,
  reached maximum duration st ->
  exists r, is_overlaped st b other = Ok r /\
    (r = true <-> exists x, In x (ids st b) /\ In x (ids st other)).
Proof. exact reached_overlap. Qed.
Print Assumptions C36_overlap.

Example C36_case : ids (after3 10) 1 = [1; 2; 3] /\ ids (after3 10) 2 = [3; 4] /\
  is_overlaped (after3 10) 1 2 = Ok true /\ is_overlaped (after3 10) 1 3 = Ok false.
Proof. repeat split. Qed.

(* ---- C37 ---- *)
(* Termination and bounds, whatever sets the three bases share *)
Theorem C37_interleave_ends : forall maximum duration st b b1 b2,
  reached maximum duration st -> made st b ->
  exists st', interleave3 maximum st b b1 b2 = Ok st' /\
    (forall x, In x (ids st b) -> In x (ids st' b)) /\
    (forall x, In x (ids st' b) ->
       In x (ids st b) \/ In x (ids st b1) \/ In x (ids st b2)) /\
    (forall b', separate st b b' -> ids st' b' = ids st b').
Proof. exact reached_interleave. Qed.
Print Assumptions C37_interleave_ends.

(* The exact contents for a destination that shares no set with the sources *)
Theorem C37_interleave_exact : forall maximum duration st b b1 b2 st',
  reached maximum duration st -> 0 <= maximum ->
  separate st b b1 -> separate st b b2 ->
  size (ids st b1) + size (ids st b2) < two64 ->
  interleave3 maximum st b b1 b2 = Ok st' ->
  exists n1 n2,
    (n1 <= length (ids st b1))%nat /\ (n2 <= length (ids st b2))%nat /\
    (forall x, In x (ids st' b) <->
       In x (ids st b) \/ oldest n1 (ids st b1) x \/ oldest n2 (ids st b2) x) /\
    (let len := Z.min (size (ids st b1) + size (ids st b2)) maximum in
     len <= Z.of_nat (n1 + n2) <= len + 1 /\
     (Z.even maximum = true -> Z.of_nat (n1 + n2) = len)) /\
    ((n1 < n2)%nat -> n1 = length (ids st b1)) /\
    ((n2 < n1)%nat -> n2 = length (ids st b2)).
Proof. exact interleave_exact. Qed.
Print Assumptions C37_interleave_exact.

Theorem C37_interleave_all : forall maximum duration st b b1 b2 st',
  reached maximum duration st -> 0 <= maximum ->
  separate st b b1 -> separate st b b2 ->
  size (ids st b1) + size (ids st b2) < two64 ->
  size (ids st b1) + size (ids st b2) <= maximum ->
  interleave3 maximum st b b1 b2 = Ok st' ->
  forall x, In x (ids st' b) <->
    In x (ids st b) \/ In x (ids st b1) \/ In x (ids st b2).
Proof. exact interleave_all. Qed.
Print Assumptions C37_interleave_all.

Example C37_case : separate (after3 10) 3 1 /\ separate (after3 10) 3 2
  /\ ids (the_store (interleave3 2 (after3 10) 3 1 2)) 3 = [0; 1; 3]
  /\ ids (the_store (interleave3 20000 (after3 10) 3 1 2)) 3 = [0; 1; 2; 3; 4].
Proof. exact (conj (proj1 (proj2 (proj2 (proj2 (proj2 (proj2 (proj2 after3_ids)))))))
  (conj (proj1 (proj2 (proj2 (proj2 (proj2 (proj2 (proj2 (proj2 after3_ids)))))))) interleave_case)). Qed.

(* ---- C38 ---- *)
Theorem C38_extend_refuted :
  ~ (forall maximum duration st b other st', reached maximum duration st ->
       made st b -> made st other -> size (ids st b) + size (ids st other) <= maximum ->
       extend maximum st b other = Ok st' ->
       forall x, In x (ids st b) \/ In x (ids st other) -> In x (ids st' b)).
Proof. exact extend_loses. Qed.
Print Assumptions C38_extend_refuted.

(* Extending a base with itself empties it. *)
Theorem C38_extend_self_refuted : exists maximum duration st b st',
  reached maximum duration st /\ made st b /\ ids st b = [1; 2; 3] /\ size (ids st b) <= maximum /\
  extend maximum st b b = Ok st' /\ ids st' b = [].
Proof. exact extend_self_loses. Qed.
Print Assumptions C38_extend_self_refuted.

(* What is missing: the evidence of the base itself, which is lost. *)
Theorem C38_extend_partial : forall maximum duration st b other st',
  reached maximum duration st -> separate st b other ->
  size (ids st other) <= maximum -> maximum < two64 ->
  extend maximum st b other = Ok st' ->
  ids st' b = ids st other /\ ids st' other = ids st other.
Proof. exact extend_takes. Qed.
Print Assumptions C38_extend_partial.

Example C38_case : ids (the_store (extend 20000 (after3 10) 1 2)) 1 = [3; 4].
Proof. reflexivity. Qed.

(* ---- C39 ---- *)
Theorem C39_interleave2_refuted :
  ~ (forall maximum duration st b1 b2 st' b, reached maximum duration st ->
       made st b1 -> made st b2 -> interleave2 maximum st b1 b2 = Ok (st', b) ->
       forall x, In x (ids st' b) -> In x (ids st b1) \/ In x (ids st b2)).
Proof. exact interleave2_adds. Qed.
Print Assumptions C39_interleave2_refuted.

(* What is missing: the result also holds one id that belongs to neither. *)
Theorem C39_interleave2_partial : forall maximum duration st b1 b2,
  reached maximum duration st -> made st b1 -> made st b2 -> 0 <= maximum ->
  size (ids st b1) + size (ids st b2) < two64 ->
  exists st' b, interleave2 maximum st b1 b2 = Ok (st', b) /\
    (forall x, In x (ids st' b) ->
       x = input_id st \/ In x (ids st b1) \/ In x (ids st b2)) /\
    (size (ids st b1) + size (ids st b2) <= maximum ->
     forall x, In x (ids st b1) \/ In x (ids st b2) -> In x (ids st' b)) /\
    ids st' b1 = ids st b1 /\ ids st' b2 = ids st b2.
Proof. exact interleave2_ids. Qed.
Print Assumptions C39_interleave2_partial.

Example C39_case : reached 20000 5 (after3 10) /\ made (after3 10) 1 /\ made (after3 10) 2.
Proof. exact (conj (after3_reached 20000 5 10 now_ok)
  (conj (proj1 (proj2 (proj2 (proj2 after3_ids)))) (proj1 (proj2 (proj2 (proj2 (proj2 after3_ids))))))). Qed.

(* ---- C40 ---- *)
Theorem C40_nth_id : forall maximum duration (P : kind -> Prop) t n st,
  0 <= t < two64 -> steps maximum duration P (start t) n st ->
  snd (get_input_id st) = n mod two64.
Proof. exact input_ids. Qed.
Print Assumptions C40_nth_id.

Theorem C40_fresh_evidence : forall maximum duration st0 st1 s1 b1 n st2 st3 s2 b2 m st4,
  reached maximum duration st0 ->
  parsed_stamp duration st0 None = (st1, s1) -> evidential_base s1 = Some b1 ->
  steps maximum duration (sparing [set_at (bases st1 b1)]) st1 n st2 ->
  parsed_stamp duration st2 None = (st3, s2) -> evidential_base s2 = Some b2 ->
  steps maximum duration
    (sparing [set_at (bases st1 b1); set_at (bases st3 b2)]) st3 m st4 ->
  n + 1 < two64 ->
  is_overlaped st4 b1 b2 = Ok false.
Proof. exact parses_apart. Qed.
Print Assumptions C40_fresh_evidence.

Example C40_case : exists st1 s1 b1 st2 st3 s2 b2,
  parsed_stamp 5 (after3 10) None = (st1, s1) /\ evidential_base s1 = Some b1 /\
  steps 20000 5 (sparing [set_at (bases st1 b1)]) st1 1 st2 /\
  parsed_stamp 5 st2 None = (st3, s2) /\ evidential_base s2 = Some b2 /\
  ids st3 b1 = [1] /\ ids st3 b2 = [3].
Proof. exact apart_case. Qed.

(* ---- C41 ---- *)
Theorem C41_has_base_refuted :
  ~ (forall maximum duration st mk st' s, reached maximum duration st ->
       parsed_stamp duration st mk = (st', s) -> exists b, evidential_base s = Some b).
Proof. exact tensed_no_base. Qed.
Print Assumptions C41_has_base_refuted.

(* What is missing: sentences with a tense. *)
Theorem C41_has_base_partial : forall maximum duration st,
  reached maximum duration st ->
  exists st' s b, parsed_stamp duration st None = (st', s) /\
    evidential_base s = Some b /\ ids st' b = [input_id st] /\
    (forall c, made st c -> separate st' b c /\ ids st' c = ids st c).
Proof. exact untensed_base. Qed.
Print Assumptions C41_has_base_partial.

Example C41_case : reached 20000 5 (after3 10).
Proof. exact (after3_reached 20000 5 10 now_ok). Qed.

(* ---- C42 ---- *)
Theorem C42_hash_refuted :
  ~ (forall maximum duration st b, reached maximum duration st -> made st b ->
       snd (hash_of st b) = hash_container (ids st b)).
Proof. exact hash_stale. Qed.
Print Assumptions C42_hash_refuted.

(* What is missing: histories with extend, with interleaving into an existing
   base, and with bases that share a set. *)
Theorem C42_hash_partial : forall maximum duration t n st b,
  0 <= t < two64 -> steps maximum duration plain (start t) n st -> made st b ->
  snd (hash_of st b) = hash_container (ids st b).
Proof. exact plain_hash. Qed.
Print Assumptions C42_hash_partial.

Example C42_case : steps 20000 5 plain (start 10) 1 (after3 10)
  /\ snd (hash_of (add (fst (hash_of (after3 10) 1)) 1 7) 1) = hash_container [1; 2; 3; 7].
Proof. exact (conj (after3_steps 20000 5 10) hash_case). Qed.

(* ---- C43 ---- *)
Theorem C43_tense : forall duration st s,
  0 < duration -> 0 <= time st -> time st + duration < 2147483648 ->
  is_eternal s = false ->
  (tense_of duration st s = Past <-> t_occurrence s <= time st - duration) /\
  (tense_of duration st s = Present <->
     time st - duration < t_occurrence s < time st + duration) /\
  (tense_of duration st s = Future <-> time st + duration <= t_occurrence s).
Proof. exact tense_ranges. Qed.
Print Assumptions C43_tense.

Theorem C43_eternal : forall duration st s,
  tense_of duration st s = Eternal <-> is_eternal s = true.
Proof. exact tense_eternal. Qed.
Print Assumptions C43_eternal.

Example C43_case : let at_time t := Stamp None 10 t (-1) false in
  tense_of 5 (after3 10) (at_time 5) = Past /\ tense_of 5 (after3 10) (at_time 6) = Present /\
  tense_of 5 (after3 10) (at_time 14) = Present /\ tense_of 5 (after3 10) (at_time 15) = Future.
Proof. exact tense_case. Qed.

(* ---- C44 ---- *)
Theorem C44_markers_refuted :
  ~ (forall maximum duration st mk st' s, 0 < duration -> reached maximum duration st ->
       parsed_stamp duration st mk = (st', s) ->
       match mk with
       | None => tense_of duration st' s = Eternal
       | Some MPast => tense_of duration st' s = Past
       | Some MPresent => tense_of duration st' s = Present
       | Some MFuture => tense_of duration st' s = Future
       | Some (MTime _) => True
       end).
Proof. exact marker_moves. Qed.
Print Assumptions C44_markers_refuted.

(* What is missing: the present marker from time duration on and the future
   marker from time 1 on, where the tense is another one. *)
Theorem C44_markers_partial : forall duration st,
  0 < duration -> 0 <= time st -> time st + duration < 2147483648 ->
  let tense_after mk :=
    let '(st', s) := parsed_stamp duration st mk in tense_of duration st' s in
  tense_after None = Eternal /\
  tense_after (Some MPast) = Past /\
  (tense_after (Some MPresent) = Present <-> time st < duration) /\
  (tense_after (Some MFuture) = Future <-> time st = 0).
Proof. exact parsed_tenses. Qed.
Print Assumptions C44_markers_partial.

Example C44_case : time (after3 3) = 3 /\ time (after3 3) + 5 < 2147483648.
Proof. split; reflexivity. Qed.

(* ---- C86 ---- *)
Theorem C86_extend_stamp : forall maximum duration st s other,
  reached maximum duration st -> evidential_base s = None -> made st other ->
  0 <= maximum -> size (ids st other) < two64 ->
  exists st' s' b, extend_evidential_base maximum st s other = Ok (st', s') /\
    evidential_base s' = Some b /\
    ids st' b = firstn (Z.to_nat maximum) (ids st other) /\
    ids st' other = ids st other /\
    t_occurrence s' = t_occurrence s /\ t_creation s' = t_creation s /\
    t_put s' = t_put s /\ is_eternal s' = is_eternal s /\
    (forall c, made st c -> separate st' b c).
Proof. exact extend_stamp. Qed.
Print Assumptions C86_extend_stamp.

Example C86_case : exists st' s',
  extend_evidential_base 20000 (after3 10) (Stamp None 10 0 (-1) false) 1
  = Ok (st', s') /\ ids st' 4 = [1; 2; 3] /\ evidential_base s' = Some 4.
Proof. exact extend_stamp_case. Qed.

(* ---- C195 ---- *)
(* The clock is an unsigned long, the time of a stamp an int. *)
Theorem C195_clock_refuted : exists st, 0 <= time st < two64 /\ t_creation (snd (stamp_bool st true)) <> time st.
Proof. exact stamps_clock_no. Qed.
Print Assumptions C195_clock_refuted.

(* Missing: clocks beyond 2^31. *)
Theorem C195_clock_partial : forall st, 0 <= time st < 2147483648 ->
  (forall eternal, t_creation (snd (stamp_bool st eternal)) = time st) /\
  (forall n, t_creation (snd (stamp_int st n)) = time st) /\
  (forall duration mk, t_creation (snd (parsed_stamp duration st mk)) = time st).
Proof. exact stamps_clock. Qed.
Print Assumptions C195_clock_partial.

Example C195_case : 0 <= time (after3 10) < 2147483648.
Proof. split; [discriminate|reflexivity]. Qed.

(* For any clock: the int nearest to it modulo 2^32, and the rest as given. *)
Theorem C195_stamps_partial : forall st,
  (forall eternal st' s, stamp_bool st eternal = (st', s) ->
     t_put s = -1 /\ t_occurrence s = t_creation s /\ is_eternal s = eternal /\
     (t_creation s - time st) mod 4294967296 = 0 /\ - 2147483648 <= t_creation s < 2147483648) /\
  (forall n st' s, stamp_int st n = (st', s) ->
     t_put s = -1 /\ t_occurrence s = n /\ is_eternal s = false /\
     (t_creation s - time st) mod 4294967296 = 0 /\ - 2147483648 <= t_creation s < 2147483648) /\
  (forall duration n st' s, parsed_stamp duration st (Some (MTime n)) = (st', s) ->
     t_put s = -1 /\ t_occurrence s = n /\ is_eternal s = false /\
     (t_creation s - time st) mod 4294967296 = 0 /\ - 2147483648 <= t_creation s < 2147483648).
Proof. exact stamps_made. Qed.
Print Assumptions C195_stamps_partial.

Theorem C195_eternalize_partial : forall s, is_eternal (eternalize s) = true /\
  evidential_base (eternalize s) = evidential_base s /\ t_creation (eternalize s) = t_creation s /\
  t_occurrence (eternalize s) = t_occurrence s /\ t_put (eternalize s) = t_put s.
Proof. exact eternalize_keeps. Qed.
Print Assumptions C195_eternalize_partial.

Theorem C195_extending_partial : forall maximum st s other st' s',
  extend_evidential_base maximum st s other = Ok (st', s') ->
  is_eternal s' = is_eternal s /\ t_creation s' = t_creation s /\ t_occurrence s' = t_occurrence s /\
  t_put s' = t_put s /\ time st' = time st.
Proof. exact extending_keeps. Qed.
Print Assumptions C195_extending_partial.

Example C195_extending_case : exists st' s',
  extend_evidential_base 20000 (after3 10) (Stamp (Some 1) 10 10 (-1) true) 2 = Ok (st', s').
Proof. exact extending_case. Qed.
