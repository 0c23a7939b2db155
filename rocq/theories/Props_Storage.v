(* Properties of the memory of the semantic actions *)
From Coq Require Import ZArith String Ascii List Bool Permutation.
From Verif Require Import Base Enums Term Parser Actions ActionsSpec ActionsCases Storage StorageSpec.
From Verif Require Import StorageFacts4 StorageFacts5 StorageFacts6 StorageCases.
From Verif Require Interning.
Import ListNotations.
Open Scope string_scope.
Open Scope Z_scope.
Open Scope list_scope.

(* ---- C108 ---- *)
(* Taking memory for what the usual compilers make of it, reading an input
   that is accepted never touches memory that is not or no longer there, and
   yields the value of Actions.v.  All that is left in memory are the parts of
   the task, and what was there before is as it was. *)
Theorem C108_memory : forall ord fresh room input trees rest st h,
  (match room with Some n => 1 <= n | None => True end)%nat ->
  parse room [] input = Ok (Accepted trees, rest) -> sound h ->
  match transform_all ord fresh st trees with
  | Ok (st', vs) => exists h' p tk l, evaluate false ord fresh st trees h = (h', Ok (st', p)) /\ vs = [VTask tk] /\
      sound h' /\ stored p (VTask tk) l /\ adds h h' l
  | Throw => exists h' l, evaluate false ord fresh st trees h = (h', Throw) /\ sound h' /\ adds h h' l
  | UB | OutOfFuel => True
  end.
Proof.
  exact (fun ord fresh room input trees rest st h R P S =>
           evaluate_accepted false ord fresh room input trees rest st h R P S (or_introl eq_refl)).
Qed.
Print Assumptions C108_memory.

Example C108_case : sound some_memory /\ evaluated false some_memory full = Some (6%nat, Ok true) /\
  exists trees rest st vs, parse allocated [] full = Ok (Accepted trees, rest) /\
    transform_all id_ord bump blank_state trees = Ok (st, vs).
Proof. exact (conj some_sound (conj full_blocks full_understood)). Qed.

(* ---- C109 ---- *)
(* A number that is too small for a double leaves five blocks behind. *)
Theorem C109_no_leak_refuted : exists input h st,
  serve false id_ord bump allocated blank_state [input] no_memory = (h, Ok (st, true)) /\ length (live h) = 5%nat.
Proof. exact (ex_intro _ tiny tiny_leaks). Qed.
Print Assumptions C109_no_leak_refuted.

(* Missing: inputs on which an exception is thrown.  Whatever inputs are read
   otherwise, accepted or not, the memory is in the end as it was before. *)
Theorem C109_no_leak_partial : forall ord fresh room, (match room with Some n => 1 <= n | None => True end)%nat ->
  forall inputs st st' left thrown h, pending st = [] -> sound h ->
  history ord fresh room st [] inputs = Ok (st', left, thrown) ->
  exists h' lost, serve false ord fresh room st inputs h = (h', Ok (st', thrown)) /\ sound h' /\ adds h h' lost /\
    (thrown = false -> lost = []).
Proof.
  exact (fun ord fresh room R inputs st st' left thrown h W S =>
           serve_memory ord fresh room R inputs st [] st' left thrown h (or_introl W) S eq_refl).
Qed.
Print Assumptions C109_no_leak_partial.

Example C109_case : sound some_memory /\ pending blank_state = [] /\
  (exists st left, history id_ord bump allocated blank_state [] [full; "<a"; plain] = Ok (st, left, false)) /\
  exists h st, serve false id_ord bump allocated blank_state [full; "<a"; plain] some_memory = (h, Ok (st, false)) /\
    length (live h) = 1%nat.
Proof. exact (conj some_sound (conj blank_pending (conj session_told session_served))). Qed.

(* ---- C110 ---- *)
(* By the letter of the standard every input with a tense or a truth value has
   no defined meaning, since its pair is read as a pair of another type. *)
Theorem C110_types_refuted :
  (forall ord fresh room input trees rest st st' vs h,
     (match room with Some n => 1 <= n | None => True end)%nat ->
     parse room [] input = Ok (Accepted trees, rest) -> sound h ->
     (exists t, In t trees /\ mentions marked t) ->
     transform_all ord fresh st trees = Ok (st', vs) ->
     snd (evaluate true ord fresh st trees h) = UB) /\
  exists input trees rest st' vs, parse allocated [] input = Ok (Accepted trees, rest) /\
    (exists t, In t trees /\ mentions marked t) /\ transform_all id_ord bump blank_state trees = Ok (st', vs).
Proof.
  exact (conj evaluate_undefined
    (match full_understood with ex_intro _ t (ex_intro _ r (ex_intro _ st (ex_intro _ vs (conj P T)))) =>
       ex_intro _ full (ex_intro _ t (ex_intro _ r (ex_intro _ st (ex_intro _ vs (conj P (conj (full_says t r P) T)))))) end)).
Qed.
Print Assumptions C110_types_refuted.

(* Missing: inputs with a tense or a truth value. *)
Theorem C110_types_partial : forall ord fresh room input trees rest st h,
  (match room with Some n => 1 <= n | None => True end)%nat ->
  parse room [] input = Ok (Accepted trees, rest) -> sound h ->
  (forall t, In t trees -> ~ mentions marked t) ->
  match transform_all ord fresh st trees with
  | Ok (st', vs) => exists h' p tk l, evaluate true ord fresh st trees h = (h', Ok (st', p)) /\ vs = [VTask tk] /\
      sound h' /\ stored p (VTask tk) l /\ adds h h' l
  | Throw => exists h' l, evaluate true ord fresh st trees h = (h', Throw) /\ sound h' /\ adds h h' l
  | UB | OutOfFuel => True
  end.
Proof.
  exact (fun ord fresh room input trees rest st h R P S U =>
           evaluate_accepted true ord fresh room input trees rest st h R P S (or_intror U)).
Qed.
Print Assumptions C110_types_partial.

Example C110_case : sound some_memory /\ evaluated true some_memory plain = Some (6%nat, Ok true) /\
  exists trees rest st vs, parse allocated [] plain = Ok (Accepted trees, rest) /\
    transform_all id_ord bump blank_state trees = Ok (st, vs).
Proof. exact (conj some_sound (conj plain_blocks plain_understood)). Qed.

(* ---- C111 ---- *)
(* By the letter of the standard no task made by the parser can be released:
   its sentence is deleted as a Sentence, a class without virtual destructor
   that it is only derived from. *)
Theorem C111_release_refuted :
  (forall h h' p tk l, sound h' -> stored p (VTask tk) l -> adds h h' l -> snd (release true p h') = UB) /\
  exists h h' p tk l, sound h' /\ stored p (VTask tk) l /\ adds h h' l.
Proof.
  exact (conj release_undefined
    (match task_stored with ex_intro _ p (ex_intro _ tk (ex_intro _ l (ex_intro _ h (conj T (conj So A))))) =>
       ex_intro _ some_memory (ex_intro _ h (ex_intro _ p (ex_intro _ tk (ex_intro _ l (conj So (conj T A)))))) end)).
Qed.
Print Assumptions C111_release_refuted.

(* Missing: the letter of the standard.  With what the usual compilers make of
   it exactly the parts of the task are given back. *)
Theorem C111_release_partial : forall h h' p tk l, sound h' -> stored p (VTask tk) l -> adds h h' l ->
  exists h'', release false p h' = (h'', Ok tt) /\ sound h'' /\ Permutation (live h'') (live h).
Proof. exact release_back. Qed.
Print Assumptions C111_release_partial.

Example C111_case : exists p tk l h, stored p (VTask tk) l /\ sound h /\ adds some_memory h l.
Proof. exact task_stored. Qed.
