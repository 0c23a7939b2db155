(* Theorems about the classes of sentences *)
From Coq Require Import ZArith List Bool.
From Verif Require Import Base Float Truth Maps Term Kinds KindsSpec KindsFacts KindsFacts2 KindsCases.
From Verif Require Evidence Actions.
Import ListNotations.
Local Open Scope nat_scope.

(* ---- C193 ---- *)
(* A Sentence made as a judgement without truth value has none, and a judgement
   that was moved from has neither truth value nor stamp. *)
Theorem C193_kinds_refuted : forall m c t,
  (exists w s, run (start m) [(c, NewSentence t Actions.Judgement None None)] = Ok w /\
     look w 0 = Ok s /\ s_punct s = Actions.Judgement /\ s_truth s = None) /\
  (exists w s, run (start m) [(c, NewJudgement t None None); (c, Move 0)] = Ok w /\
     look w 0 = Ok s /\ s_punct s = Actions.Judgement /\ s_truth s = None /\ s_stamp s = None).
Proof. exact kinds_no. Qed.
Print Assumptions C193_kinds_refuted.

(* Missing: moves, Sentences made with a truth value that does not fit their
   kind, and truth values replaced. *)
Theorem C193_kinds_partial : forall m l w, run (start m) l = Ok w -> Forall careful (map snd l) ->
  forall n s, look w n = Ok s -> s_stamp s <> None /\ (carries (s_punct s) = true <-> s_truth s <> None).
Proof. exact kinds_careful. Qed.
Print Assumptions C193_kinds_partial.

Example C193_case : (exists w, run (start some_memory) program = Ok w) /\ Forall careful (map snd program).
Proof. exact (conj program_runs program_careful). Qed.

(* Missing: moves; truth values may be replaced by others, also those of
   questions. *)
Theorem C193_replaced_partial : forall m l w, run (start m) l = Ok w -> Forall replacing (map snd l) ->
  forall n s, look w n = Ok s -> s_stamp s <> None /\ (carries (s_punct s) = true -> s_truth s <> None).
Proof. exact kinds_replacing. Qed.
Print Assumptions C193_replaced_partial.

Example C193_replaced_case :
  Forall replacing (map snd (program ++ [(some_config, SetTruth 5 (Some 3))])) /\
  exists w, run (start some_memory) (program ++ [(some_config, SetTruth 5 (Some 3))]) = Ok w.
Proof. exact program_replacing. Qed.

(* Every sentence that nothing writes to has the term, kind, truth value and
   stamp it was made with, or the defaults of the configuration at that time. *)
Theorem C193_made_partial : forall m l1 c x l2 w, run (start m) (l1 ++ (c, x) :: l2) = Ok w ->
  makes x = true -> untouched (l1 ++ [(c, x)]) l2 (length (makings l1)) ->
  exists s, look w (length (makings l1)) = Ok s /\ as_asked c x w s.
Proof. exact sentence_kept. Qed.
Print Assumptions C193_made_partial.

Example C193_made_case : exists l1 l2,
  program = l1 ++ (some_config, NewJudgement bird (Some 9) None) :: l2 /\ length (makings l1) = 3 /\
  untouched (l1 ++ [(some_config, NewJudgement bird (Some 9) None)]) l2 3.
Proof. exact program_untouched. Qed.

(* ---- C194 ---- *)
(* A copy keeps the reference to the truth value of the original: it does not
   see its own truth value replaced, is empty when the original was moved from
   and is read after the end of the original. *)
Theorem C194_desire_refuted : forall m c t,
  (exists w, run (start m) [(c, NewGoal t None None); (c, Copy 0); (c, SetTruth 1 (Some 5))] = Ok w /\
     read_truth w 1 = Ok (Some 5) /\ read_desire w 1 = Ok (Some 0)) /\
  (exists w, run (start m) [(c, NewGoal t None None); (c, Move 0)] = Ok w /\
     read_truth w 1 = Ok (Some 0) /\ read_desire w 1 = Ok None) /\
  (exists w, run (start m) [(c, NewGoal t None None); (c, Copy 0); (c, Delete 0)] = Ok w /\
     read_truth w 1 = Ok (Some 0) /\ read_desire w 1 = UB).
Proof. exact desire_no. Qed.
Print Assumptions C194_desire_refuted.

(* What holds instead: the desire of any goal is the truth value of the first
   original, and undefined exactly when that is gone. *)
Theorem C194_original_partial : forall m l w, run (start m) l = Ok w -> forall n, living l n ->
  (forall r, comes_from l n r ->
     (living l r -> exists p, read_truth w r = Ok p /\ read_desire w n = Ok p) /\
     (~ living l r -> read_desire w n = UB)) /\
  ((forall r, ~ comes_from l n r) -> read_desire w n = UB).
Proof. exact desire_exact. Qed.
Print Assumptions C194_original_partial.

Example C194_case : (exists w, run (start some_memory) program = Ok w) /\
  living program 6 /\ comes_from program 6 1 /\ ~ living program 1.
Proof. exact (conj program_runs program_living). Qed.

(* Missing: goals that are copies. *)
Theorem C194_own_partial : forall m l w, run (start m) l = Ok w ->
  forall n t tr st, living l n -> nth_error (makings l) n = Some (NewGoal t tr st) ->
  exists p, read_truth w n = Ok p /\ read_desire w n = Ok p.
Proof. exact desire_own. Qed.
Print Assumptions C194_own_partial.

Example C194_own_case : nth_error (makings (firstn 8 program)) 1 = Some (NewGoal bird None None) /\
  living (firstn 8 program) 1 /\ exists w, run (start some_memory) (firstn 8 program) = Ok w.
Proof. exact goal_made. Qed.
