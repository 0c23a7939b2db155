(* Terms that can be printed and read back. *)
From Coq Require Import ZArith String Ascii List Bool Reals.
From Flocq Require Import Core BinarySingleNaN.
From Verif Require Import Base Enums Term Compound Float Actions ActionsSpec PrinterSpec Forms Printer.
From Verif Require Interning Evidence Truth.
Import ListNotations.
Open Scope list_scope.
Local Open Scope Z_scope.

(* How many components a compound can be written with. *)
Definition arity (c : connector) (n : nat) : Prop :=
  match c with
  | Negation => n = 1%nat
  | ExtensionalDifference | IntensionalDifference => n = 2%nat
  | Product | ExtensionalImage | IntensionalImage | ExtensionalSet | IntensionalSet => (1 <= n)%nat
  | Conjunction | Disjunction | ParallelEvents | SequentialEvents
  | IntensionalIntersection | ExtensionalIntersection => (2 <= n)%nat
  | CList => False
  end.

(* No statement or compound shares its key with a name (see C70); statements
   have the copulas that terms can have (see C56); compounds are what building
   them again gives. *)
Inductive legible ord (w : Interning.world) : term -> Prop :=
  | G_atom a s : handed_out w s a -> plain s -> legible ord w (Atom false a)
  | G_variable k i : 0 <= i -> legible ord w (Var k i)
  | G_interval n : 0 <= n <= 2147483647 -> legible ord w (Itv n)
  | G_statement c s p : dictionary_of (Interning.tab w) (key (Stmt c s p)) = None ->
      ~ wraps_subject c -> ~ wraps_predicate c -> legible ord w s -> legible ord w p -> legible ord w (Stmt c s p)
  | G_compound c l : dictionary_of (Interning.tab w) (key (Comp c l)) = None ->
      arity c (length l) -> compound ord true c l = Ok (Comp c l) -> Forall (legible ord w) l -> legible ord w (Comp c l).

(* The numbers of the variables of a kind, from left to right. *)
Fixpoint numbers (k : vkind) (t : term) : list Z :=
  match t with
  | Var k' i => if vk_eqb k' k then [i] else []
  | Atom _ _ | Itv _ => []
  | Stmt _ s p => numbers k s ++ numbers k p
  | Comp _ l => concat (map (numbers k) l)
  end.

(* Variables are numbered from left to right: in front of a variable there are
   all those of its kind with smaller numbers. *)
Definition left_to_right (t : term) : Prop :=
  forall k before i after, numbers k t = before ++ i :: after -> 0 <= i /\ forall j, 0 <= j < i -> In j before.

(** * Tasks *)

(* Numbers from 0 to 1, a zero without sign. *)
Definition unit_value {prec emax} (x : binary_float prec emax) : Prop :=
  is_finite x = true /\ Bsign x = false /\ (B2R x <= 1)%R.

(* Tasks whose numbers, when rounded, are numerals of the grammar: a confidence
   is not shown as 0.000 or 1.000, a durability not as 0.00 or 1.00. *)
Record showable (tk : task) : Prop := {
  show_truth : punct (sentence_of tk) = Judgement \/ punct (sentence_of tk) = Goal ->
    exists v, truth_of (sentence_of tk) = Some v /\ unit_value (Truth.fr ieee v : float32) /\
      is_finite (Truth.co ieee v : float32) = true /\ (1 / 2000 < B2R (Truth.co ieee v : float32) < 1999 / 2000)%R;
  show_priority : unit_value (priority (budget_of tk));
  show_durability : is_finite (durability (budget_of tk)) = true /\
    (56 / 10000 <= B2R (durability (budget_of tk)) <= 9944 / 10000)%R;
  show_quality : unit_value (quality (budget_of tk))
}.

Definition near_by {prec emax} {prec' emax'} (x : binary_float prec emax) (y : binary_float prec' emax') (d : R) : Prop :=
  is_finite y = true /\ (Rabs (B2R y - B2R x) <= d)%R.

(* What is read after printing: the same content and punctuation; eternal or
   not as before, an event at the time the printed marker stands for; numbers
   as near as the printed places let expect. *)
Record similar (now : Evidence.store) (tk tk' : task) : Prop := {
  similar_content : content (sentence_of tk') = content (sentence_of tk);
  similar_punct : punct (sentence_of tk') = punct (sentence_of tk);
  similar_eternal : Evidence.is_eternal (stamp_of (sentence_of tk')) = Evidence.is_eternal (stamp_of (sentence_of tk));
  similar_tense : match Evidence.tense_of cfg_temporal_duration now (stamp_of (sentence_of tk)) with
    | Evidence.Past => Evidence.t_occurrence (stamp_of (sentence_of tk')) = -5
    | Evidence.Present => Evidence.t_occurrence (stamp_of (sentence_of tk')) = 0
    | Evidence.Future => Evidence.t_occurrence (stamp_of (sentence_of tk')) = 5
    | Evidence.Eternal => True
    end;
  similar_truth : match punct (sentence_of tk) with
    | Judgement | Goal => exists v v', truth_of (sentence_of tk) = Some v /\ truth_of (sentence_of tk') = Some v' /\
        near_by (Truth.fr ieee v : float32) (Truth.fr ieee v' : float32) (501 / 1000000) /\
        near_by (Truth.co ieee v : float32) (Truth.co ieee v' : float32) (501 / 1000000) /\
        Truth.kk ieee v' = literal 1 1
    | _ => truth_of (sentence_of tk') = None
    end;
  similar_priority : near_by (priority (budget_of tk)) (priority (budget_of tk')) (551 / 100000);
  similar_durability : near_by (durability (budget_of tk)) (durability (budget_of tk')) (551 / 100000);
  similar_quality : near_by (quality (budget_of tk)) (quality (budget_of tk')) (551 / 100000)
}.
