(* Specification vocabulary for the memory of the semantic actions. *)
From Coq Require Import ZArith String List Bool Permutation.
From Verif Require Import Base Enums Term Float Truth Actions Storage.
From Verif Require Parser Evidence.
Import ListNotations.
Open Scope string_scope.
Open Scope Z_scope.
Open Scope list_scope.

(* A memory in which every block has its own address, below those to come. *)
Definition sound (h : heap) : Prop :=
  NoDup (map fst (live h)) /\ forall a b, In (a, b) (live h) -> a < top h.

(* A truth value that may be missing. *)
Inductive stored_truth : option Z -> option (truth ieee) -> list (Z * block) -> Prop :=
  | ST_none : stored_truth None None []
  | ST_some a t : stored_truth (Some a) (Some t) [(a, BTruth t)].

(* The pointer p stands for the value v by means of exactly the given blocks. *)
Inductive stored : pointer -> value -> list (Z * block) -> Prop :=
  | S_null : stored Null VNull []
  | S_text s : stored (Token s) (VText s) []
  | S_copula c : stored (CopulaAt c) (VCopula c) []
  | S_connector c : stored (ConnectorAt c) (VConnector c) []
  | S_string a s : stored (At a) (VString s) [(a, BString s)]
  | S_number a x : stored (At a) (VNumber x) [(a, BDouble x)]
  | S_term a t : stored (At a) (VTerm t) [(a, BTerm t)]
  | S_time a b n : stored (At a) (VTime n) [(a, BTimed b); (b, BInt n)]
  | S_truth a b t : stored (At a) (VTruth t) [(a, BValued b); (b, BTruth t)]
  | S_budget a x : stored (At a) (VBudget x) [(a, BBudget x)]
  | S_sentence a s tr m l : stored_truth tr (truth_of s) l ->
      stored (At a) (VSentence s)
        ((a, BSentence (content s) (punct s) tr m) :: (m, BStamp (stamp_of s)) :: l)
  | S_task a b x t l : stored (At x) (VSentence (sentence_of t)) l ->
      stored (At a) (VTask t) ((a, BTask b x) :: (b, BBudget (budget_of t)) :: l).

(* The blocks added to a memory are exactly these; all others are as before. *)
Definition adds (h h' : heap) (l : list (Z * block)) : Prop := Permutation (live h') (l ++ live h).

(* A tense or a truth value is written in the input. *)
Inductive mentions (P : string -> Prop) : Parser.ast -> Prop :=
  | M_leaf e s : P e -> mentions P (Parser.Leaf e s)
  | M_node e l : P e -> mentions P (Parser.Node e l)
  | M_below e l n : In n l -> mentions P n -> mentions P (Parser.Node e l).

Definition marked (e : string) : Prop :=
  In e ["truth"; "tense_time"; "tense_future"; "tense_present"; "tense_past"].

(* Reading inputs one after the other and letting go of every task that comes
   out before the next one. *)
Fixpoint serve (strict : bool) ord fresh (room : option nat) (st : state) (inputs : list string)
  : M (state * bool) :=
  match inputs with
  | [] => ret (st, false)
  | s :: inputs' =>
      mbind (lift (Parser.parse room [] s)) (fun o =>
      mbind (pfinish strict ord fresh st (fst o)) (fun r =>
      let '(st, p, thrown) := r in
      mbind (release strict p) (fun _ =>
      mbind (serve strict ord fresh room st inputs') (fun r' =>
      ret (fst r', thrown || snd r')))))
  end.
