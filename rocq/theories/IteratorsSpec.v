(* Specification vocabulary for the iterators: what a program with iterators
   would do if they were plain positions. *)
From Coq Require Import ZArith String List Bool.
From Verif Require Import Base Maps Term Iterators.
Import ListNotations.
Open Scope string_scope.
Open Scope list_scope.
Open Scope Z_scope.

(* A memory in which every block has its own address, below those to come. *)
Definition sound (h : memory) : Prop :=
  NoDup (map fst (live h)) /\ forall a s, In (a, s) (live h) -> a < top h.

(* Iterators as values: a container and a number of steps. *)
Record view := View { boxes : containers; marks : list (string * (Z * Z)) }.

Definition mark (v : view) (x : string) : res (Z * Z) :=
  match lookup String.eqb x (marks v) with Some p => Ok p | None => UB end.

Definition note (v : view) (x : string) (p : res (Z * Z)) : res (view * list seen) :=
  if has String.eqb x (marks v) then UB
  else bind p (fun p => Ok (View (boxes v) ((x, p) :: marks v), [])).

(* n steps on, within the container *)
Definition onward (v : view) (p : Z * Z) (n : Z) : res (Z * Z) :=
  match lookup Z.eqb (fst p) (boxes v) with
  | None => UB
  | Some c => if (0 <=? snd p + n) && (snd p + n <=? Z.of_nat (length (members c)))
              then Ok (fst p, snd p + n) else UB
  end.

Definition same (v : view) (p q : Z * Z) : res bool :=
  if (fst p =? fst q) && has Z.eqb (fst p) (boxes v) then Ok (snd p =? snd q) else UB.

Definition element (v : view) (p : Z * Z) : res term :=
  match lookup Z.eqb (fst p) (boxes v) with
  | None => UB
  | Some c => if snd p <? 0 then UB
              else match nth_error (members c) (Z.to_nat (snd p)) with Some t => Ok t | None => UB end
  end.

(* The variable x moved to q *)
Definition placed (x : string) (q : Z * Z) (l : list (string * (Z * Z))) : list (string * (Z * Z)) :=
  map (fun m => if (fst m =? x)%string then (fst m, q) else m) l.

(* What each step ought to do.  x++ has the value of x before it. *)
Definition ideally (v : view) (i : instr) : res (view * list seen) :=
  match i with
  | Begin x c =>
      note v x (match lookup Z.eqb c (boxes v) with Some _ => Ok (c, 0) | None => UB end)
  | End x c =>
      note v x (match lookup Z.eqb c (boxes v) with Some k => Ok (c, Z.of_nat (length (members k))) | None => UB end)
  | Copy x y => bind (mark v y) (fun p => note v x (Ok p))
  | Post x y =>
      bind (mark v y) (fun p => bind (onward v p 1) (fun q =>
      bind (note v x (Ok p)) (fun r =>
      Ok (View (boxes v) (placed y q (marks (fst r))), []))))
  | Plus x y n => bind (mark v y) (fun p => note v x (onward v p n))
  | Minus x y n => bind (mark v y) (fun p => note v x (onward v p (- n)))
  | Assign x y => bind (mark v x) (fun _ => bind (mark v y) (fun q => Ok (View (boxes v) (placed x q (marks v)), [])))
  | Next x => bind (mark v x) (fun p => bind (onward v p 1) (fun q => Ok (View (boxes v) (placed x q (marks v)), [])))
  | Read x => bind (mark v x) (fun p => bind (element v p) (fun t => Ok (v, [Saw t])))
  | Equal x y => bind (mark v x) (fun p => bind (mark v y) (fun q => bind (same v p q) (fun b => Ok (v, [Told b]))))
  | Differ x y => bind (mark v x) (fun p => bind (mark v y) (fun q => bind (same v p q) (fun b => Ok (v, [Told (negb b)]))))
  | Drop x => bind (mark v x) (fun _ => Ok (View (boxes v) (unset String.eqb x (marks v)), []))
  | Gone c => if has Z.eqb c (boxes v) then Ok (View (unset Z.eqb c (boxes v)) (marks v), []) else UB
  end.

Fixpoint ideal (v : view) (p : list instr) : res (view * list seen) :=
  match p with
  | [] => Ok (v, [])
  | i :: p' => bind (ideally v i) (fun r => bind (ideal (fst r) p') (fun q => Ok (fst q, snd r ++ snd q)))
  end.

(* Neither assignments nor values of x++ *)
Definition plain (i : instr) : bool :=
  match i with Assign _ _ | Post _ _ => false | _ => true end.

(* No assignments *)
Definition unassigned (i : instr) : bool :=
  match i with Assign _ _ => false | _ => true end.

(* Iterator x(y++) as if written ++y; Iterator x(y) *)
Definition stepped (i : instr) : list instr :=
  match i with Post x y => [Next y; Copy x y] | _ => [i] end.

(* A left fold with outcomes: what a loop over the members does *)
Fixpoint folded {A} (f : A -> term -> res A) (l : list term) (acc : A) : res A :=
  match l with
  | [] => Ok acc
  | t :: l' => bind (f acc t) (folded f l')
  end.

(* How often a variable leaves its scope *)
Definition drops (p : list instr) : nat :=
  length (filter (fun i => match i with Drop _ => true | _ => false end) p).

(* Every variable with its position, in a block of its own; l is all blocks. *)
Inductive held : list (string * iterator) -> list (string * (Z * Z)) -> list (Z * spot) -> Prop :=
  | H_none : held [] [] []
  | H_var x i c p vs ms l :
      held vs ms l -> held ((x, i) :: vs) ((x, (c, p)) :: ms) ((it_ i, Spot (is_commutative i) c p) :: l).
