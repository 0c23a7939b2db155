(* How a node of the syntax tree finds its action: the table of actions is
   keyed by addresses of string literals (Narsese/Parser/Parser.h lines 27-28,
   regist and get_function), so what is found depends on where the compiler
   and linker put literals. *)
From Coq Require Import ZArith String Ascii List Bool.
From Verif Require Import Base Maps Enums Term Tables Actions.
From Verif Require Interning Parser.
Import ListNotations.
Open Scope string_scope.
Open Scope list_scope.
Local Open Scope Z_scope.

(* The string literals that name actions: the emit names in the two tables
   (narsese.h lines 795-1031 and 1034-1306), the first arguments of regist
   (NarseseParser.cpp lines 915-988) and the empty text in generate.cpp
   line 27. *)
Inductive spot :=
  | InSymbols (i : nat)
  | InProductions (i : nat)
  | InRegistration (i : nat)
  | InGenerator.

(* Where the literal at each spot begins.  The default member initialisers of
   the tables are compiled once, so every parser object has the same
   addresses. *)
Definition placement := spot -> Z.

(* The syntax tree with addresses for names (narsese.h lines 150-159). *)
Inductive ptree :=
  | PLeaf (emit : Z) (token : string)
  | PNode (emit : Z) (children : list ptree).

Section Dispatch.
(* as in Actions.v *)
Variable ord : list (option connector * list term) -> list (option connector * list term).
Variable fresh : Interning.world -> Z.

(* Parser.h line 28: unordered_map<const char *, long> _map *)
Definition actions_map := list (Z * method).

(* Parser.cpp lines 112-115 *)
Definition regist (m : actions_map) (name : Z) (f : method) : actions_map := set Z.eqb name f m.

(* NarseseParser.cpp lines 912-989, the i-th registration being the first of l *)
Fixpoint regist_all (pl : placement) (i : nat) (l : list (string * method)) (m : actions_map) : actions_map :=
  match l with
  | [] => m
  | (_, f) :: l' => regist_all pl (S i) l' (regist m (pl (InRegistration i)) f)
  end.

(* NarseseParser.cpp lines 912-989 *)
Definition registered (pl : placement) : actions_map := regist_all pl 0 (methods ord fresh) [].

(* Parser.h lines 69-76 *)
Definition get_function (m : actions_map) (name : Z) : option method := lookup Z.eqb name m.

(* The calls in Parser.cpp lines 85-101 *)
Definition pcall (m : actions_map) (name : Z) (st : state) (a : arguments) : res (state * value) :=
  match get_function m name with
  | Some f => f st a
  | None => Ok (st, VNull)
  end.

(* Parser.cpp lines 66-110 for one node and for a chain of siblings *)
Fixpoint ptransform (m : actions_map) (st : state) (n : ptree) {struct n} : res (state * value) :=
  match n with
  | PLeaf emit token => pcall m emit st (Some [VText token])
  | PNode emit children =>
      bind ((fix go (st : state) (l : list ptree) {struct l} : res (state * list value) :=
               match l with
               | [] => Ok (st, [])
               | n :: l' =>
                   bind (ptransform m st n) (fun '(st, v) =>
                   bind (go st l') (fun '(st, vs) => Ok (st, v :: vs)))
               end) st children)
        (fun '(st, vs) => pcall m emit st (match children with [] => None | _ => Some vs end))
  end.

Fixpoint ptransform_all (m : actions_map) (st : state) (l : list ptree) : res (state * list value) :=
  match l with
  | [] => Ok (st, [])
  | n :: l' =>
      bind (ptransform m st n) (fun '(st, v) =>
      bind (ptransform_all m st l') (fun '(st, vs) => Ok (st, v :: vs)))
  end.

(* Parser.cpp lines 37-46: the pointer that parse_string returns for the tree
   of an accepted input *)
Definition preturned (pl : placement) (st : state) (l : list ptree) : res (state * value) :=
  bind (ptransform_all (registered pl) st l) (fun '(st, vs) =>
  match vs with
  | v :: _ => Ok (st, v)
  | [] => UB
  end).

End Dispatch.
