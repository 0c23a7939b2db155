(* Notions used to state properties of printing. *)
From Coq Require Import ZArith String Ascii List Bool Reals.
From Flocq Require Import Core BinarySingleNaN.
From Verif Require Import Base Enums Term Float NumeralSpec Actions.
From Verif Require Interning Evidence.
Import ListNotations.
Open Scope string_scope.
Open Scope list_scope.
Local Open Scope Z_scope.

(* Characters of an unquoted word (narsese.par line 158): visible ASCII
   characters without a meaning of their own. *)
Definition plain_char (c : ascii) : Prop :=
  (33 <= nat_of_ascii c <= 126)%nat /\
  ~ In c (list_ascii_of_string "-+<>=""&|!.?@~%;,:/\*#$[]{}()^ ").

Definition plain (s : string) : Prop :=
  s <> "" /\ Forall plain_char (list_ascii_of_string s).

(* The key under which the symbol table would hold the name of a term. *)
Definition key (t : term) : Z := Interning.int32 (thash t).

(* The addresses of the atoms in a term. *)
Fixpoint addresses (t : term) : list Z :=
  match t with
  | Atom _ a => [a]
  | Var _ _ | Itv _ => []
  | Stmt _ s p => addresses s ++ addresses p
  | Comp _ l => concat (map addresses l)
  end.

(* Decimal numerals without leading zeros, and their values. *)
Definition numeral (n : Z) (s : string) : Prop :=
  Forall decimal_digit (list_ascii_of_string s) /\ number (list_ascii_of_string s) = n /\
  (s = "0" \/ exists c s', s = String c s' /\ c <> "0"%char).

Section Names.
Variable names : Z -> option string.

(* Atoms have plain names, operations names with ^ in front; no statement or
   compound shares its key with a name; operations are the predicates only of
   what the parser makes of (^op, a, b), a product inheriting from ^op. *)
Inductive named : term -> Prop :=
  | N_atom a s : names (key (Atom false a)) = Some s -> plain s -> named (Atom false a)
  | N_operation a s : names (key (Atom true a)) = Some ("^" ++ s)%string -> plain s -> named (Atom true a)
  | N_variable k i : named (Var k i)
  | N_interval n : named (Itv n)
  | N_statement c s p : names (key (Stmt c s p)) = None -> is_operation p = false ->
      named s -> named p -> named (Stmt c s p)
  | N_call a l s : names (key (Stmt Inheritance (Comp Product l) (Atom true a))) = None ->
      names (key (Atom true a)) = Some ("^" ++ s)%string -> plain s -> l <> [] -> Forall named l ->
      named (Stmt Inheritance (Comp Product l) (Atom true a))
  | N_compound c l : names (key (Comp c l)) = None -> l <> [] -> Forall named l -> named (Comp c l).

(* Atoms have names, and no statement or compound that is printed shares its
   key with a name. *)
Inductive clear : term -> Prop :=
  | C_atom op a s : names (key (Atom op a)) = Some s -> clear (Atom op a)
  | C_variable k i : clear (Var k i)
  | C_interval n : clear (Itv n)
  | C_statement c s p : names (key (Stmt c s p)) = None -> is_operation p = false ->
      clear s -> clear p -> clear (Stmt c s p)
  | C_call c d l p : names (key (Stmt c (Comp d l) p)) = None -> is_operation p = true ->
      clear p -> Forall clear l -> clear (Stmt c (Comp d l) p)
  | C_compound c l : names (key (Comp c l)) = None -> Forall clear l -> clear (Comp c l).

(* The text of a term, put together from the texts of its parts. *)
Definition between (c : connector) (m : string) : string :=
  match c with
  | ExtensionalSet => "{" ++ m ++ "}"
  | IntensionalSet => "[" ++ m ++ "]"
  | _ => "(" ++ con_repr c ++ ", " ++ m ++ ")"
  end%string.

Fixpoint joined (l : list string) : string :=
  match l with
  | [] => ""
  | [s] => s
  | s :: l' => (s ++ ", " ++ joined l')%string
  end.

Inductive written : term -> string -> Prop :=
  | T_named op a s : names (key (Atom op a)) = Some s -> written (Atom op a) s
  | T_variable k i s : 0 <= i -> numeral i s -> written (Var k i) (vk_repr k ++ s)
  | T_below k i s : i < 0 -> numeral (- i) s -> written (Var k i) (vk_repr k ++ "-" ++ s)
  | T_positive n s : 0 <= n -> numeral n s -> written (Itv n) ("+" ++ s)
  | T_negative n s : n < 0 -> numeral (- n) s -> written (Itv n) ("-" ++ s)
  | T_statement c s p u v : is_operation p = false -> written s u -> written p v ->
      written (Stmt c s p) ("<" ++ u ++ " " ++ cop_repr c ++ " " ++ v ++ ">")
  | T_operation c d l p u v : is_operation p = true -> written p u -> all_written l v ->
      written (Stmt c (Comp d l) p) ("(" ++ u ++ ", " ++ joined v ++ ")")
  | T_compound c l v : l <> [] -> all_written l v -> written (Comp c l) (between c (joined v))
with all_written : list term -> list string -> Prop :=
  | T_none : all_written [] []
  | T_more t l s v : written t s -> all_written l v -> all_written (t :: l) (s :: v).
End Names.

(* Different atoms of two terms have different names. *)
Definition distinct (names : Z -> option string) (t u : term) : Prop :=
  forall op a b, In a (addresses t) -> In b (addresses u) ->
  names (key (Atom op a)) = names (key (Atom op b)) -> a = b.

(* ---- numbers of a budget ---- *)

(* n hundredths, for n below 1000. *)
Definition hundredths (n : Z) : string :=
  let d k := String (ascii_of_nat (Z.to_nat (48 + k))) "" in
  (d (n / 100) ++ "." ++ d (n / 10 mod 10) ++ d (n mod 10))%string.

(* ---- escape sequences ---- *)

(* The text without its escape sequences, which go from ESC to the letter m. *)
Fixpoint bare (escaped : bool) (s : string) : string :=
  match s with
  | EmptyString => ""
  | String c s' =>
      if escaped then bare (negb (Ascii.eqb c "m")) s'
      else if Ascii.eqb c "027" then bare true s'
      else String c (bare false s')
  end.

(* A number of a budget, as text, and the number of hundredths it shows: it
   lies in [0,1]; a zero may have a sign. *)
Definition unit_text (s : string) (h : Z) : Prop :=
  0 <= h <= 100 /\ (s = hundredths h \/ h = 0 /\ s = "-0.00").

(* h hundredths are a nearest two-place number to some three-place number as
   near to v as the precision of a float lets us expect. *)
Definition near_two (v : R) (h : Z) : Prop :=
  exists n, 0 <= n <= 1000 /\ (Rabs (IZR n / 1000 - v) <= 5002 / 10000000)%R /\ Z.abs (10 * h - n) <= 5.

(* The text shows a value: NaN as 0, what is below 0 as 0, what is above 1 as
   1, what is between to two places. *)
Definition shows {prec emax} (x : binary_float prec emax) (s : string) : Prop :=
  exists h, unit_text s h /\
    match x with
    | B754_nan => h = 0
    | B754_infinity sign => h = if sign then 0 else 100
    | _ => ((B2R x < 0)%R -> h = 0) /\ ((1 < B2R x)%R -> h = 100) /\ ((0 <= B2R x <= 1)%R -> near_two (B2R x) h)
    end.

(* A number with k decimal places: the nearest, a tie to the even digit; no
   superfluous zeros in front. *)
Definition decimal (k : nat) {prec emax} (x : binary_float prec emax) (s : string) : Prop :=
  exists a b, list_ascii_of_string s = ((if Bsign x then ["-"%char] else []) ++ a ++ "."%char :: b)%list /\ length b = k /\
    (a = ["0"%char] \/ exists c a', a = c :: a' /\ c <> "0"%char) /\
    reads (a ++ "."%char :: b)%list (IZR (ZnearestE (Rabs (B2R x) * 10 ^ k)) / 10 ^ k)%R.

(* Characters that neither the formatting library nor a terminal takes for
   something else, and terms whose copulas consist of such characters. *)
Definition tame_char (c : ascii) : Prop := ~ In c ["{"; "}"; "027"]%char.
Definition tame (s : string) : Prop := Forall tame_char (list_ascii_of_string s).

Inductive tame_copulas : term -> Prop :=
  | M_atom op a : tame_copulas (Atom op a)
  | M_variable k i : tame_copulas (Var k i)
  | M_interval n : tame_copulas (Itv n)
  | M_statement c s p : tame (cop_repr c) -> tame_copulas s -> tame_copulas p -> tame_copulas (Stmt c s p)
  | M_compound c l : Forall tame_copulas l -> tame_copulas (Comp c l).

(* The same outcome but for the escape sequences. *)
Definition same_but_colours (r r' : res string) : Prop :=
  match r, r' with
  | Ok s, Ok s' => bare false s' = s
  | UB, UB => True
  | _, _ => False
  end.
