(* The reader of example files (Tests/test_parser.cpp lines 26-86): lines are
   trimmed, numbers and comments are skipped, everything else is parsed and
   printed. *)
From Coq Require Import ZArith String Ascii List Bool.
From Verif Require Import Base Maps Enums Term Actions Printer Sessions.
From Verif Require Interning Evidence Parser.
Import ListNotations.
Open Scope string_scope.
Open Scope list_scope.
Local Open Scope Z_scope.

(* Tests/test_parser.cpp line 48, std::getline in a loop: a last line that is not empty need not be
   closed *)
Fixpoint get_lines (s : string) : list string :=
  match s with
  | "" => []
  | String c s' =>
      if Parser.code c =? 10 then "" :: get_lines s'
      else match get_lines s' with
           | [] => [String c ""]
           | l :: r => String c l :: r
           end
  end.

(* isspace in the classic locale, for trim in lines 51 and 60 *)
Definition is_space (c : ascii) : bool :=
  let n := Parser.code c in (n =? 32) || ((9 <=? n) && (n <=? 13)).

(* Lines 51 and 60: the white space at one end *)
Fixpoint trim_left (l : list ascii) : list ascii :=
  match l with
  | [] => []
  | c :: l' => if is_space c then trim_left l' else l
  end.

(* Lines 51 and 60, boost::algorithm::trim *)
Definition trim (s : string) : string :=
  string_of_list_ascii (rev (trim_left (rev (trim_left (list_ascii_of_string s))))).

(* Lines 26-29: all_of stops at the first character that is no digit.  char is
   signed; isdigit of a negative value other than EOF (-1) is undefined. *)
Fixpoint isdigits (s : string) : res bool :=
  match s with
  | "" => Ok true
  | String c s' =>
      let n := Z.of_nat (nat_of_ascii c) in
      if (128 <=? n) && negb (n =? 255) then UB
      else if (48 <=? n) && (n <=? 57) then isdigits s'
      else Ok false
  end.

(* Line 55, input.starts_with('\'') *)
Definition is_comment (s : string) : bool :=
  match s with String c _ => Parser.code c =? 39 | "" => false end.

(* Lines 50-62: what is given to the parser, if anything *)
Definition sentence_on (line : string) : res (option string) :=
  let input := trim line in
  bind (isdigits input) (fun number =>
  if number then Ok None
  else if is_comment input then Ok None
  else let input := trim input in
       if (0 <? String.length input)%nat then Ok (Some input) else Ok None).

Section Reader.
Variable ord : list (option connector * list term) -> list (option connector * list term).
Variable fresh : Interning.world -> Z.
Variable room : option nat.
Variable colored : bool.

(* Lines 63-65; without a task a null pointer is followed.  The task goes at
   the end of the block. *)
Definition show (d : desk) (input : string) : res (desk * string) :=
  bind (read_text ord fresh room d input) (fun d' =>
  if Nat.eqb (List.length (items d')) (List.length (items d)) then UB
  else match items d' with
       | Kept (VTask t) _ :: _ =>
           bind (interpret_task (dictionary_of (Interning.tab (atoms (reader d')))) colored (store (reader d')) t) (fun s =>
           bind (release d' 0) (fun d'' => Ok (d'', s)))
       | _ => UB
       end).

(* Lines 48-68: the lines of one file, one after another; the result is what
   is printed *)
Fixpoint read_lines (d : desk) (ls : list string) : res (desk * list string) :=
  match ls with
  | [] => Ok (d, [])
  | l :: ls' =>
      bind (sentence_on l) (fun o =>
      match o with
      | None => read_lines d ls'
      | Some input =>
          bind (show d input) (fun '(d, s) => bind (read_lines d ls') (fun '(d, r) => Ok (d, s :: r)))
      end)
  end.

(* Lines 45-70: a file that can be opened *)
Definition read_file (d : desk) (content : string) : res (desk * list string) := read_lines d (get_lines content).

End Reader.
