(* The generator of source text for the actions (Narsese/Parser/generate.cpp). *)
From Coq Require Import ZArith String Ascii List Bool.
From Verif Require Import Base Numeral Printer.
Import ListNotations.
Open Scope string_scope.
Open Scope list_scope.
Local Open Scope Z_scope.

(* generate.cpp lines 24-91: a newline (std::endl or \n), a tabulator and a double
   quote, as they occur in the texts *)
Definition nl : string := String "010" "".
Definition tab : string := String "009" "".
Definition quote : string := String "034" "".

(* ---- snprintf, as far as it is used ---- *)

(* An argument: an int or a char pointer *)
Inductive parg := Num (n : Z) | Str (s : string).

Fixpoint blanks (n : nat) : string := match n with O => "" | S n' => String " " (blanks n') end.

(* %Ns: at least N characters, blanks first *)
Definition padded_to (w : option Z) (s : string) : string :=
  match w with
  | Some w => blanks (Z.to_nat w - String.length s) ++ s
  | None => s
  end%string.

(* The text a format makes of its arguments.  [mode] is None outside of a
   conversion and else the width read so far.  Of the conversions %%, %d and
   %s with a width are modelled; everything else counts as undefined. Widths
   are unbounded here. *)
Fixpoint vprint (f : string) (mode : option (option Z)) (args : list parg) : res string :=
  match f with
  | "" => match mode with None => Ok "" | Some _ => UB end
  | String c f' =>
      match mode with
      | None =>
          if (c =? "%")%char then vprint f' (Some None) args
          else bind (vprint f' None args) (fun r => Ok (String c r))
      | Some w =>
          if (c =? "%")%char then
            match w with
            | None => bind (vprint f' None args) (fun r => Ok (String "%" r))
            | Some _ => UB
            end
          else if (c =? "s")%char then
            match args with
            | Str s :: args' => bind (vprint f' None args') (fun r => Ok (padded_to w s ++ r)%string)
            | _ => UB
            end
          else if (c =? "d")%char then
            match args with
            | Num n :: args' => bind (vprint f' None args') (fun r => Ok (padded_to w (integer 10 n) ++ r)%string)
            | _ => UB
            end
          else
            match digit c, w with
            | Some d, None => if d =? 0 then UB else vprint f' (Some (Some d)) args
            | Some d, Some n => vprint f' (Some (Some (10 * n + d))) args
            | None, _ => UB
            end
      end
  end.

(* snprintf into a buffer of [size] bytes: at most size - 1 characters and a
   terminating zero; the result is the number of characters there would be *)
Definition snprintf (size : nat) (f : string) (args : list parg) : res (string * nat) :=
  bind (vprint f None args) (fun s => Ok (substring 0 (size - 1) s, String.length s)).

(* generate.cpp lines 10-22: string_format.  The case of a negative size does
   not arise. *)
Definition string_format (f : string) (args : list parg) : res string :=
  bind (snprintf 0 f args) (fun '(_, n) =>
  let size := (n + 1)%nat in
  bind (snprintf size f args) (fun '(buf, _) =>
  Ok (substring 0 (size - 1) buf))).

(* ---- generate ---- *)

(* generate.cpp lines 35-47: the names, each with its address, that are not at
   the address of the empty text in this file *)
Definition emits (empty : Z) (productions symbols : list (Z * string)) : list string :=
  map snd (filter (fun p => negb (fst p =? empty)) (productions ++ symbols)).

(* lines 53-57 *)
Definition prototype (e : string) : string := (tab ++ "extern void* " ++ e ++ "(Args &args);" ++ nl)%string.

(* lines 62-66 *)
Definition definition (e : string) : string :=
  ("void* NARSESEPARSER::" ++ e ++ "(Args& args)" ++ nl ++ "{" ++ nl ++ tab ++ "void* ret;" ++ nl ++ tab ++
   "return ret;" ++ nl ++ "}" ++ nl)%string.

(* lines 70-77 *)
Fixpoint longest (es : list string) (max_len : nat) : nat :=
  match es with
  | [] => max_len
  | e :: es' => longest es' (if (max_len <? String.length e)%nat then String.length e else max_len)
  end.

(* line 78 *)
Definition line_format (max_len : nat) : res string :=
  string_format (tab ++ "regist(%%%ds, %%%ds );")%string
    [Num (Z.of_nat max_len + 3); Num (Z.of_nat max_len + 1)].

(* lines 79-86 *)
Fixpoint registrations (format : string) (es : list string) : res string :=
  match es with
  | [] => Ok ""
  | e :: es' =>
      bind (string_format format [Str (quote ++ e ++ quote)%string; Str e]) (fun l =>
      bind (registrations format es') (fun r => Ok (l ++ nl ++ r)%string))
  end.

Definition together (l : list string) : string := fold_right append "" l.

(* What is written to the console (lines 33, 49 and 51) and to generate.out *)
Record output := Out { console : string; file : string }.

(* lines 24-91 *)
Definition generate (empty : Z) (productions symbols : list (Z * string)) : res output :=
  let es := emits empty productions symbols in
  bind (line_format (longest es 0)) (fun format =>
  bind (registrations format es) (fun regs =>
  Ok (Out
    (natural 10 (Z.of_nat (List.length productions)) ++ nl ++
     natural 10 (Z.of_nat (List.length symbols)) ++ nl ++
     "valid count: " ++ natural 10 (Z.of_nat (List.length es)) ++ nl)
    ("/*prototypes*/" ++ nl ++ together (map prototype es) ++ nl ++ nl ++
     "/*definitions*/" ++ nl ++ together (map definition es) ++ nl ++ nl ++
     "/*register*/" ++ nl ++ regs ++ nl ++ nl)))%string).
