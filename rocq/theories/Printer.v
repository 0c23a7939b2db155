(* Printing terms, sentences and tasks (Interpreter/src/Interpreter.cpp), with
   as much of the formatting library as the format strings there use. *)
From Coq Require Import ZArith String Ascii List Bool.
From Flocq Require Import Core BinarySingleNaN.
From Verif Require Import Base Enums Term Maps Float Truth Numeral Actions.
From Verif Require Interning Evidence.
Import ListNotations.
Open Scope string_scope.
Open Scope list_scope.
Local Open Scope Z_scope.

(* ---- numbers as text ---- *)

(* The character of a digit, for bases up to 16 *)
Definition digit_char (d : Z) : ascii :=
  ascii_of_nat (Z.to_nat (if d <? 10 then 48 + d else 87 + d)).

(* The digits of n >= 0 in front of s; the fuel bounds their number. *)
Fixpoint put_digits (fuel : nat) (base n : Z) (s : string) : string :=
  match fuel with
  | O => s
  | S fuel' =>
      let s := String (digit_char (n mod base)) s in
      if n / base =? 0 then s else put_digits fuel' base (n / base) s
  end.

Definition natural (base n : Z) : string := put_digits (S (Z.to_nat (Z.log2 n))) base n "".

(* std::to_string, and {:d} and {:x} of the formatting library *)
Definition integer (base n : Z) : string :=
  if n <? 0 then ("-" ++ natural base (- n))%string else natural base n.

(* Exactly k digits *)
Fixpoint padded (k : nat) (n : Z) (s : string) : string :=
  match k with
  | O => s
  | S k' => padded k' (n / 10) (String (digit_char (n mod 10)) s)
  end.

(* a / b to the nearest integer, a tie to the even one *)
Definition nearest_even (a b : Z) : Z :=
  let q := a / b in
  let r := a mod b in
  if 2 * r <? b then q
  else if b <? 2 * r then q + 1
  else if Z.even q then q else q + 1.

(* {:.kf} of a float *)
Definition fixed (k : nat) (x : float32) : string :=
  match x with
  | B754_nan => "nan"
  | B754_infinity s => if s then "-inf" else "inf"
  | B754_zero s => ((if s then "-" else "") ++ "0." ++ padded k 0 "")%string
  | B754_finite s m e _ =>
      let p := 10 ^ Z.of_nat k in
      let n := if 0 <=? e then Zpos m * 2 ^ e * p else nearest_even (Zpos m * p) (2 ^ (- e)) in
      ((if s then "-" else "") ++ natural 10 (n / p) ++ "." ++ padded k (n mod p) "")%string
  end.

(* ---- format strings ---- *)

Inductive argument :=
  | AText (s : string)
  | AInt (n : Z)
  | AFloat (x : float32).

(* A replacement field with its format specification *)
Definition format_argument (spec : string) (a : argument) : res string :=
  match a with
  | AText s => if (spec =? "")%string then Ok s else Throw
  | AInt n =>
      if (spec =? "")%string then Ok (integer 10 n)
      else if (spec =? "+d")%string then Ok (if n <? 0 then integer 10 n else ("+" ++ integer 10 n)%string)
      else if (spec =? "x")%string then Ok (integer 16 n)
      else Throw
  | AFloat x =>
      if (spec =? ".2f")%string then Ok (fixed 2 x)
      else if (spec =? ".3f")%string then Ok (fixed 3 x)
      else Throw
  end.

(* Where in a format string we are: in text; behind an opening brace; in a
   replacement field, with the argument's number, if there is one, and the
   specification so far; behind a closing brace. *)
Inductive position :=
  | InText
  | Opened
  | InNumber (n : nat)
  | InSpec (n : option nat) (spec : string)
  | Closed.

Definition number_char (c : ascii) : option nat :=
  let n := nat_of_ascii c in if ((48 <=? n) && (n <=? 57))%nat then Some (n - 48)%nat else None.

(* fmt::format.  [auto] counts the fields without a number, None after a field
   with a number (mixing both is an error, as is a missing argument, an
   unknown specification or a single brace). *)
Fixpoint formatting (pos : position) (auto : option nat) (used : bool) (s : string) (args : list argument) : res string :=
  match s with
  | EmptyString => match pos with InText => Ok "" | _ => Throw end
  | String c s' =>
      let field n spec :=
        match n with
        | None =>
            match auto with
            | None => Throw
            | Some i =>
                match nth_error args i with
                | None => Throw
                | Some a => bind (format_argument spec a) (fun t =>
                            bind (formatting InText (Some (S i)) true s' args) (fun r => Ok (t ++ r)%string))
                end
            end
        | Some i =>
            if match auto with Some _ => used | None => false end then Throw
            else match nth_error args i with
                 | None => Throw
                 | Some a => bind (format_argument spec a) (fun t =>
                             bind (formatting InText None true s' args) (fun r => Ok (t ++ r)%string))
                 end
        end in
      match pos with
      | InText =>
          if Ascii.eqb c "{" then formatting Opened auto used s' args
          else if Ascii.eqb c "}" then formatting Closed auto used s' args
          else bind (formatting InText auto used s' args) (fun r => Ok (String c r))
      | Opened =>
          if Ascii.eqb c "{" then bind (formatting InText auto used s' args) (fun r => Ok (String c r))
          else if Ascii.eqb c "}" then field None ""
          else if Ascii.eqb c ":" then formatting (InSpec None "") auto used s' args
          else match number_char c with
               | Some n => formatting (InNumber n) auto used s' args
               | None => Throw
               end
      | InNumber n =>
          if Ascii.eqb c "}" then field (Some n) ""
          else if Ascii.eqb c ":" then formatting (InSpec (Some n) "") auto used s' args
          else Throw
      | InSpec n spec =>
          if Ascii.eqb c "}" then field n spec
          else formatting (InSpec n (spec ++ String c "")) auto used s' args
      | Closed =>
          if Ascii.eqb c "}" then bind (formatting InText auto used s' args) (fun r => Ok (String c r))
          else Throw
      end
  end.

Definition format (s : string) (args : list argument) : res string := formatting InText (Some O) false s args.

(* ---- colours (Interpreter.cpp lines 13-23) ---- *)

Inductive colour := RGB (r g b : Z).

Definition color_term := RGB 166 217 246.
Definition color_angle := RGB 104 154 199.
Definition color_punct := RGB 104 154 199.
Definition color_parenthesis := RGB 104 154 199.
Definition color_seperator := RGB 104 154 199.
Definition color_copula := RGB 193 137 191.
Definition color_connector := RGB 193 137 191.
Definition color_percent := RGB 77 196 172.
Definition color_number := RGB 181 206 168.
Definition color_tense := RGB 77 196 254.
Definition color_operation := RGB 220 220 170.

(* The escape sequence for a colour of the text (38) or the ground (48); the
   formatting library writes each component with three digits *)
Definition escape (what : string) (c : colour) : string :=
  match c with RGB r g b =>
    String "027" ("[" ++ what ++ ";2;" ++ padded 3 r "" ++ ";" ++ padded 3 g "" ++ ";" ++ padded 3 b "" ++ "m")
  end.

Definition reset_colour : string := String "027" "[0m".

(* fmt::format with a style: the second argument is a format string *)
Definition styled (what : string) (c : colour) (s : string) (args : list argument) : res string :=
  bind (format s args) (fun t => Ok (escape what c ++ t ++ reset_colour)%string).

Definition fg := styled "38".
Definition bg := styled "48".

(* ---- terms ---- *)

Section Terms.
(* Interpreter.hpp line 36, the dictionary, by the int a hash value is
   truncated to (lines 49 and 52) *)
Variable dictionary : Z -> option string.

(* Lines 79-94, append_strs *)
Definition append_strs (colored : bool) (interpret : term -> res string) : list term -> res string :=
  fix go l :=
    match l with
    | [] => Ok ""
    | [t] => interpret t
    | t :: l' =>
        bind (interpret t) (fun a =>
        bind (if colored then fg color_seperator ", " [] else Ok ", ") (fun sep =>
        bind (go l') (fun b => Ok (a ++ sep ++ b)%string)))
    end.

(* Lines 95-116: an atom without a name *)
Definition interpret_unknown (colored op : bool) (a : Z) : res string :=
  let c := if op then color_operation else color_term in
  bind (format (if op then "^0x{:x}" else "0x{:x}") [AInt a]) (fun s =>
  if colored then fg c s [] else Ok s).

(* Lines 25-216, interpret(Term &, bool).  Reading the components of a subject
   that is no Compound (line 142), and the iterator before the first of no
   components (line 166), is undefined. *)
Fixpoint interpret (colored : bool) (t : term) : res string :=
  match t with
  | Var k i =>
      let s := (vk_repr k ++ integer 10 i)%string in
      if colored then fg color_term s [] else Ok s
  | Itv n =>
      bind (format "{:+d}" [AInt n]) (fun s =>
      if colored then fg color_number s [] else Ok s)
  | _ =>
      match dictionary (Interning.int32 (thash t)) with
      | Some name =>
          match t with
          | Atom op _ =>
              if colored then fg (if op then color_operation else color_term) name [] else Ok name
          | _ => Ok name
          end
      | None =>
          match t with
          | Atom op a => interpret_unknown colored op a
          | Stmt c s p =>
              if negb (is_operation t) then
                bind (interpret colored s) (fun str_subject =>
                bind (interpret colored p) (fun str_predicate =>
                if colored then
                  bind (fg color_angle "<" []) (fun str1 =>
                  bind (bind (fg color_term "{{}}" []) (fun f => format f [AText str_subject])) (fun str2 =>
                  bind (fg color_copula (cop_repr c) []) (fun str3 =>
                  bind (bind (fg color_term "{{}}" []) (fun f => format f [AText str_predicate])) (fun str4 =>
                  bind (fg color_angle ">" []) (fun str5 =>
                  format "{}{} {} {}{}" [AText str1; AText str2; AText str3; AText str4; AText str5])))))
                else format "<{} {} {}>" [AText str_subject; AText (cop_repr c); AText str_predicate]))
              else
                bind (interpret colored p) (fun str_op =>
                match s with
                | Comp _ l =>
                    if colored then
                      bind (fg color_parenthesis "(" []) (fun a =>
                      bind (fg color_seperator ", " []) (fun b =>
                      bind (append_strs colored (interpret colored) l) (fun m =>
                      bind (fg color_parenthesis ")" []) (fun z => Ok (a ++ str_op ++ b ++ m ++ z)%string))))
                    else
                      bind (append_strs colored (interpret colored) l) (fun m =>
                      Ok ("(" ++ str_op ++ ", " ++ m ++ ")")%string)
                | _ => UB
                end)
          | Comp c l =>
              match l with
              | [] => UB
              | _ =>
                  bind (append_strs colored (interpret colored) l) (fun m =>
                  if colored then
                    match c with
                    | ExtensionalSet =>
                        bind (fg color_parenthesis "{{" []) (fun a =>
                        bind (fg color_parenthesis "}}" []) (fun z => Ok (a ++ m ++ z)%string))
                    | IntensionalSet =>
                        bind (fg color_parenthesis "[" []) (fun a =>
                        bind (fg color_parenthesis "]" []) (fun z => Ok (a ++ m ++ z)%string))
                    | _ =>
                        bind (fg color_parenthesis "(" []) (fun a =>
                        bind (fg color_connector (con_repr c) []) (fun b =>
                        bind (fg color_seperator ", " []) (fun sep =>
                        bind (fg color_parenthesis ")" []) (fun z => Ok (a ++ b ++ sep ++ m ++ z)%string))))
                    end
                  else
                    match c with
                    | ExtensionalSet => Ok ("{" ++ m ++ "}")%string
                    | IntensionalSet => Ok ("[" ++ m ++ "]")%string
                    | _ => Ok ("(" ++ con_repr c ++ ", " ++ m ++ ")")%string
                    end)
              end
          | Var _ _ | Itv _ => UB (* not reached *)
          end
      end
  end.

(* ---- sentences ---- *)

(* Sentence.h line 36 *)
Definition punct_repr (p : punctuation) : string :=
  match p with Judgement => "." | Question => "?" | Goal => "!" | Quest => "@" end.

(* Tense.h line 17 *)
Definition tense_repr (t : Evidence.tense) : string :=
  match t with
  | Evidence.Past => ":\:" | Evidence.Present => ":|:" | Evidence.Future => ":/:" | Evidence.Eternal => ":-:"
  end.

(* Lines 257-267 and 275-284: the truth value of a judgement or a goal; a null
   pointer is followed without a test *)
Definition interpret_truth (colored : bool) (s : sentence) : res string :=
  match punct s with
  | Judgement | Goal =>
      match truth_of s with
      | None => UB
      | Some t =>
          if colored then
            bind (fg color_percent "%" []) (fun a =>
            bind (fg color_number "{:.3f}" [AFloat (Truth.fr ieee t)]) (fun f =>
            bind (fg color_number "{:.3f}" [AFloat (Truth.co ieee t)]) (fun c =>
            bind (fg color_percent ";" []) (fun sep =>
            format "{0}{1}{3}{2}{0}" [AText a; AText f; AText c; AText sep]))))
          else format "%{:.3f};{:.3f}%" [AFloat (Truth.fr ieee t); AFloat (Truth.co ieee t)]
      end
  | Question | Quest => Ok ""
  end.

(* Lines 245-290, interpret(Sentence &, bool); the clock is in [st].  The
   format string of line 271 is only looked at when the program runs: the
   checks at compile time of newer versions of the library would also reject
   lines 132 and 135. *)
Definition interpret_sentence (colored : bool) (st : Evidence.store) (s : sentence) : res string :=
  bind (interpret colored (content s)) (fun str_term =>
  bind (interpret_truth colored s) (fun str_truth =>
  let tense := tense_repr (Evidence.tense_of cfg_temporal_duration st (stamp_of s)) in
  if colored then
    bind (fg color_punct (punct_repr (punct s)) []) (fun str_punct =>
    bind (if Evidence.is_eternal (stamp_of s) then Ok "" else fg color_tense "{} " [AText tense]) (fun str_stamp =>
    format "{}{} {}{} {}{}" [AText str_term; AText str_punct; AText str_stamp; AText str_truth]))
  else
    bind (if Evidence.is_eternal (stamp_of s) then Ok "" else format "{} " [AText tense]) (fun str_stamp =>
    format "{}{} {}{}" [AText str_term; AText (punct_repr (punct s)); AText str_stamp; AText str_truth]))).

(* ---- tasks ---- *)

(* std::round on float: to the nearest integer, a tie away from zero *)
Definition round32 (x : float32) : float32 :=
  match x with
  | B754_finite s m e _ =>
      if 0 <=? e then x
      else let n := (2 * Zpos m + 2 ^ (- e)) / (2 * 2 ^ (- e)) in
           binary_normalize 24 128 prec32 emax32 mode_NE (cond_Zopp s n) 0 s
  | _ => x
  end.

(* Lines 222-227: clamped to [0,1] and rounded to three places; comparisons
   with NaN are false *)
Definition clamp (x : float32) : float32 :=
  if Bleb (of_Z32 0) x then if Bleb x (of_Z32 1) then x else of_Z32 1 else of_Z32 0.

Definition rounded (x : float32) : float32 :=
  Bdiv mode_NE (round32 (Bmult mode_NE (clamp x) (of_Z32 1000))) (of_Z32 1000).

(* int of a float *)
Definition truncated32 (x : float32) : res Z := truncated (to64 x).

(* Lines 229-231: min(255, int(255 * x / 2 + 10)), for q with 1.5, in double *)
Definition channel (x : float32) : res Z :=
  bind (truncated32 (Bplus mode_NE (Bdiv mode_NE (Bmult mode_NE (of_Z32 255) x) (of_Z32 2)) (of_Z32 10)))
    (fun n => Ok (Z.min 255 n)).
Definition channel_quality (x : float32) : res Z :=
  bind (truncated (Bplus mode_NE (Bdiv mode_NE (to64 (Bmult mode_NE (of_Z32 255) x)) (dfrac ieee 3 2)) (of_Z64 10)))
    (fun n => Ok (Z.min 255 n)).

(* Lines 218-243, interpret(Task &, bool): the sentence is never coloured *)
Definition interpret_task (colored : bool) (st : Evidence.store) (t : task) : res string :=
  let p := rounded (to32 (priority (budget_of t))) in
  let d := rounded (to32 (durability (budget_of t))) in
  let q := rounded (quality (budget_of t)) in
  bind (channel p) (fun cp =>
  bind (channel d) (fun cd =>
  bind (channel_quality q) (fun cq =>
  bind (interpret_sentence false st (sentence_of t)) (fun str_sentence =>
  if colored then
    bind (bg (RGB cp 10 10) " {:.2f} " [AFloat p]) (fun a =>
    bind (bg (RGB 10 cd 10) " {:.2f} " [AFloat d]) (fun b =>
    bind (bg (RGB 10 10 cq) " {:.2f} " [AFloat q]) (fun c =>
    format "{}{}{} {}" [AText a; AText b; AText c; AText str_sentence])))
  else format "${:.2f};{:.2f};{:.2f}$ {}" [AFloat p; AFloat d; AFloat q; AText str_sentence])))).

End Terms.

(* The dictionary of a symbol table *)
Definition dictionary_of (t : Interning.table) : Z -> option string :=
  fun k => lookup Z.eqb k (Interning.dict t).
