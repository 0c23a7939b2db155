(* Checks of the tables: what a space does. *)
From Coq Require Import ZArith String Ascii List Bool Lia.
From Verif Require Import Base Tables Parser ParserSpec Grammar LexFacts ParserCert ParserFacts ParserFacts2 ParserFacts3.
Import ListNotations.
Open Scope string_scope.
Open Scope list_scope.
Open Scope Z_scope.

(** * The scanners and the space *)

(* Successors of a state of a scanner, for the characters 0..127. *)
Definition target_of (cells : list (option (list (Z * Z * Z)) * Z)) (st x : Z) : option Z :=
  match nth_error cells (Z.to_nat st) with Some (Some l, _) => first l x | _ => None end.

Definition accept_of (cells : list (option (list (Z * Z * Z)) * Z)) (st : Z) : Z :=
  match nth_error cells (Z.to_nat st) with Some (_, a) => a | None => 0 end.

Definition spacey cells st : bool := match target_of cells st 32 with Some _ => true | None => false end.

Definition rows_of (cells : list (option (list (Z * Z * Z)) * Z)) : list Z := upto (length cells).

(* No space can be read now or after one more character. *)
Definition quiet cells st : bool :=
  negb (spacey cells st)
  && forallb (fun x => match target_of cells st x with Some st' => negb (spacey cells st') | None => true end)
       (upto 128).

(* These states, one by one. *)
Definition quiets cells : list bool := map (quiet cells) (rows_of cells).
Definition calm (qs : list bool) st : bool := nth (Z.to_nat st) qs false.

(* A space ends every scan that has not begun with a quote; a quoted text and
   the space itself end the scan. *)
Definition space_ok cells : bool :=
  let qs := quiets cells in
  forallb (fun st =>
    (negb (calm qs st) || negb (spacey cells st)) &&
    forallb (fun x =>
      match target_of cells st x with
      | Some st' =>
          (if (st =? 0) then (x =? 34) || calm qs st' else negb (calm qs st) || calm qs st')
          && ((negb (accept_of cells st =? 7)))
          && (negb ((st =? 0) && (x =? 32))
              || forallb (fun y => match target_of cells st' y with Some _ => false | None => true end) (upto 128))
          && negb (st' =? 0)
      | None => true
      end) (upto 128))
    (rows_of cells).

Lemma spaces_ok : forallb space_ok machines = true.
Proof. vm_compute. reflexivity. Qed.

(* In a state of the parser with a default production: a token with an entry
   can only grow into tokens that are shifted. *)
Definition entry_of (p x : Z) : option (Z * Z) := find_entry (row actions p) x.
Definition shifted (p x : Z) : bool :=
  match entry_of p x with Some (a, _) => Z.testbit a 1 | None => false end.
Definition has_entry (p x : Z) : bool := match entry_of p x with Some _ => true | None => false end.

Definition grows_ok (p : Z) : bool :=
  let m := nth (Z.to_nat p) dfa_select (-2) in
  (nth (Z.to_nat p) def_prod (-2) =? -1) ||
  (m <? 0) ||
  match nth_error machines (Z.to_nat m) with
  | Some cells =>
      forallb (fun st =>
        negb ((0 <? accept_of cells st) && has_entry p (accept_of cells st - 1))
        || forallb (fun x => match target_of cells st x with
             | Some st' => (0 <? accept_of cells st') && shifted p (accept_of cells st' - 1)
             | None => true
             end) (upto 128)) (rows_of cells)
  | None => false
  end.

(* Entries with a plain reduction are for single characters; there is no
   default with an entry for quoted texts; no entry without a token; end of
   file is only shifted. *)
Definition single_char (r : re) : bool := match r with Range _ => true | _ => false end.

Definition entries_ok (p : Z) : bool :=
  negb (has_entry p (-1)) &&
  ((nth (Z.to_nat p) def_prod (-2) =? -1) || negb (has_entry p 6)) &&
  forallb (fun e => match e with (x, a, i) =>
     (Z.testbit a 1 || single_char (lexeme x)) end) (row actions p) &&
  ((nth (Z.to_nat p) def_prod (-2) =? -1) || (0 <=? nth (Z.to_nat p) def_prod (-2))).

Lemma grow_checks : forallb (fun p => grows_ok p && entries_ok p) (upto 176) = true.
Proof. vm_compute. reflexivity. Qed.

(* Where tokens lead. *)
Definition lands_ok (p : Z) : bool :=
  forallb (fun e => match e with (x, a, i) =>
    negb (Z.testbit a 1) || (x =? 58) && (a =? 3) && (i =? 207) || (x =? 0) && (a =? 3) ||
    (a =? 2) && (nth (Z.to_nat i) def_prod (-2) =? 211) end) (row actions p).

(* States after a token: only a blank is shifted, everything else closes the
   blanks. *)
Definition blank_state (p : Z) : bool :=
  match row actions p with
  | [(x, a, i)] => (x =? 58) && (a =? 3) && (i =? 207)
  | _ => false
  end &&
  match find_entry (row go p) 119 with
  | Some (a, i) => if p =? 1 then (a =? 3) && (i =? 208) else (a =? 3) && (i =? 209)
  | None => false
  end &&
  ((p =? 1) || match find_entry (row go p) 118 with Some (a, i) => (a =? 2) && (i =? 1) | None => false end) &&
  ((p =? 1) || match find_entry (row go p) 117 with Some (a, i) => true | None => false end) &&
  match nth_error machines (Z.to_nat (nth (Z.to_nat p) dfa_select (-2))) with
  | Some cells =>
      (0 <=? nth (Z.to_nat p) dfa_select (-2)) &&
      match target_of cells 0 32 with
      | Some st => accept_of cells st =? 59
      | None => false
      end
  | None => false
  end.

Lemma land_checks : forallb (fun p => lands_ok p &&
   (negb ((nth (Z.to_nat p) def_prod (-2) =? 211) || (nth (Z.to_nat p) def_prod (-2) =? 210)) || blank_state p))
   (upto 176) = true.
Proof. vm_compute. reflexivity. Qed.

Lemma blank_one : nth (Z.to_nat 1) def_prod (-2) = 210.
Proof. reflexivity. Qed.

