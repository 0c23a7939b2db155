(* The generated shift-reduce parser, run over the tables of Tables.v. *)
From Coq Require Import ZArith String Ascii List Bool Arith.
From Verif Require Import Base Tables.
Import ListNotations.
Open Scope string_scope.
Open Scope Z_scope.

(* Reading element i of an array.  Every table access of
   Narsese/Parser/narsese.cpp goes through this; an index outside the written
   elements is undefined behaviour. *)
Definition rd {A} (t : list A) (i : Z) : res A :=
  if i <? 0 then UB
  else match nth_error t (Z.to_nat i) with Some x => Ok x | None => UB end.

(* narsese.h lines 147-159: _ast.  A node with a token is a leaf; sibling
   chains (prev/next) are lists. *)
Inductive ast : Type :=
  | Leaf (emit token : string)
  | Node (emit : string) (children : list ast).

(* narsese.h lines 161-175: _tok.  Only the fields the control flow and the
   syntax tree depend on: state and node. *)
Record cell := Cell { state : Z; nodes : list ast }.

(* narsese.h lines 203-212, fetch: `auto ch` is a (signed) char, widened to
   wchar_t. *)
Definition code (c : ascii) : Z :=
  let n := Z.of_nat (nat_of_ascii c) in
  if n <? 128 then n else n - 256.

(* narsese.h lines 189-212 (fill, fetch) and Parser.cpp line 8 (eof = '\n'):
   the characters up to the first NUL (c_str) or newline (end of file). *)
Fixpoint line (s : string) : list ascii :=
  match s with
  | EmptyString => []
  | String c s' =>
      if (code c =? 0) || (code c =? 10) then [] else c :: line s'
  end.

(* narsese.cpp lines 392-434, the inner while of lex: walk the ranges of one
   DFA state.  chars and trans are dfa_chars and dfa_trans from the current
   position on; chr is always even, so both advance together. *)
Fixpoint walk (chars trans : list Z) (next : Z) : res (option Z) :=
  match chars, trans with
  | lo :: hi :: chars', t :: trans' =>
      if lo <=? -1 then Ok None
      else if (lo <=? next) && (next <=? hi) then Ok (Some t)
      else walk chars' trans' next
  | _, _ => UB
  end.

(* narsese.cpp lines 381-434: one transition of the DFA. *)
Definition dfa_step (machine st : Z) (next : Z) : res (option Z) :=
  bind (rd dfa_idx machine) (fun row =>
  bind (rd row st) (fun chr =>
  if chr <? 0 then UB
  else walk (skipn (Z.to_nat chr) dfa_chars)
            (skipn (Z.to_nat (chr / 2)) dfa_trans) next)).

(* What the scanner has found: the symbol (-1: none), its length, and how
   many characters have been looked at. *)
Record found := Found { fsym : Z; flen : nat; fread : nat }.

(* narsese.cpp lines 375-436, the do-while of lex.  text are the characters
   from offset len on; best is (this->sym, this->len).  get_input returns the
   end-of-file character exactly when text is used up. *)
Fixpoint scan (machine st : Z) (text : list ascii) (len : nat) (best : Z * nat)
  : res found :=
  match text with
  | [] => Ok (Found (fst best) (snd best) len)
  | c :: text' =>
      bind (dfa_step machine st (code c)) (fun o =>
      match o with
      | None => Ok (Found (fst best) (snd best) (S len))
      | Some st' =>
          bind (rd dfa_accept machine) (fun row =>
          bind (rd row st') (fun a =>
          if 0 <? a then
            let sym := a - 1 in
            if sym =? 0 then Ok (Found 0 (S len) (S len))
            else bind (rd symbols sym) (fun s =>
              if snd s then scan machine st' text' (S len) (sym, S len)
              else Ok (Found sym (S len) (S len)))
          else scan machine st' text' (S len) best))
      end)
  end.

(* narsese.cpp lines 352-479 (lex) and 481-526 (get_sym). *)
Definition get_sym (s : Z) (text : list ascii) : res found :=
  bind (rd dfa_select s) (fun machine =>
  match text with
  | [] => Ok (Found 0 0 0)
  | _ => if -1 <? machine then scan machine 0 text 0 (-1, 0%nat)
         else Ok (Found (-1) 0 1)
  end).

(* The loops of narsese.cpp lines 130-141 and 155-163: the first entry of a
   row for a symbol. *)
Fixpoint find_entry (row : list (Z * Z * Z)) (x : Z) : option (Z * Z) :=
  match row with
  | [] => None
  | (y, act, idx) :: row' => if y =? x then Some (act, idx) else find_entry row' x
  end.

(* narsese.cpp lines 128-151: get_act.  None: parse error. *)
Definition get_act (s sym : Z) : res (option (Z * Z)) :=
  bind (rd actions s) (fun row =>
  match find_entry row sym with
  | Some (act, idx) => if act =? 0 then Ok None else Ok (Some (act, idx))
  | None =>
      bind (rd def_prod s) (fun idx =>
      if -1 <? idx then Ok (Some (1, idx)) else Ok None)
  end).

(* narsese.cpp lines 153-166: get_go. *)
Definition get_go (s lhs : Z) : res (option (Z * Z)) :=
  bind (rd go s) (fun row => Ok (find_entry row lhs)).

(* narsese.cpp lines 726-739: chaining the nodes of a dropped cell in front
   of those collected so far.  Only the first node of the cell is linked to
   the collected ones: tos->node->next = node overwrites its sibling link. *)
Definition chain (own collected : list ast) : list ast :=
  match own, collected with
  | [], _ => collected
  | _, [] => own
  | a :: _, _ => a :: collected
  end.

(* narsese.cpp lines 721-742: dropping the right-hand side. *)
Fixpoint pop (n : nat) (stk : list cell) (collected : list ast)
  : res (list cell * list ast) :=
  match n with
  | O => Ok (stk, collected)
  | S n' =>
      match stk with
      | [] => UB
      | c :: stk' => pop n' stk' (chain (nodes c) collected)
      end
  end.

(* What the parser does next: the outer loop (look at the input), or the
   reduce loop with production idx. *)
Inductive mode := Look | Reduce (idx : Z).

(* The parser control block.  The top of the stack comes first; text are the
   characters not yet consumed, of which the first held are in the buffer;
   len is this->len; room is the number of allocated stack cells, None
   standing for a stack of unlimited size. *)
Record config := Config {
  stack : list cell;
  text : list ascii;
  held : nat;
  len : nat;
  room : option nat;
  next : mode
}.

(* parse ended: with a syntax tree, or with a parse error. *)
Inductive outcome := Accepted (tree : list ast) | Rejected.

(* narsese.cpp lines 297-349: clear_input, on the characters and the number
   of them in the buffer. *)
Definition clear_input (text : list ascii) (held len : nat) : list ascii * nat :=
  match len with
  | O => (skipn held text, O)
  | _ => (skipn len text, (held - len)%nat)
  end.

(* What stays in the buffer when parse returns, narsese.cpp lines 781 and
   949: the first held characters after clearing. *)
Definition rest (text : list ascii) (held len : nat) : list ascii :=
  let '(t, h) := clear_input text held len in firstn h t.

(* narsese.cpp lines 181-205: alloc_stack before a shift (UNICC_MALLOCSTEP is
   128). *)
Definition grow (room : option nat) (depth : nat) : option nat :=
  match room with
  | Some n => if (depth - 1 =? n)%nat then Some (n + 128)%nat else Some n
  | None => None
  end.

(* tos++ and the write through tos, narsese.cpp lines 801-802 and 895-896:
   undefined when the new cell lies outside the allocation. *)
Definition push (room : option nat) (c : cell) (stk : list cell) : res (list cell) :=
  match room with
  | Some n => if (length stk <? n)%nat then Ok (c :: stk) else UB
  | None => Ok (c :: stk)
  end.

(* narsese.cpp lines 807 and 914: the state of a pushed cell, -1 when the
   action also reduces. *)
Definition target (act idx : Z) : Z := if Z.testbit act 0 then -1 else idx.

(* Whether the reduce loop is entered or continued, narsese.cpp line 702. *)
Definition after (act idx : Z) : mode := if Z.testbit act 0 then Reduce idx else Look.

(* narsese.cpp lines 815-937: get a token, look up the action, shift. *)
Definition look (cfg : config) : res (config + outcome * list ascii) :=
  match stack cfg with
  | [] => UB
  | top :: _ =>
      bind (get_sym (state top) (text cfg)) (fun f =>
      let held := Nat.max (held cfg) (fread f) in
      bind (get_act (state top) (fsym f)) (fun o =>
      match o with
      | None => Ok (inr (Rejected, rest (text cfg) held (flen f)))
      | Some (act, idx) =>
          if Z.testbit act 1 then
            let room := grow (room cfg) (length (stack cfg)) in
            bind (rd symbols (fsym f)) (fun s =>
            let leaf :=
              if (fst s =? "")%string then []
              else [Leaf (fst s) (string_of_list_ascii (firstn (flen f) (text cfg)))] in
            bind (push room (Cell (target act idx) leaf) (stack cfg)) (fun stk =>
            let '(t, h, l) :=
              if (fsym f =? 0)%Z || (fsym f =? -1)%Z then (text cfg, held, flen f)
              else (clear_input (text cfg) held (flen f), O) in
            Ok (inl (Config stk t h l room (after act idx)))))
          else
            Ok (inl (Config (stack cfg) (text cfg) held (flen f) (room cfg)
                       (after act idx)))
      end))
  end.

(* narsese.cpp lines 702-810: one round of the reduce loop.  When get_go finds
   nothing, act and idx keep their values and the loop goes on with the same
   production. *)
Definition reduce (idx : Z) (cfg : config) : res (config + outcome * list ascii) :=
  bind (rd productions idx) (fun '(emit, n, lhs) =>
  bind (pop (Z.to_nat n) (stack cfg) []) (fun '(stk, collected) =>
  match stk with
  | [] => UB
  | Cell s own :: below =>
      let all := (own ++ collected)%list in
      let all := if (emit =? "")%string then all else [Node emit all] in
      if (lhs =? 59)%Z && match below with [] => true | _ => false end then
        Ok (inr (Accepted all, rest (text cfg) (held cfg) (len cfg)))
      else
        bind (get_go s lhs) (fun o =>
        let '(act, i) := match o with Some e => e | None => (1, idx) end in
        bind (push (room cfg) (Cell (target act i) []) (Cell s all :: below)) (fun stk =>
        Ok (inl (Config stk (text cfg) (held cfg) (len cfg) (room cfg) (after act i)))))
  end)).

(* One step of the parser. *)
Definition step (cfg : config) : res (config + outcome * list ascii) :=
  match next cfg with
  | Look => look cfg
  | Reduce idx => reduce idx cfg
  end.

(* The main loop, narsese.cpp lines 699-938, for at most fuel steps. *)
Fixpoint run (fuel : nat) (cfg : config) : res (outcome * list ascii) :=
  match fuel with
  | O => OutOfFuel
  | S fuel' =>
      bind (step cfg) (fun r =>
      match r with
      | inl cfg' => run fuel' cfg'
      | inr o => Ok o
      end)
  end.

(* narsese.cpp lines 682-696: the start of parse.  left is what earlier
   parses have left in the buffer.  The stack is allocated anew for every
   parse (stacksize = 0). *)
Definition start (room : option nat) (left : list ascii) (input : string) : config :=
  Config [Cell 0 []] (left ++ line input)%list (length left) 0 room Look.

(* UNICC_MALLOCSTEP, narsese.h line 82: the cells allocated at the start of
   parse. *)
Definition allocated : option nat := Some 128%nat.

(* A number of steps that is always enough (shown in ParserFacts). *)
Definition enough (n : nat) : nat := (20 * n + 20)%nat.

(* narsese.cpp lines 673-960 with Parser.cpp lines 28-34: one call of
   parse_string up to the syntax tree.  The members that the constructor
   leaves uninitialised (error_delay, ast, lexem) are taken to be zero. *)
Definition parse (room : option nat) (left : list ascii) (input : string)
  : res (outcome * list ascii) :=
  run (enough (length left + length (line input))) (start room left input).
