(* The input buffer of the generated parser as memory, and the parser run on
   it.  Parser.v keeps the characters not yet consumed as a list; here they
   are fetched one by one into an allocated block. *)
From Coq Require Import ZArith String Ascii List Bool Arith.
From Verif Require Import Base Tables Parser.
Import ListNotations.
Open Scope list_scope.
Open Scope Z_scope.

(* narsese.h lines 1332-1339 and 240-241: buf, bufend, is_eof, and the
   characters that char_fetcher has still to give.  cells are the allocated
   wide characters (none: buf is NULL), None being one that has not been
   written; used is bufend - buf. *)
Record buffer := Buf {
  cells : list (option Z);
  used : nat;
  queue : list Z;
  ended : bool
}.

(* Reading a character of the block: undefined outside of it, and when it has
   not been written. *)
Definition load (cs : list (option Z)) (i : nat) : res Z :=
  match nth_error cs i with
  | Some (Some v) => Ok v
  | _ => UB
  end.

(* Writing a character of the block: undefined outside of it. *)
Definition store (cs : list (option Z)) (i : nat) (v : Z) : res (list (option Z)) :=
  if (i <? length cs)%nat then Ok (firstn i cs ++ Some v :: skipn (S i) cs) else UB.

(* narsese.h lines 189-202, fill: the characters before the first NUL
   (c_str), and a newline unless they end with one. *)
Fixpoint before_nul (s : string) : list Z :=
  match s with
  | EmptyString => []
  | String c s' => if code c =? 0 then [] else code c :: before_nul s'
  end.

(* The characters that fill leaves in the fetcher. *)
Definition fill (s : string) : list Z :=
  let q := before_nul s in
  if last q 0 =? 10 then q else q ++ [10].

(* realloc: the characters that fit are kept, new ones are not written. *)
Definition resize (n : nat) (cs : list (option Z)) : list (option Z) :=
  firstn n cs ++ repeat None (n - length cs).

(* narsese.cpp lines 222-257: the block is allocated at the first use, and
   enlarged when it is full (UNICC_MALLOCSTEP is 128).  Running out of memory
   is not modelled. *)
Definition enlarge (b : buffer) : res buffer :=
  match cells b with
  | [] => Ok (Buf (Some 0 :: repeat None 128) 0 (queue b) (ended b))
  | _ =>
      bind (load (cells b) 0) (fun v =>
      if negb (v =? 0) && (used b mod 128 =? 0)%nat
      then Ok (Buf (resize (used b + 129) (cells b)) (used b) (queue b) (ended b))
      else Ok b)
  end.

(* narsese.cpp lines 222-281, one round of the loop of get_input.  The answer
   says whether the end of the input has been reached.  A fetcher that is used
   up gives EOF (narsese.h lines 203-212). *)
Definition refill (b : buffer) : res (bool * buffer) :=
  bind (enlarge b) (fun b =>
  if ended b then Ok (true, b)
  else
    let '(c, q) := match queue b with [] => (-1, []) | c :: q => (c, q) end in
    bind (store (cells b) (used b) c) (fun cs =>
    if c =? 10 then Ok (true, Buf cs (used b) q true)
    else bind (store cs (S (used b)) 0) (fun cs =>
         Ok (false, Buf cs (S (used b)) q false)))).

(* The loop of get_input, narsese.cpp lines 216-295. *)
Fixpoint get_loop (fuel : nat) (offset : nat) (b : buffer) : res (Z * buffer) :=
  if (used b <=? offset)%nat then
    match fuel with
    | O => OutOfFuel
    | S fuel' =>
        bind (refill b) (fun '(stop, b') =>
        if (stop : bool) then Ok (10, b') else get_loop fuel' offset b')
    end
  else bind (load (cells b) offset) (fun v => Ok (v, b)).

(* narsese.cpp lines 210-295: get_input; eof is the newline (Parser.cpp line
   8).  Every round makes one more character available. *)
Definition get_input (offset : nat) (b : buffer) : res (Z * buffer) :=
  get_loop (S offset) offset b.

(* narsese.h lines 1345-1346: line and column, not wrapping at 2^64. *)
Definition place := (nat * nat)%type.

(* narsese.cpp lines 304-313: counting the characters that are removed. *)
Fixpoint advance (n : nat) (cs : list (option Z)) (p : place) : res place :=
  match n with
  | O => Ok p
  | S n' =>
      match cs with
      | Some v :: cs' =>
          advance n' cs' (if v =? 10 then (S (fst p), 1%nat) else (fst p, S (snd p)))
      | _ => UB
      end
  end.

(* narsese.cpp lines 297-349: clear_input.  memmove copies the characters
   from len on, the one at bufend, and one more; it may copy characters that
   have not been written, but not any outside of the block. *)
Definition clear (len : nat) (b : buffer) (p : place) : res (buffer * place) :=
  match cells b with
  | [] => Ok (b, p)
  | _ =>
      match len with
      | O => bind (store (cells b) 0 0) (fun cs => Ok (Buf cs 0 (queue b) (ended b), p))
      | _ =>
          bind (advance len (cells b) p) (fun p' =>
          if (used b <? len)%nat || (length (cells b) <? used b + 2)%nat then UB
          else
            let n := (used b - len + 2)%nat in
            Ok (Buf (firstn n (skipn len (cells b)) ++ skipn n (cells b))
                  (used b - len) (queue b) (ended b), p'))
      end
  end.

(* narsese.cpp lines 18-44: get_lexem.  wcstombs reads up to the first NUL.
   It fails on a character outside of ASCII (negative here, see code); then
   the result is a block of no characters, and using it is undefined. *)
Fixpoint lexem (cs : list (option Z)) : res (list Z) :=
  match cs with
  | Some v :: cs' =>
      if v =? 0 then Ok []
      else if (v <? 0) || (127 <? v) then UB
      else bind (lexem cs') (fun w => Ok (v :: w))
  | _ => UB
  end.

(* narsese.cpp lines 375-436, the do-while of lex, with the character at
   offset len read already; best is (this->sym, this->len). *)
Fixpoint lex_loop (fuel : nat) (machine st next : Z) (len : nat) (best : Z * nat) (b : buffer)
  : res (Z * nat * buffer) :=
  match fuel with
  | O => OutOfFuel
  | S fuel' =>
      bind (dfa_step machine st next) (fun o =>
      match o with
      | None => Ok (best, b)
      | Some st' =>
          bind (rd dfa_accept machine) (fun row =>
          bind (rd row st') (fun a =>
          let more best :=
            bind (get_input (S len) b) (fun '(c, b') =>
            if c =? 10 then Ok (best, b')
            else lex_loop fuel' machine st' c (S len) best b') in
          if 0 <? a then
            let sym := a - 1 in
            if sym =? 0 then Ok (0, S len, b)
            else bind (rd symbols sym) (fun s =>
              if snd s then more (sym, S len) else Ok (sym, S len, b))
          else more best))
      end)
  end.

(* narsese.cpp lines 352-526: lex and get_sym. *)
Definition next_sym (s : Z) (b : buffer) : res (Z * nat * buffer) :=
  bind (rd dfa_select s) (fun machine =>
  bind (get_input 0 b) (fun '(c, b') =>
  if c =? 10 then Ok (0, O, b')
  else if -1 <? machine
  then lex_loop (S (used b' + length (queue b'))) machine 0 c 0 (-1, O) b'
  else Ok (-1, O, b'))).

(* The parser control block, as config of Parser.v with the buffer as memory,
   and with line and column. *)
Record machine := Machine {
  mstack : list cell;
  mbuf : buffer;
  mlen : nat;
  mroom : option nat;
  mnext : mode;
  mplace : place
}.

(* parse ended: with a syntax tree, or with a parse error and its report
   (UNICC_PARSE_ERROR, narsese.h lines 63-68): line and column, and the
   token, which is undefined on its own, so that what the parser does besides
   can be seen. *)
Inductive ending :=
  | Built (tree : list ast)
  | Failed (at_ : place) (token : res (list Z)).

(* narsese.cpp lines 815-937 as in Parser.v: get a token, look up the action,
   shift.  On shifting, the character behind the token is put by and replaced
   by a NUL for the time of taking the token. *)
Definition mlook (m : machine) : res (machine + ending * buffer) :=
  match mstack m with
  | [] => UB
  | top :: _ =>
      bind (next_sym (state top) (mbuf m)) (fun '(sym, len, b) =>
      bind (get_act (state top) sym) (fun o =>
      match o with
      | None =>
          bind (clear len b (mplace m)) (fun '(b', _) =>
          Ok (inr (Failed (mplace m) (lexem (cells b)), b')))
      | Some (act, idx) =>
          if Z.testbit act 1 then
            bind (load (cells b) len) (fun keep =>
            bind (store (cells b) len 0) (fun cs =>
            let room := grow (mroom m) (length (mstack m)) in
            bind (get_input 0 (Buf cs (used b) (queue b) (ended b))) (fun '(_, b1) =>
            bind (rd symbols sym) (fun s =>
            bind (if (fst s =? "")%string then Ok []
                  else bind (lexem (cells b1)) (fun w =>
                       Ok [Leaf (fst s) (string_of_list_ascii
                             (map (fun v => ascii_of_nat (Z.to_nat v)) w))])) (fun leaf =>
            bind (push room (Cell (target act idx) leaf) (mstack m)) (fun stk =>
            bind (store (cells b1) len keep) (fun cs' =>
            let b2 := Buf cs' (used b1) (queue b1) (ended b1) in
            if (sym =? 0) || (sym =? -1)
            then Ok (inl (Machine stk b2 len room (after act idx) (mplace m)))
            else bind (clear len b2 (mplace m)) (fun '(b3, p) =>
                 Ok (inl (Machine stk b3 0 room (after act idx) p))))))))))
          else Ok (inl (Machine (mstack m) b len (mroom m) (after act idx) (mplace m)))
      end))
  end.

(* narsese.cpp lines 702-810 as in Parser.v: one round of the reduce loop.
   When the goal is reached the buffer is cleared at line 781 and once more at
   line 949. *)
Definition mreduce (idx : Z) (m : machine) : res (machine + ending * buffer) :=
  bind (rd productions idx) (fun '(emit, n, lhs) =>
  bind (pop (Z.to_nat n) (mstack m) []) (fun '(stk, collected) =>
  match stk with
  | [] => UB
  | Cell s own :: below =>
      let all := own ++ collected in
      let all := if (emit =? "")%string then all else [Node emit all] in
      if (lhs =? 59) && match below with [] => true | _ => false end then
        bind (clear (mlen m) (mbuf m) (mplace m)) (fun '(b, p) =>
        bind (clear 0 b p) (fun '(b', _) => Ok (inr (Built all, b'))))
      else
        bind (get_go s lhs) (fun o =>
        let '(act, i) := match o with Some e => e | None => (1, idx) end in
        bind (push (mroom m) (Cell (target act i) []) (Cell s all :: below)) (fun stk =>
        Ok (inl (Machine stk (mbuf m) (mlen m) (mroom m) (after act i) (mplace m)))))
  end)).

(* One step of the parser. *)
Definition mstep (m : machine) : res (machine + ending * buffer) :=
  match mnext m with
  | Look => mlook m
  | Reduce idx => mreduce idx m
  end.

(* The main loop, narsese.cpp lines 699-938, for at most fuel steps. *)
Fixpoint mrun (fuel : nat) (m : machine) : res (ending * buffer) :=
  match fuel with
  | O => OutOfFuel
  | S fuel' =>
      bind (mstep m) (fun r =>
      match r with
      | inl m' => mrun fuel' m'
      | inr o => Ok o
      end)
  end.

(* Parser.cpp lines 28-34 and narsese.cpp lines 673-696: filling the fetcher
   and starting to parse with the buffer that earlier parses have left. *)
Definition mstart (room : option nat) (b : buffer) (input : string) : machine :=
  Machine [Cell 0 []] (Buf (cells b) (used b) (fill input) false) 0 room Look (1%nat, 1%nat).

(* narsese.cpp lines 673-961 with Parser.cpp lines 28-34: one call of
   parse_string up to the syntax tree. *)
Definition mparse (room : option nat) (b : buffer) (input : string) : res (ending * buffer) :=
  mrun (enough (used b + length (fill input))) (mstart room b input).

(* Parser.cpp line 10: a new parser has no buffer.  bufend, which the
   constructor leaves uninitialised, is taken to be NULL like the members
   named in Parser.v. *)
Definition no_buffer : buffer := Buf [] 0 [] false.

(* Parsing several inputs one after another with the same parser object. *)
Fixpoint msession (room : option nat) (b : buffer) (inputs : list string)
  : res (list ending * buffer) :=
  match inputs with
  | [] => Ok ([], b)
  | s :: inputs' =>
      bind (mparse room b s) (fun r =>
      bind (msession room (snd r) inputs') (fun q =>
      Ok (fst r :: fst q, snd q)))
  end.
