(* The syntax tree in memory: the nodes that the parser makes with malloc,
   links with each other while it reduces, and frees after use (narsese.cpp
   lines 18-95, 721-768, 895-924 and 946-957, Parser.cpp lines 28-48 and
   67-108).  Everything about states, tables and characters is as in Parser.v.

   A node and the text of a token are blocks of memory with an address; no
   pointer is None.  Reading, writing or freeing what is not allocated is
   undefined behaviour (UB).  malloc never fails, and addresses are not used
   again.  The member parent is always null and left out, as are the memory of
   the parse stack (room of Parser.v) and of the input buffer (Buffer.v). *)
From Coq Require Import ZArith String Ascii List Bool.
From Verif Require Import Base Maps Tables Parser.
Import ListNotations.
Open Scope string_scope.
Open Scope list_scope.
Open Scope Z_scope.

(* _ast* and UNICC_SCHAR*, narsese.h lines 41-50 and 148; None is null *)
Definition ptr := option Z.

(* struct _AST, narsese.h lines 150-159 *)
Record node := Nd { emit : string; token : ptr; child : ptr; prev : ptr; nxt : ptr }.

(* What is allocated: nodes (narsese.cpp line 65) and texts (lines 29 and 78) *)
Inductive block := BNode (n : node) | BText (s : string).

(* The memory: the next address, and the blocks there are *)
Record heap := Heap { top : Z; live : list (Z * block) }.

(* A part of the program that works on the memory (no code of its own) *)
Definition M (A : Type) := heap -> heap * res A.
Definition ret {A} (a : A) : M A := fun h => (h, Ok a).
Definition lift {A} (r : res A) : M A := fun h => (h, r).
Definition mbind {A B} (m : M A) (f : A -> M B) : M B := fun h =>
  match m h with
  | (h, Ok a) => f a h
  | (h, UB) => (h, UB)
  | (h, Throw) => (h, Throw)
  | (h, OutOfFuel) => (h, OutOfFuel)
  end.
Notation "x <- m ;; k" := (mbind m (fun x => k)) (at level 61, m at next level, right associativity).
Notation "m ;;; k" := (mbind m (fun _ => k)) (at level 61, right associativity).

(* malloc or strdup with what is written there first, narsese.cpp lines 29-37,
   65-73 and 78 *)
Definition new (b : block) : M Z := fun h =>
  (Heap (top h + 1) ((top h, b) :: live h), Ok (top h)).

(* free, narsese.cpp lines 27, 55, 57 and 955; freeing a null pointer does
   nothing *)
Definition free (p : ptr) : M unit := fun h =>
  match p with
  | None => (h, Ok tt)
  | Some a => if has Z.eqb a (live h) then (Heap (top h) (unset Z.eqb a (live h)), Ok tt) else (h, UB)
  end.

(* Following a pointer to a node, as in narsese.cpp lines 51-55, 730 and 749, or
   to a text, as in line 78 *)
Definition node_at (p : ptr) : M node := fun h =>
  match p with
  | None => (h, UB)
  | Some a => match lookup Z.eqb a (live h) with Some (BNode n) => (h, Ok n) | _ => (h, UB) end
  end.
Definition text_at (p : ptr) : M string := fun h =>
  match p with
  | None => (h, UB)
  | Some a => match lookup Z.eqb a (live h) with Some (BText s) => (h, Ok s) | _ => (h, UB) end
  end.

(* Assigning to a member of a node, as in narsese.cpp lines 733-734, 752-753
   and 765 *)
Definition update (p : ptr) (f : node -> node) : M unit := fun h =>
  match p with
  | None => (h, UB)
  | Some a =>
      match lookup Z.eqb a (live h) with
      | Some (BNode n) => (Heap (top h) (set Z.eqb a (BNode (f n)) (live h)), Ok tt)
      | _ => (h, UB)
      end
  end.
Definition set_child (q : ptr) (n : node) : node := Nd (emit n) (token n) q (prev n) (nxt n).
Definition set_prev (q : ptr) (n : node) : node := Nd (emit n) (token n) (child n) q (nxt n).
Definition set_next (q : ptr) (n : node) : node := Nd (emit n) (token n) (child n) (prev n) q.

(* Loops and recursions along pointers are given as many rounds as there are
   blocks, and one more. *)
Definition rounds {A} (f : nat -> M A) : M A := fun h => f (S (length (live h))) h.

(* narsese.cpp lines 18-44: get_lexem.  The member lexem comes and goes. *)
Definition get_lexem (lexem : ptr) (text : string) : M ptr :=
  free lexem ;;; a <- new (BText text) ;; ret (Some a).

(* narsese.cpp lines 61-95: ast_create *)
Definition ast_create (name : string) (tok : ptr) : M ptr :=
  match tok with
  | None => a <- new (BNode (Nd name None None None None)) ;; ret (Some a)
  | Some _ =>
      a <- new (BNode (Nd name None None None None)) ;;
      s <- text_at tok ;;
      t <- new (BText s) ;;
      update (Some a) (fun n => Nd (emit n) (Some t) (child n) (prev n) (nxt n)) ;;;
      ret (Some a)
  end.

(* narsese.cpp lines 46-59: ast_free *)
Fixpoint ast_free (fuel : nat) (p : ptr) : M unit :=
  match fuel with
  | O => lift OutOfFuel
  | S fuel' =>
      match p with
      | None => ret tt
      | Some _ =>
          n <- node_at p ;; ast_free fuel' (child n) ;;;
          n <- node_at p ;; ast_free fuel' (nxt n) ;;;
          n <- node_at p ;; free (token n) ;;;
          free p
      end
  end.

(* Lines 730-731: while( node->prev ) node = node->prev; *)
Fixpoint first (fuel : nat) (p : ptr) : M ptr :=
  match fuel with
  | O => lift OutOfFuel
  | S fuel' =>
      n <- node_at p ;;
      match prev n with None => ret p | Some _ => first fuel' (prev n) end
  end.

(* Lines 749-750: while( lnode->next ) lnode = lnode->next; *)
Fixpoint final (fuel : nat) (p : ptr) : M ptr :=
  match fuel with
  | O => lift OutOfFuel
  | S fuel' =>
      n <- node_at p ;;
      match nxt n with None => ret p | Some _ => final fuel' (nxt n) end
  end.

(* Lines 726-739: what a dropped cell holds is put in front of the nodes
   collected so far. *)
Definition join (own collected : ptr) : M ptr :=
  match own with
  | None => ret collected
  | Some _ =>
      match collected with
      | None => ret own
      | Some _ =>
          n <- rounds (fun fuel => first fuel collected) ;;
          update n (set_prev own) ;;;
          update own (set_next n) ;;;
          ret own
      end
  end.

(* Lines 744-757: the collected nodes are put behind those of the cell below.
   What that cell then points to. *)
Definition append (own collected : ptr) : M ptr :=
  match collected with
  | None => ret own
  | Some _ =>
      match own with
      | Some _ =>
          l <- rounds (fun fuel => final fuel own) ;;
          update l (set_next collected) ;;;
          update collected (set_prev l) ;;;
          ret own
      | None => ret collected
      end
  end.

(* Lines 759-768 *)
Definition wrap (name : string) (own : ptr) : M ptr :=
  if (name =? "")%string then ret own
  else a <- ast_create name None ;; update a (set_child own) ;;; ret a.

(* A cell of the parse stack with its pointer (_tok, narsese.h lines 161-174). *)
Record pcell := PCell { pstate : Z; pnode : ptr }.

(* Lines 722-742 *)
Fixpoint ppop (n : nat) (stk : list pcell) (collected : ptr) : M (list pcell * ptr) :=
  match n with
  | O => ret (stk, collected)
  | S n' =>
      match stk with
      | [] => lift UB
      | c :: stk' => q <- join (pnode c) collected ;; ppop n' stk' q
      end
  end.

(* The parser control block (narsese.h lines 1310-1339) as config of Parser.v,
   and the member lexem. *)
Record pconfig := PConfig {
  pstack : list pcell;
  ptext : list ascii;
  pheld : nat;
  plen : nat;
  proom : option nat;
  pnext : mode;
  plexem : ptr
}.

(* tos++ as push of Parser.v, narsese.cpp lines 801-802 and 895-896 *)
Definition ppush (room : option nat) (c : pcell) (stk : list pcell) : res (list pcell) :=
  match room with
  | Some n => if (length stk <? n)%nat then Ok (c :: stk) else UB
  | None => Ok (c :: stk)
  end.

(* The end of a parse, narsese.cpp lines 775-790 and 851-862: the syntax
   tree or None when the input is rejected, what is left in the buffer, and the
   member lexem. *)
Definition pend := (option ptr * list ascii * ptr)%type.

(* Lines 815-937, as look of Parser.v.  The report of an error asks for the
   text too (narsese.h lines 62-68, narsese.cpp line 585); what it says is
   looked at in Buffer.v. *)
Definition plook (cfg : pconfig) : M (pconfig + pend) :=
  match pstack cfg with
  | [] => lift UB
  | t :: _ =>
      f <- lift (get_sym (pstate t) (ptext cfg)) ;;
      let held := Nat.max (pheld cfg) (fread f) in
      let word := string_of_list_ascii (firstn (flen f) (ptext cfg)) in
      o <- lift (get_act (pstate t) (fsym f)) ;;
      match o with
      | None =>
          x <- get_lexem (plexem cfg) (string_of_list_ascii (firstn held (ptext cfg))) ;;
          ret (inr (None, rest (ptext cfg) held (flen f), x))
      | Some (act, idx) =>
          if Z.testbit act 1 then
            let room := grow (proom cfg) (length (pstack cfg)) in
            s <- lift (rd symbols (fsym f)) ;;
            stk <- lift (ppush room (PCell (target act idx) None) (pstack cfg)) ;;
            r <- (if (fst s =? "")%string then ret (None, plexem cfg)
                  else x <- get_lexem (plexem cfg) word ;;
                       a <- ast_create (fst s) x ;; ret (a, x)) ;;
            let '(t, h, l) :=
              if (fsym f =? 0)%Z || (fsym f =? -1)%Z then (ptext cfg, held, flen f)
              else (clear_input (ptext cfg) held (flen f), O) in
            ret (inl (PConfig (PCell (target act idx) (fst r) :: tl stk) t h l room (after act idx) (snd r)))
          else
            ret (inl (PConfig (pstack cfg) (ptext cfg) held (flen f) (proom cfg)
                        (after act idx) (plexem cfg)))
      end
  end.

(* Lines 702-810, as reduce of Parser.v *)
Definition preduce (idx : Z) (cfg : pconfig) : M (pconfig + pend) :=
  r <- lift (rd productions idx) ;;
  let '(name, n, lhs) := r in
  r <- ppop (Z.to_nat n) (pstack cfg) None ;;
  let '(stk, collected) := r in
  match stk with
  | [] => lift UB
  | PCell s own :: below =>
      all <- append own collected ;;
      all <- wrap name all ;;
      if (lhs =? 59)%Z && match below with [] => true | _ => false end then
        ret (inr (Some all, rest (ptext cfg) (pheld cfg) (plen cfg), plexem cfg))
      else
        o <- lift (get_go s lhs) ;;
        let '(act, i) := match o with Some e => e | None => (1, idx) end in
        stk <- lift (ppush (proom cfg) (PCell (target act i) None) (PCell s all :: below)) ;;
        ret (inl (PConfig stk (ptext cfg) (pheld cfg) (plen cfg) (proom cfg) (after act i) (plexem cfg)))
  end.

(* One round of the loops of narsese.cpp lines 699-938 *)
Definition pstep (cfg : pconfig) : M (pconfig + pend) :=
  match pnext cfg with
  | Look => plook cfg
  | Reduce idx => preduce idx cfg
  end.

(* Lines 699-957, for at most fuel steps: in the end lexem is freed (line 955)
   and the stack with all its pointers is dropped (line 951). *)
Fixpoint prun (fuel : nat) (cfg : pconfig) : M (option ptr * list ascii) :=
  match fuel with
  | O => lift OutOfFuel
  | S fuel' =>
      r <- pstep cfg ;;
      match r with
      | inl cfg' => prun fuel' cfg'
      | inr (o, kept, lexem) => free lexem ;;; ret (o, kept)
      end
  end.

(* Lines 673-960: the tree, or None when the input is rejected *)
Definition pparse (room : option nat) (left : list ascii) (input : string) : M (option ptr * list ascii) :=
  prun (enough (length left + length (line input)))
    (PConfig [PCell 0 None] (left ++ line input) (length left) 0 room Look None).

(* Parser.cpp lines 67-108: how transform goes through the tree, along child
   and next.  A node with a token is a leaf. *)
Fixpoint walk (fuel : nat) (p : ptr) : M (list ast) :=
  match fuel with
  | O => lift OutOfFuel
  | S fuel' =>
      match p with
      | None => ret []
      | Some _ =>
          n <- node_at p ;;
          match token n with
          | Some _ =>
              s <- text_at (token n) ;;
              l <- walk fuel' (nxt n) ;;
              ret (Leaf (emit n) s :: l)
          | None =>
              k <- walk fuel' (child n) ;;
              l <- walk fuel' (nxt n) ;;
              ret (Node (emit n) k :: l)
          end
      end
  end.

(* Parser.cpp lines 28-48 without the actions: an accepted input is parsed,
   looked through and its tree freed.  When parse has failed ast is null
   (unless an exception came before, see C91). *)
Definition pread (room : option nat) (left : list ascii) (input : string) : M (outcome * list ascii) :=
  r <- pparse room left input ;;
  match r with
  | (None, kept) => ret (Rejected, kept)
  | (Some p, kept) =>
      trees <- rounds (fun fuel => walk fuel p) ;;
      rounds (fun fuel => ast_free fuel p) ;;;
      ret (Accepted trees, kept)
  end.
