(* The members of a parser object that its constructor leaves as they are
   (Parser.cpp lines 6-27; narsese.h lines 1310-1346 and 1391-1392): what the
   memory held before is what they start with.  The parser made with new
   (NarseseParser.h line 31) finds anything there. *)
From Coq Require Import ZArith String Ascii List Bool.
From Verif Require Import Base Tables Parser.
From Verif Require Buffer Nodes.
Import ListNotations.
Open Scope list_scope.
Open Scope Z_scope.

(* ---- error_delay ---- *)

(* narsese.h line 113, UNICC_ERROR_DELAY *)
Definition error_delay_start : Z := 3.

(* narsese.cpp lines 826-832: characters that begin no token are dropped, one
   at a time.  get_sym finds a token or the end of the input at last. *)
Fixpoint skip (fuel : nat) (s : Z) (text : list ascii) (held : nat) : res (list ascii * nat) :=
  match fuel with
  | O => OutOfFuel
  | S fuel' =>
      bind (get_sym s text) (fun f =>
      let held := Nat.max held (fread f) in
      if -1 <? fsym f then Ok (text, held)
      else let '(t, h) := clear_input text held 1 in skip fuel' s t h)
  end.

(* narsese.cpp lines 815-841 with error_delay = d: old_sym is -1 at the start
   (line 693) and always (lines 577-588 leave it, line 932), so only d is asked. *)
Definition resume (d : Z) (cfg : config) : res config :=
  if d =? error_delay_start then
    match stack cfg with
    | [] => UB
    | top :: _ =>
        bind (skip (S (length (text cfg))) (state top) (text cfg) (held cfg)) (fun '(t, h) =>
        Ok (Config (stack cfg) t h (len cfg) (room cfg) (next cfg)))
    end
  else Ok cfg.

(* narsese.cpp lines 815-938 as look of Parser.v; a shift, which makes the stack grow,
   counts error_delay down unless it is 0 (lines 935-936). *)
Definition dlook (d : Z) (cfg : config) : res (Z * config + Z * (outcome * list ascii)) :=
  bind (resume d cfg) (fun cfg =>
  bind (look cfg) (fun r =>
  match r with
  | inl c => Ok (inl (if (length (stack cfg) <? length (stack c))%nat && negb (d =? 0) then d - 1 else d, c))
  | inr o => Ok (inr (d, o))
  end)).

(* One round, as step of Parser.v (narsese.cpp lines 699-938) *)
Definition dstep (d : Z) (cfg : config) : res (Z * config + Z * (outcome * list ascii)) :=
  match next cfg with
  | Look => dlook d cfg
  | Reduce idx =>
      bind (reduce idx cfg) (fun r =>
      match r with inl c => Ok (inl (d, c)) | inr o => Ok (inr (d, o)) end)
  end.

(* narsese.cpp lines 699-938 for at most fuel steps, as run of Parser.v *)
Fixpoint drun (fuel : nat) (d : Z) (cfg : config) : res (Z * (outcome * list ascii)) :=
  match fuel with
  | O => OutOfFuel
  | S fuel' =>
      bind (dstep d cfg) (fun r =>
      match r with
      | inl (d', cfg') => drun fuel' d' cfg'
      | inr o => Ok o
      end)
  end.

(* narsese.cpp lines 673-960, as parse of Parser.v, with error_delay = d; the
   first result is what error_delay is afterwards.  It is not set anywhere
   else. *)
Definition dparse (room : option nat) (d : Z) (left : list ascii) (input : string)
  : res (Z * (outcome * list ascii)) :=
  drun (enough (length left + length (line input))) d (start room left input).

(* Several inputs one after another with the same parser, whose error_delay is
   d at the start: what each gives *)
Fixpoint dsession (room : option nat) (d : Z) (left : list ascii) (inputs : list string)
  : res (list outcome * list ascii) :=
  match inputs with
  | [] => Ok ([], left)
  | s :: inputs' =>
      bind (dparse room d left s) (fun '(d', (o, kept)) =>
      bind (dsession room d' kept inputs') (fun q => Ok (o :: fst q, snd q)))
  end.

(* ---- bufend ---- *)

(* Parser.cpp line 10 with narsese.h line 1334: buf is NULL, and bufend is k
   characters from it.  Buffer.v takes k to be 0. *)
Definition stale_buffer (k : nat) : Buffer.buffer := Buffer.Buf [] k [] false.

(* ---- lexem and ast ---- *)

(* pparse of Nodes.v (narsese.cpp lines 673-960) with what the member lexem
   (narsese.h line 1332) holds at the start *)
Definition lparse (x : Nodes.ptr) (room : option nat) (left : list ascii) (input : string)
  : Nodes.M (option Nodes.ptr * list ascii) :=
  Nodes.prun (enough (length left + length (line input)))
    (Nodes.PConfig [Nodes.PCell 0 None] (left ++ line input) (length left) 0 room Look x).

(* Parser.cpp lines 28-47 without the actions, as pread of Nodes.v, when lexem
   holds x and ast (narsese.h line 1392) holds a at the start: ast is set only
   when an input is accepted (narsese.cpp line 779), and looked through whenever
   it is not null. *)
Definition first_read (x a : Nodes.ptr) (room : option nat) (left : list ascii) (input : string)
  : Nodes.M (outcome * list ascii) :=
  Nodes.mbind (lparse x room left input) (fun '(p, kept) =>
  match (match p with Some q => q | None => a end), p with
  | None, None => Nodes.ret (Rejected, kept)
  | q, _ =>
      Nodes.mbind (Nodes.rounds (fun fuel => Nodes.walk fuel q)) (fun trees =>
      Nodes.mbind (Nodes.rounds (fun fuel => Nodes.ast_free fuel q)) (fun _ =>
      Nodes.ret (Accepted trees, kept)))
  end).
