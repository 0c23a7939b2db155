(* Accepted inputs are read alike whatever error_delay is. *)
From Coq Require Import ZArith String Ascii List Bool Lia.
From Verif Require Import Base Tables Parser ParserSpec Grammar GrammarSpec ParserFacts ParserFacts3 ParserFacts10 ParserFacts12 ParserFacts13 ParserFacts14 ParserRuns
  Fresh FreshSpec FreshSpec3 FreshFacts FreshFacts4 FreshFacts5 FreshFacts7.
Import ListNotations.
Open Scope string_scope.
Open Scope list_scope.
Open Scope Z_scope.

(* Nothing is dropped; only more of the input may be in the buffer. *)
Lemma resume_sees : forall d c, sees c -> next c = Look -> exists c1, resume d c = Ok c1 /\ look c1 = look c /\ stack c1 = stack c.
Proof.
  intros d c S NX. destruct (S NX) as (top & below & f & SK & E & P).
  unfold resume. destruct (d =? error_delay_start); [|exists c; auto].
  rewrite SK. cbn [skip]. rewrite E. cbn [bind]. destruct (Z.ltb_spec (-1) (fsym f)); [|lia]. cbn [bind].
  eexists. split; [reflexivity|]. split; [|reflexivity].
  unfold look. cbn [stack text held len room next]. rewrite SK, E. cbn [bind].
  replace (Nat.max (Nat.max (held c) (fread f)) (fread f)) with (Nat.max (held c) (fread f)) by lia. reflexivity.
Qed.

Lemma dstep_sees : forall d c c', sees c -> step c = Ok (inl c') -> exists d', dstep d c = Ok (inl (d', c')).
Proof.
  intros d c c' S E. unfold dstep. unfold step in E. destruct (next c) eqn:NX.
  - unfold dlook. destruct (resume_sees d c S NX) as (c1 & E1 & E2 & E3). rewrite E1. cbn [bind].
    rewrite E2, E. cbn [bind]. eexists. reflexivity.
  - rewrite E. cbn [bind]. eexists. reflexivity.
Qed.

Lemma drun_goes : forall c c', goes c c' -> forall o i fuel d, next c' = Reduce i -> step c' = Ok (inr o) ->
  drun fuel d c = OutOfFuel \/ exists d', drun fuel d c = Ok (d', o).
Proof.
  induction 1 as [c|c c1 c2 S E G IH]; intros o i fuel d NX A; destruct fuel as [|fuel]; try (left; reflexivity).
  - right. exists d. cbn [drun]. unfold dstep, step in *. rewrite NX in *. rewrite A. reflexivity.
  - cbn [drun]. destruct (dstep_sees d c c1 S E) as (d' & E'). rewrite E'. cbn [bind]. exact (IH o i fuel d' NX A).
Qed.

Lemma accepted_alike : forall d input trees, ~ In (ascii_of_nat 9) (line input) ->
  parse unlimited [] input = Ok (Accepted trees, []) ->
  plain (dparse unlimited d [] input) = Ok (Accepted trees, []).
Proof.
  intros d input trees P E.
  destruct (preferred_exists input trees P E) as (t & D & R & PR & TX & ->).
  destruct (goal_watched t input D R (proj1 (preferred_places t D PR)) TX) as (c & G & NX & ST).
  { apply derivation_spaced; [exact D|]. rewrite TX. exact P. }
  unfold dparse. destruct (drun_goes _ _ G _ _ (enough (length (@nil ascii) + length (line input))) d NX ST) as [Q|[d' Q]].
  - exfalso. destruct (dparse_split d [] input) as (d1 & o & Q' & _). unfold dparse in Q'. rewrite Q in Q'. discriminate.
  - rewrite Q. reflexivity.
Qed.

Lemma accepted_first : forall d input trees kept, (String.length input <= 123)%nat -> ~ In (ascii_of_nat 9) (line input) ->
  parse allocated [] input = Ok (Accepted trees, kept) ->
  plain (dparse allocated d [] input) = Ok (Accepted trees, kept).
Proof.
  intros d input trees kept L P E. destruct (short_input input L) as [EQ SH].
  assert (K : kept = []).
  { destruct SH as [SH|(trees' & SH)]; rewrite E in SH; congruence. }
  subst kept. rewrite (dparse_short d input L). apply accepted_alike; [exact P|]. rewrite <- EQ. exact E.
Qed.

(* A session of accepted inputs *)
Lemma session_alike : forall inputs d, Forall (fun s => ~ In (ascii_of_nat 9) (line s) /\
    exists trees, parse unlimited [] s = Ok (Accepted trees, [])) inputs ->
  dsession unlimited d [] inputs = session unlimited [] inputs.
Proof.
  intros inputs d F. revert d. induction F as [|s inputs [P [trees E]] F IH]; intros d; [reflexivity|].
  cbn [dsession session]. rewrite E. cbn [bind].
  pose proof (accepted_alike d s trees P E) as A. unfold plain in A.
  destruct (dparse unlimited d [] s) as [[d' [o kept]]| | |]; cbn [bind snd] in A; try discriminate.
  injection A as -> ->. cbn [bind]. rewrite IH. reflexivity.
Qed.

Lemma alike_case : ~ In (ascii_of_nat 9) (line "$0.5;0.5;0.5$ <(&,a,b) --> b>. :|: %1.0;0.9%") /\
  (exists trees, parse unlimited [] "$0.5;0.5;0.5$ <(&,a,b) --> b>. :|: %1.0;0.9%" = Ok (Accepted trees, [])).
Proof.
  split.
  - vm_compute. intros H. repeat (destruct H as [H|H]; [discriminate H|]). exact H.
  - assert (E : match parse unlimited [] "$0.5;0.5;0.5$ <(&,a,b) --> b>. :|: %1.0;0.9%" with
                | Ok (Accepted _, []) => true | _ => false end = true) by (vm_compute; reflexivity).
    destruct (parse unlimited [] "$0.5;0.5;0.5$ <(&,a,b) --> b>. :|: %1.0;0.9%") as [[[trees|] [|]]| | |]; try discriminate.
    exists trees. reflexivity.
Qed.
