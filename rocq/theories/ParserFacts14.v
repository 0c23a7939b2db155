(* The texts the parser accepts, by their characters. *)
From Coq Require Import ZArith String Ascii List Bool Lia.
From Verif Require Import Base Tables Parser ParserSpec Grammar GrammarSpec LexFacts LexFacts2 ParserCert ParserFacts ParserFacts2 ParserFacts3 ParserFacts8 ParserRuns.
From Verif Require Import ParserAhead ParserFacts9 ParserFacts10 ParserFacts11 ParserFacts12 ParserFacts13.
Import ListNotations.
Open Scope string_scope.
Open Scope list_scope.
Open Scope Z_scope.

Lemma code_inj c d : code c = code d -> c = d.
Proof.
  unfold code. intros E. rewrite <- (ascii_nat_embedding c), <- (ascii_nat_embedding d). f_equal.
  pose proof (nat_ascii_bounded c) as B1. pose proof (nat_ascii_bounded d) as B2.
  destruct (Z.ltb_spec (Z.of_nat (nat_of_ascii c)) 128); destruct (Z.ltb_spec (Z.of_nat (nat_of_ascii d)) 128); lia.
Qed.

Lemma blank_text w : matches (lexeme 58) w -> w = [" "%char] \/ w = [ascii_of_nat 9].
Proof.
  change (lexeme 58) with (Range [(9, 9); (32, 32)]). intros M. inversion M as [|l c I| | | | | |]; subst.
  unfold in_ranges in I. cbn [existsb fst snd] in I. rewrite orb_false_r, orb_true_iff, !andb_true_iff, !Z.leb_le in I.
  destruct I as [I|I]; [right|left]; f_equal; apply code_inj.
  - transitivity 9; [lia|reflexivity].
  - transitivity 32; [lia|reflexivity].
Qed.

Lemma derivation_spaced t : derivation t -> ~ In (ascii_of_nat 9) (text_of t) -> spaced (tokens t).
Proof.
  intros D N w I. pose proof (derivation_tokens t D) as F. rewrite Forall_forall in F.
  destruct (blank_text w (F _ I)) as [->| ->]; [reflexivity|].
  destruct N. rewrite <- flat_tokens. unfold flat. apply in_concat. exists [ascii_of_nat 9].
  split; [|left; reflexivity]. apply in_map_iff. exists (58, [ascii_of_nat 9]). auto.
Qed.

Theorem accepts_exactly input : ~ In (ascii_of_nat 9) (line input) ->
  ((exists trees, parse unlimited [] input = Ok (Accepted trees, [])) <->
   exists t, derivation t /\ root t = 59 /\ text_of t = line input).
Proof.
  intros P. split.
  - intros (trees & E). destruct (accepted unlimited input trees [] I E) as (t & D & R & T & _). eauto.
  - intros (t & D & R & T). apply (spaced_accepted t); try assumption.
    apply derivation_spaced; [exact D|]. rewrite T. exact P.
Qed.

Theorem others_rejected input : ~ In (ascii_of_nat 9) (line input) ->
  (parse unlimited [] input = Ok (Rejected, []) <-> ~ exists t, derivation t /\ root t = 59 /\ text_of t = line input).
Proof.
  intros P. rewrite <- (accepts_exactly input P). split.
  - intros E (trees & E'). congruence.
  - intros N. destruct (parse_total [] input) as [E|(t & E & _)]; [exact E|]. destruct N. eauto.
Qed.

Theorem reads_preferred t input : derivation t -> root t = 59 -> preferred t -> text_of t = line input ->
  ~ In (ascii_of_nat 9) (line input) -> parse unlimited [] input = Ok (Accepted (projection t), []).
Proof.
  intros D R P T L. apply preferred_accepted; try assumption. apply derivation_spaced; [exact D|].
  rewrite T. exact L.
Qed.

Theorem preferred_exists input trees : ~ In (ascii_of_nat 9) (line input) -> parse unlimited [] input = Ok (Accepted trees, []) ->
  exists t, derivation t /\ root t = 59 /\ preferred t /\ text_of t = line input /\ trees = projection t.
Proof.
  intros P E. destruct (accepted unlimited input trees [] I E) as (t & D & R & T & _).
  destruct (preferable_goal t D R) as (t' & D' & R' & T' & S).
  assert (TX : text_of t' = line input) by (rewrite <- flat_tokens, T', flat_tokens; exact T).
  exists t'. repeat split; try assumption.
  - apply suits_preferred; assumption.
  - assert (G : parse unlimited [] input = Ok (Accepted (projection t'), [])).
    { apply goal_accepted; try assumption. apply derivation_spaced; [exact D'|]. rewrite TX. exact P. }
    congruence.
Qed.

Theorem preferred_unique t t' input : derivation t -> derivation t' -> root t = 59 -> root t' = 59 ->
  preferred t -> preferred t' -> text_of t = line input -> text_of t' = line input -> ~ In (ascii_of_nat 9) (line input) ->
  projection t = projection t'.
Proof.
  intros D D' R R' P P' T T' L.
  pose proof (reads_preferred t input D R P T L) as E. pose proof (reads_preferred t' input D' R' P' T' L) as E'.
  rewrite E in E'. injection E' as E'. exact E'.
Qed.
