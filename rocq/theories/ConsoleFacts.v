(* What is still to be read does not matter to a parse that stays within its
   line. *)
From Coq Require Import ZArith String Ascii List Bool Arith Lia.
From Verif Require Import Base Tables Parser Buffer BufferSpec BufferFacts BufferFacts3 Console ConsoleSpec.
Import ListNotations.
Open Scope list_scope.
Open Scope Z_scope.

Definition rmap {A B} (f : A -> B) (r : res A) : res B := bind r (fun a => Ok (f a)).

Lemma rmap_bind {A B C} (f : B -> C) (r : res A) (g : A -> res B) :
  rmap f (bind r g) = bind r (fun a => rmap f (g a)).
Proof. destruct r; reflexivity. Qed.

Section Later.
Variable later : list Z.

Definition more (b : buffer) : buffer := Buf (cells b) (used b) (queue b ++ later) (ended b).

(* The end of the line is known, or still to come. *)
Definition bounded (b : buffer) : Prop := ended b = true \/ In 10 (queue b).

Lemma enlarge_more b : enlarge (more b) = rmap more (enlarge b).
Proof.
  unfold enlarge. cbn [cells more]. destruct (cells b) as [|c cs] eqn:E; [reflexivity|].
  destruct (load (c :: cs) 0) as [v| | |]; cbn [bind rmap]; try reflexivity.
  cbn [used more]. destruct (negb (v =? 0) && (used b mod 128 =? 0)%nat); reflexivity.
Qed.

Lemma enlarge_keeps b b' : enlarge b = Ok b' ->
  queue b' = queue b /\ ended b' = ended b /\ used b' = (match cells b with [] => O | _ => used b end).
Proof.
  unfold enlarge. destruct (cells b) as [|c cs] eqn:E; [intros H; injection H as <-; auto|].
  destruct (load (c :: cs) 0) as [v| | |]; cbn [bind]; try discriminate.
  destruct (_ && _); intros H; injection H as <-; auto.
Qed.

Lemma refill_later b : bounded b ->
  refill (more b) = rmap (fun '(s, b) => (s, more b)) (refill b) /\
  (forall s b', refill b = Ok (s, b') -> bounded b').
Proof.
  intros B. unfold refill. rewrite enlarge_more.
  destruct (enlarge b) as [b1| | |] eqn:E; cbn [bind rmap]; try (split; [reflexivity|discriminate]).
  destruct (enlarge_keeps _ _ E) as (Q1 & Q2 & _).
  assert (B1 : bounded b1) by (unfold bounded in *; rewrite Q1, Q2; exact B). clear B E Q1 Q2 b.
  cbn [ended more]. destruct (ended b1) eqn:ED.
  { split; [reflexivity|]. intros s b' H. injection H as <- <-. left; exact ED. }
  destruct B1 as [B1|B1]; [congruence|].
  destruct (queue b1) as [|c q] eqn:Q; [destruct B1|]. cbn [more queue app cells used]. rewrite Q. cbn [app].
  destruct (store (cells b1) (used b1) c) as [cs| | |]; cbn [bind]; try (split; [reflexivity|discriminate]).
  destruct (Z.eqb_spec c 10) as [C|C].
  { split; [reflexivity|]. intros s b' H. injection H as <- <-. left; reflexivity. }
  destruct (store cs (S (used b1)) 0) as [cs'| | |]; cbn [bind]; try (split; [reflexivity|discriminate]).
  split; [reflexivity|]. intros s b' H. injection H as <- <-. right. cbn [queue].
  destruct B1 as [B1|B1]; [congruence|exact B1].
Qed.

Lemma get_loop_later off : forall fuel b, bounded b ->
  get_loop fuel off (more b) = rmap (fun '(c, b) => (c, more b)) (get_loop fuel off b) /\
  (forall c b', get_loop fuel off b = Ok (c, b') -> bounded b').
Proof.
  induction fuel as [|fuel IH]; intros b B; cbn [get_loop]; cbn [used more].
  - destruct (used b <=? off)%nat; [split; [reflexivity|discriminate]|].
    cbn [cells more]. destruct (load (cells b) off) as [v| | |]; cbn [bind rmap]; split; try reflexivity; try discriminate.
    intros c b' H. injection H as <- <-. exact B.
  - destruct (used b <=? off)%nat.
    + destruct (refill_later b B) as [R1 R2]. rewrite R1.
      destruct (refill b) as [[s b1]| | |]; cbn [bind rmap]; try (split; [reflexivity|discriminate]).
      specialize (R2 s b1 eq_refl). destruct s.
      * split; [reflexivity|]. intros c b' H. injection H as <- <-. exact R2.
      * apply IH, R2.
    + cbn [cells more]. destruct (load (cells b) off) as [v| | |]; cbn [bind rmap]; split; try reflexivity; try discriminate.
      intros c b' H. injection H as <- <-. exact B.
Qed.

Lemma get_input_later off b : bounded b ->
  get_input off (more b) = rmap (fun '(c, b) => (c, more b)) (get_input off b) /\
  (forall c b', get_input off b = Ok (c, b') -> bounded b').
Proof. apply get_loop_later. Qed.

Lemma lex_loop_later machine : forall fuel st next len best b, bounded b ->
  lex_loop fuel machine st next len best (more b) =
    rmap (fun '(s, b) => (s, more b)) (lex_loop fuel machine st next len best b) /\
  (forall s b', lex_loop fuel machine st next len best b = Ok (s, b') -> bounded b').
Proof.
  induction fuel as [|fuel IH]; intros st next len best b B; [split; [reflexivity|discriminate]|].
  cbn [lex_loop].
  destruct (dfa_step machine st next) as [[st'|]| | |]; cbn [bind rmap]; try (split; [reflexivity|discriminate]).
  2: { split; [reflexivity|]. intros s b' H. injection H as <- <-. exact B. }
  destruct (rd dfa_accept machine) as [row| | |]; cbn [bind rmap]; try (split; [reflexivity|discriminate]).
  destruct (rd row st') as [a| | |]; cbn [bind rmap]; try (split; [reflexivity|discriminate]).
  assert (M : forall best,
    bind (get_input (S len) (more b)) (fun '(c, b') =>
      if c =? 10 then Ok (best, b') else lex_loop fuel machine st' c (S len) best b') =
    rmap (fun '(s, b) => (s, more b)) (bind (get_input (S len) b) (fun '(c, b') =>
      if c =? 10 then Ok (best, b') else lex_loop fuel machine st' c (S len) best b')) /\
    (forall s b2, bind (get_input (S len) b) (fun '(c, b') =>
      if c =? 10 then Ok (best, b') else lex_loop fuel machine st' c (S len) best b') = Ok (s, b2) -> bounded b2)).
  { intros best'. destruct (get_input_later (S len) b B) as [G1 G2]. rewrite G1.
    destruct (get_input (S len) b) as [[c b1]| | |]; cbn [bind rmap]; try (split; [reflexivity|discriminate]).
    specialize (G2 c b1 eq_refl). destruct (c =? 10).
    - split; [reflexivity|]. intros s b2 H. injection H as <- <-. exact G2.
    - apply IH, G2. }
  destruct (0 <? a); [|apply M].
  destruct (a - 1 =? 0).
  { split; [reflexivity|]. intros s b2 H. injection H as <- <-. exact B. }
  destruct (rd symbols (a - 1)) as [sy| | |]; cbn [bind rmap]; try (split; [reflexivity|discriminate]).
  destruct (snd sy); [apply M|]. split; [reflexivity|]. intros s b2 H. injection H as <- <-. exact B.
Qed.

Lemma lex_loop_fuel machine : forall fuel st next len best b fuel',
  lex_loop fuel machine st next len best b <> OutOfFuel -> (fuel <= fuel')%nat ->
  lex_loop fuel' machine st next len best b = lex_loop fuel machine st next len best b.
Proof.
  induction fuel as [|fuel IH]; intros st next len best b fuel' N L; [exfalso; apply N; reflexivity|].
  destruct fuel' as [|fuel']; [lia|]. cbn [lex_loop] in *.
  destruct (dfa_step machine st next) as [[st'|]| | |]; cbn [bind] in *; try reflexivity.
  destruct (rd dfa_accept machine) as [row| | |]; cbn [bind] in *; try reflexivity.
  destruct (rd row st') as [a| | |]; cbn [bind] in *; try reflexivity.
  assert (M : forall best,
    bind (get_input (S len) b) (fun '(c, b') =>
      if c =? 10 then Ok (best, b') else lex_loop fuel machine st' c (S len) best b') <> OutOfFuel ->
    bind (get_input (S len) b) (fun '(c, b') =>
      if c =? 10 then Ok (best, b') else lex_loop fuel' machine st' c (S len) best b') =
    bind (get_input (S len) b) (fun '(c, b') =>
      if c =? 10 then Ok (best, b') else lex_loop fuel machine st' c (S len) best b')).
  { clear N. intros best' N. destruct (get_input (S len) b) as [[c b1]| | |]; cbn [bind] in *; try reflexivity.
    destruct (c =? 10); [reflexivity|]. apply IH; [exact N|lia]. }
  destruct (0 <? a); [|apply M, N].
  destruct (a - 1 =? 0); [reflexivity|].
  destruct (rd symbols (a - 1)) as [sy| | |]; cbn [bind] in *; try reflexivity.
  destruct (snd sy); [apply M, N|reflexivity].
Qed.

Lemma next_sym_later s b : bounded b -> next_sym s b <> OutOfFuel ->
  next_sym s (more b) = rmap (fun '(r, b) => (r, more b)) (next_sym s b) /\
  (forall r b', next_sym s b = Ok (r, b') -> bounded b').
Proof.
  intros B N. unfold next_sym in *.
  destruct (rd dfa_select s) as [machine| | |]; cbn [bind rmap] in *; try (split; [reflexivity|discriminate]).
  destruct (get_input_later 0 b B) as [G1 G2]. rewrite G1.
  destruct (get_input 0 b) as [[c b1]| | |]; cbn [bind rmap] in *; try (split; [reflexivity|discriminate]).
  specialize (G2 c b1 eq_refl). destruct (c =? 10).
  { split; [reflexivity|]. intros r b' H. injection H as <- <-. exact G2. }
  destruct (-1 <? machine).
  - cbn [used queue more]. rewrite lex_loop_fuel with (fuel := S (used b1 + length (queue b1))).
    + apply lex_loop_later, G2.
    + destruct (lex_loop_later machine (S (used b1 + length (queue b1))) 0 c 0 (-1, O) b1 G2) as [L _].
      rewrite L. intros X. apply N. destruct (lex_loop _ _ _ _ _ _ b1) as [[? ?]| | |]; try discriminate X. reflexivity.
    + rewrite app_length. lia.
  - split; [reflexivity|]. intros r b' H. injection H as <- <-. exact G2.
Qed.

Lemma clear_later len b p :
  clear len (more b) p = rmap (fun '(b, p) => (more b, p)) (clear len b p).
Proof.
  unfold clear. cbn [cells more used queue ended]. destruct (cells b) as [|c cs] eqn:E; [reflexivity|].
  destruct len as [|len].
  - destruct (store (c :: cs) 0 0); reflexivity.
  - destruct (advance (S len) (c :: cs) p); cbn [bind rmap]; try reflexivity.
    destruct (_ || _); reflexivity.
Qed.

Lemma clear_bounded len b p b' p' : bounded b -> clear len b p = Ok (b', p') -> bounded b'.
Proof.
  unfold clear. intros B. destruct (cells b) as [|c cs] eqn:E; [intros H; injection H as <- <-; exact B|].
  destruct len as [|len].
  - destruct (store (c :: cs) 0 0); cbn [bind]; try discriminate. intros H. injection H as <- <-. exact B.
  - destruct (advance (S len) (c :: cs) p); cbn [bind]; try discriminate.
    destruct (_ || _); try discriminate. intros H. injection H as <- <-. exact B.
Qed.

Definition moreover (m : machine) : machine :=
  Machine (mstack m) (more (mbuf m)) (mlen m) (mroom m) (mnext m) (mplace m).

Definition moreover' (r : machine + ending * buffer) : machine + ending * buffer :=
  match r with inl m => inl (moreover m) | inr (e, b) => inr (e, more b) end.

Lemma mlook_later m : bounded (mbuf m) -> mlook m <> OutOfFuel ->
  mlook (moreover m) = rmap moreover' (mlook m) /\
  (forall m', mlook m = Ok (inl m') -> bounded (mbuf m')).
Proof.
  intros B N. unfold mlook in *. cbn [mstack moreover mbuf mplace mroom].
  destruct (mstack m) as [|top below]; [split; [reflexivity|discriminate]|].
  destruct (next_sym_later (state top) (mbuf m) B) as [S1 S2].
  { intros E. rewrite E in N. apply N. reflexivity. }
  rewrite S1. destruct (next_sym (state top) (mbuf m)) as [[[sym len] b]| | |]; cbn [bind rmap] in *;
    try (split; [reflexivity|discriminate]).
  specialize (S2 _ b eq_refl). clear S1 N.
  destruct (get_act (state top) sym) as [[[act idx]|]| | |]; cbn [bind rmap]; try (split; [reflexivity|discriminate]).
  2: { rewrite clear_later. destruct (clear len b (mplace m)) as [[b' p]| | |]; cbn [bind rmap];
         (split; [reflexivity|discriminate]). }
  destruct (Z.testbit act 1).
  2: { split; [reflexivity|]. intros m' H. injection H as <-. exact S2. }
  cbn [cells more used queue ended].
  destruct (load (cells b) len) as [keep| | |]; cbn [bind rmap]; try (split; [reflexivity|discriminate]).
  destruct (store (cells b) len 0) as [cs| | |]; cbn [bind rmap]; try (split; [reflexivity|discriminate]).
  assert (B0 : bounded (Buf cs (used b) (queue b) (ended b))) by exact S2.
  destruct (get_input_later 0 _ B0) as [G1 G2]. unfold more in G1 at 1. cbn [cells used queue ended] in G1. rewrite G1.
  destruct (get_input 0 (Buf cs (used b) (queue b) (ended b))) as [[c b1]| | |]; cbn [bind rmap];
    try (split; [reflexivity|discriminate]).
  specialize (G2 c b1 eq_refl). cbn [cells more used queue ended].
  destruct (rd symbols sym) as [sy| | |]; cbn [bind rmap]; try (split; [reflexivity|discriminate]).
  destruct (if (fst sy =? "")%string then Ok [] else _) as [leaf| | |]; cbn [bind rmap];
    try (split; [reflexivity|discriminate]).
  destruct (push _ _ _) as [stk| | |]; cbn [bind rmap]; try (split; [reflexivity|discriminate]).
  destruct (store (cells b1) len keep) as [cs'| | |]; cbn [bind rmap]; try (split; [reflexivity|discriminate]).
  destruct ((sym =? 0) || (sym =? -1)).
  { split; [reflexivity|]. intros m' H. injection H as <-. exact G2. }
  pose proof (clear_later len (Buf cs' (used b1) (queue b1) (ended b1)) (mplace m)) as CL.
  unfold more in CL at 1. cbn [cells used queue ended] in CL. rewrite CL.
  destruct (clear len (Buf cs' (used b1) (queue b1) (ended b1)) (mplace m)) as [[b3 p]| | |] eqn:EC; cbn [bind rmap];
    try (split; [reflexivity|discriminate]).
  split; [reflexivity|]. intros m' H. injection H as <-. exact (clear_bounded _ (Buf cs' (used b1) (queue b1) (ended b1)) _ _ _ G2 EC).
Qed.

Lemma mreduce_later i m : bounded (mbuf m) ->
  mreduce i (moreover m) = rmap moreover' (mreduce i m) /\
  (forall m', mreduce i m = Ok (inl m') -> bounded (mbuf m')).
Proof.
  intros B. unfold mreduce. cbn [mstack moreover mbuf mplace mroom mlen].
  destruct (rd productions i) as [[[emit n] lhs]| | |]; cbn [bind rmap]; try (split; [reflexivity|discriminate]).
  destruct (pop (Z.to_nat n) (mstack m) []) as [[stk collected]| | |]; cbn [bind rmap]; try (split; [reflexivity|discriminate]).
  destruct stk as [|[s own] below]; [split; [reflexivity|discriminate]|]. cbv zeta.
  destruct ((lhs =? 59) && match below with [] => true | _ => false end).
  - rewrite clear_later. destruct (clear (mlen m) (mbuf m) (mplace m)) as [[b p]| | |]; cbn [bind rmap];
      try (split; [reflexivity|discriminate]).
    rewrite clear_later. destruct (clear 0 b p) as [[b' p']| | |]; cbn [bind rmap]; (split; [reflexivity|discriminate]).
  - destruct (get_go s lhs) as [o| | |]; cbn [bind rmap]; try (split; [reflexivity|discriminate]).
    destruct (match o with Some e => e | None => (1, i) end) as [act j].
    destruct (push _ _ _) as [stk'| | |]; cbn [bind rmap]; try (split; [reflexivity|discriminate]).
    split; [reflexivity|]. intros m' H. injection H as <-. exact B.
Qed.

Lemma mrun_later : forall fuel m, bounded (mbuf m) -> mrun fuel m <> OutOfFuel ->
  mrun fuel (moreover m) = before later (mrun fuel m).
Proof.
  induction fuel as [|fuel IH]; intros m B N; [reflexivity|]. cbn [mrun] in *.
  assert (NS : mstep m <> OutOfFuel) by (intros E; rewrite E in N; apply N; reflexivity).
  assert (S12 : mstep (moreover m) = rmap moreover' (mstep m) /\
                (forall m', mstep m = Ok (inl m') -> bounded (mbuf m'))).
  { unfold mstep in *. cbn [mnext moreover]. destruct (mnext m); [apply mlook_later; assumption|apply mreduce_later; assumption]. }
  destruct S12 as [S1 S2]. rewrite S1. destruct (mstep m) as [[m'|[e b]]| | |]; cbn [bind rmap moreover'] in *; try reflexivity.
  apply IH; [apply S2; reflexivity|exact N].
Qed.
End Later.

Lemma mrun_more : forall f m f', mrun f m <> OutOfFuel -> (f <= f')%nat -> mrun f' m = mrun f m.
Proof.
  induction f as [|f IH]; intros m f' N L; [exfalso; apply N; reflexivity|].
  destruct f' as [|f']; [lia|]. cbn [mrun] in *. destruct (mstep m) as [[m'|r]| | |]; cbn [bind] in *; auto.
  apply IH; [exact N|lia].
Qed.

Lemma mparse_ends room b input : (match room with Some n => 1 <= n | None => True end)%nat -> idle b ->
  mparse room b input <> OutOfFuel.
Proof.
  intros RM ID E. destruct (mparse_outcomes room b input RM ID) as [[U _]|(o & e & b' & _ & U & _)]; congruence.
Qed.

Lemma byte_code c : (nat_of_ascii c < 128)%nat -> code c = Z.of_nat (nat_of_ascii c).
Proof. intros H. unfold code. destruct (Z.ltb_spec (Z.of_nat (nat_of_ascii c)) 128); lia. Qed.

Lemma fill_plain s : plain s -> fill s = typed s.
Proof.
  intros P. assert (E : before_nul s = bytes s).
  { unfold plain in P. induction s as [|c s IH]; [reflexivity|].
    unfold bytes in *. cbn [list_ascii_of_string map before_nul] in *. inversion P as [|? ? [P1 P2] P3]; subst.
    rewrite byte_code by lia. destruct (Z.eqb_spec (Z.of_nat (nat_of_ascii c)) 0); [lia|]. f_equal. apply IH, P3. }
  unfold fill, typed. rewrite E.
  assert (L : last (bytes s) 0 <> 10).
  { unfold plain in P. clear E. induction (bytes s) as [|v l IH]; [discriminate|].
    inversion P as [|? ? [_ P2] P3]; subst. destruct l; [exact P2|apply IH, P3]. }
  destruct (Z.eqb_spec (last (bytes s) 0) 10); [contradiction|reflexivity].
Qed.

(* A line typed is a line given. *)
Lemma console_line room b s later : (match room with Some n => 1 <= n | None => True end)%nat -> idle b ->
  plain s -> console room b (typed s ++ later) = before later (mparse room b s).
Proof.
  intros RM ID P. pose proof (mparse_ends room b s RM ID) as N. unfold console, mparse, mstart in *.
  rewrite (fill_plain s P) in *.
  pose proof (mrun_later later (enough (used b + length (typed s)))
    (Machine [Cell 0 []] (Buf (cells b) (used b) (typed s) false) 0 room Look (1%nat, 1%nat))) as L.
  unfold moreover, more in L. cbn [mstack mbuf mlen mroom mnext mplace cells used queue ended] in L.
  rewrite <- L.
  - apply mrun_more.
    + rewrite L; [|right; cbn [queue mbuf]; unfold typed; apply in_or_app; right; left; reflexivity|exact N].
      destruct (mrun _ _) as [[? ?]| | |]; try discriminate. exfalso. apply N. reflexivity.
    + rewrite app_length. unfold enough. lia.
  - right. cbn [queue mbuf]. unfold typed. apply in_or_app; right; left; reflexivity.
  - exact N.
Qed.
