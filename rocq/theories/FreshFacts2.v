(* Proofs about lexem and ast. *)
From Coq Require Import ZArith String Ascii List Bool Lia.
From Verif Require Import Base Maps MapsFacts Tables Parser Nodes NodesSpec NodesFacts3 Fresh FreshSpec.
Import ListNotations.
Open Scope list_scope.
Open Scope Z_scope.

Definition keeps {A} (a : Z) (m : M A) : Prop := forall h, stale a h -> stale a (fst (m h)).

Lemma keeps_ret : forall {A} a (x : A), keeps a (ret x).
Proof. intros A a x h H. exact H. Qed.
Lemma keeps_lift : forall {A} a (x : res A), keeps a (lift x).
Proof. intros A a x h H. exact H. Qed.
Lemma keeps_bind : forall {A B} a (m : M A) (f : A -> M B), keeps a m -> (forall x, keeps a (f x)) -> keeps a (mbind m f).
Proof.
  intros A B a m f Hm Hf h H. unfold mbind. specialize (Hm h H).
  destruct (m h) as [h' [x| | |]]; cbn in *; auto. apply Hf. exact Hm.
Qed.
Lemma keeps_new : forall a b, keeps a (new b).
Proof.
  intros a b h [H1 H2]. unfold stale, new; cbn. split; [|lia].
  unfold has in *. cbn. destruct (Z.eqb_spec a (top h)); [lia|exact H1].
Qed.
Lemma keeps_free : forall a p, keeps a (free p).
Proof.
  intros a [b|] h [H1 H2]; [|split; assumption]. unfold free.
  destruct (has Z.eqb b (live h)) eqn:E; [|split; assumption]. unfold stale; cbn. split; [|exact H2].
  unfold has in *. destruct (Z.eq_dec a b) as [->|N]; [rewrite E in H1; discriminate|].
  rewrite (lookup_unset_other Z.eqb Z.eqb_eq); [exact H1|auto].
Qed.
Lemma keeps_node : forall a p, keeps a (node_at p).
Proof. intros a [b|] h H; [|exact H]. unfold node_at. destruct (lookup _ _ _) as [[]|]; exact H. Qed.
Lemma keeps_text : forall a p, keeps a (text_at p).
Proof. intros a [b|] h H; [|exact H]. unfold text_at. destruct (lookup _ _ _) as [[]|]; exact H. Qed.
Lemma keeps_update : forall a p f, keeps a (update p f).
Proof.
  intros a [b|] f h [H1 H2]; [|split; assumption]. unfold update.
  destruct (lookup Z.eqb b (live h)) as [[n|]|] eqn:E; try (split; assumption).
  unfold stale; cbn. split; [|exact H2]. unfold has in *.
  destruct (Z.eq_dec a b) as [->|N]; [rewrite E in H1; discriminate|].
  rewrite (lookup_set_other Z.eqb Z.eqb_eq); [exact H1|auto].
Qed.
Lemma keeps_rounds : forall {A} a (f : nat -> M A), (forall n, keeps a (f n)) -> keeps a (rounds f).
Proof. intros A a f H h Hh. apply H. exact Hh. Qed.
Lemma keeps_first : forall a n p, keeps a (first n p).
Proof. intros a n. induction n as [|n IH]; intros p; cbn [first]; [apply keeps_lift|]. apply keeps_bind; [apply keeps_node|]. intros x. destruct (prev x); [apply IH|apply keeps_ret]. Qed.
Lemma keeps_final : forall a n p, keeps a (final n p).
Proof. intros a n. induction n as [|n IH]; intros p; cbn [final]; [apply keeps_lift|]. apply keeps_bind; [apply keeps_node|]. intros x. destruct (nxt x); [apply IH|apply keeps_ret]. Qed.

Ltac keep := repeat first [ apply keeps_ret | apply keeps_lift | apply keeps_new | apply keeps_free | apply keeps_node
  | apply keeps_text | apply keeps_update | apply keeps_first | apply keeps_final
  | apply keeps_bind; [|intros ?] | apply keeps_rounds; intros ? ].

Lemma keeps_create : forall a name p, keeps a (ast_create name p).
Proof. intros a name [b|]; unfold ast_create; keep. Qed.
Lemma keeps_join : forall a p q, keeps a (join p q).
Proof. intros a [b|] [c|]; unfold join; keep. Qed.
Lemma keeps_append : forall a p q, keeps a (append p q).
Proof. intros a [b|] [c|]; unfold append; keep. Qed.
Lemma keeps_wrap : forall a name p, keeps a (wrap name p).
Proof. intros a name p. unfold wrap. destruct (_ =? _)%string; [keep|]. apply keeps_bind; [apply keeps_create|]. intros x. keep. Qed.
Lemma keeps_ppop : forall a n stk q, keeps a (ppop n stk q).
Proof.
  intros a n. induction n as [|n IH]; intros stk q; cbn [ppop]; [keep|].
  destruct stk as [|c stk]; [keep|]. apply keeps_bind; [apply keeps_join|]. intros x. apply IH.
Qed.

(* the same with another member lexem *)
Definition with_lexem (x : ptr) (c : pconfig) : pconfig :=
  PConfig (pstack c) (ptext c) (pheld c) (plen c) (proom c) (pnext c) x.
Definition relex (x : ptr) (r : pconfig + pend) : pconfig + pend :=
  match r with inl c => inl (with_lexem x c) | inr (o, kept, _) => inr (o, kept, x) end.
Definition over {A B} (f : A -> B) (p : heap * res A) : heap * res B :=
  (fst p, match snd p with Ok a => Ok (f a) | UB => UB | Throw => Throw | OutOfFuel => OutOfFuel end).

Lemma stale_free : forall a h, stale a h -> free (Some a) h = (h, UB).
Proof. intros a h [H _]. unfold free. rewrite H. reflexivity. Qed.

Lemma reduce_lexem : forall a idx cfg h,
  preduce idx (with_lexem (Some a) cfg) h = over (relex (Some a)) (preduce idx cfg h).
Proof.
  intros a idx cfg h. unfold preduce, mbind, lift. cbn [pstack ptext pheld plen proom plexem with_lexem].
  destruct (rd productions idx) as [[[name n] lhs]| | |]; try reflexivity.
  destruct (ppop (Z.to_nat n) (pstack cfg) None h) as [h1 [[stk col]| | |]]; try reflexivity.
  destruct stk as [|[s own] below]; [reflexivity|].
  destruct (append own col h1) as [h2 [all| | |]]; try reflexivity.
  destruct (wrap name all h2) as [h3 [all2| | |]]; try reflexivity.
  destruct (_ && _); [reflexivity|].
  destruct (get_go s lhs) as [o| | |]; try reflexivity.
  destruct o as [[act i]|].
  - destruct (ppush _ _ _) as [k| | |]; reflexivity.
  - destruct (ppush _ _ _) as [k| | |]; reflexivity.
Qed.

Lemma reduce_stale : forall a idx cfg, keeps a (preduce idx cfg).
Proof.
  intros a idx cfg. unfold preduce. apply keeps_bind; [keep|]. intros [[name n] lhs].
  apply keeps_bind; [apply keeps_ppop|]. intros [stk col]. destruct stk as [|[s own] below]; [keep|].
  apply keeps_bind; [apply keeps_append|]. intros all. apply keeps_bind; [apply keeps_wrap|]. intros all2.
  destruct (_ && _); [keep|]. apply keeps_bind; [keep|]. intros [[act i]|]; keep.
Qed.

Lemma look_lexem : forall a cfg h, stale a h -> plexem cfg = None ->
  snd (plook (with_lexem (Some a) cfg) h) = UB \/
  plook (with_lexem (Some a) cfg) h = over (relex (Some a)) (plook cfg h) /\ fst (plook cfg h) = h /\
  (forall c, snd (plook cfg h) = Ok (inl c) -> plexem c = None).
Proof.
  intros a cfg h H L. unfold plook, mbind, lift. cbn [pstack ptext pheld plen proom plexem with_lexem].
  destruct (pstack cfg) as [|t stk]; [left; reflexivity|].
  destruct (get_sym (pstate t) (ptext cfg)) as [f| | |]; try (right; split; [reflexivity|split; [reflexivity|discriminate]]).
  destruct (get_act (pstate t) (fsym f)) as [o| | |]; try (right; split; [reflexivity|split; [reflexivity|discriminate]]).
  destruct o as [[act idx]|].
  - destruct (Z.testbit act 1).
    + destruct (rd symbols (fsym f)) as [s| | |]; try (right; split; [reflexivity|split; [reflexivity|discriminate]]).
      destruct (ppush _ _ _) as [k| | |]; try (right; split; [reflexivity|split; [reflexivity|discriminate]]).
      destruct (fst s =? "")%string.
      * right. unfold ret. destruct (_ || _).
        -- split; [reflexivity|]. split; [reflexivity|]. intros c E. injection E as <-. exact L.
        -- destruct (clear_input _ _ _). split; [reflexivity|]. split; [reflexivity|]. intros c E. injection E as <-. exact L.
      * left. unfold get_lexem, mbind. rewrite (stale_free _ _ H). reflexivity.
    + right. split; [reflexivity|]. split; [reflexivity|]. intros c E. injection E as <-. exact L.
  - left. unfold get_lexem, mbind. rewrite (stale_free _ _ H). reflexivity.
Qed.

Lemma reduce_keeps_lexem : forall idx cfg h c, snd (preduce idx cfg h) = Ok (inl c) -> plexem c = plexem cfg.
Proof.
  intros idx cfg h c. unfold preduce, mbind, lift.
  destruct (rd productions idx) as [[[name n] lhs]| | |]; try discriminate.
  destruct (ppop (Z.to_nat n) (pstack cfg) None h) as [h1 [[stk col]| | |]]; try discriminate.
  destruct stk as [|[s own] below]; [discriminate|].
  destruct (append own col h1) as [h2 [all| | |]]; try discriminate.
  destruct (wrap name all h2) as [h3 [all2| | |]]; try discriminate.
  destruct (_ && _); [discriminate|].
  destruct (get_go s lhs) as [o| | |]; try discriminate.
  destruct o as [[act i]|]; (destruct (ppush _ _ _) as [k| | |]; try discriminate); intros E; injection E as <-; reflexivity.
Qed.

Lemma step_lexem : forall a cfg h, stale a h -> plexem cfg = None ->
  snd (pstep (with_lexem (Some a) cfg) h) = UB \/
  pstep (with_lexem (Some a) cfg) h = over (relex (Some a)) (pstep cfg h) /\ stale a (fst (pstep cfg h)) /\
  (forall c, snd (pstep cfg h) = Ok (inl c) -> plexem c = None).
Proof.
  intros a cfg h H L. unfold pstep. cbn [pnext with_lexem]. destruct (pnext cfg).
  - destruct (look_lexem a cfg h H L) as [E|[E1 [E2 E3]]]; [left; exact E|]. right. split; [exact E1|]. split; [rewrite E2; exact H|exact E3].
  - right. split; [apply reduce_lexem|]. split; [apply reduce_stale; exact H|].
    intros c E. rewrite (reduce_keeps_lexem _ _ _ _ E). exact L.
Qed.

Lemma run_lexem : forall n a cfg h, stale a h -> plexem cfg = None ->
  (match snd (prun n cfg h) with Ok _ | UB => True | _ => False end) ->
  snd (prun n (with_lexem (Some a) cfg) h) = UB.
Proof.
  induction n as [|n IH]; intros a cfg h H L; [intros []|].
  cbn [prun]. unfold mbind at 1 2 3.
  destruct (step_lexem a cfg h H L) as [E|[E1 [E2 E3]]].
  - intros _. destruct (pstep (with_lexem (Some a) cfg) h) as [h' r]. cbn in E. subst r. reflexivity.
  - rewrite E1. unfold over. destruct (pstep cfg h) as [h' [[c|[[o kept] x]]| | |]]; cbn [fst snd relex] in *.
    + intros F. apply IH; [exact E2|apply E3; reflexivity|exact F].
    + intros _. unfold mbind. rewrite (stale_free _ _ E2). reflexivity.
    + intros _. reflexivity.
    + intros [].
    + intros [].
Qed.

Theorem stale_lexem : forall room left input h a, room <> Some O -> sound h -> stale a h ->
  snd (lparse (Some a) room left input h) = UB.
Proof.
  intros room left input h a R S0 H.
  pose proof (pparse_memory room left input h R S0) as P.
  unfold lparse. change (PConfig [PCell 0 None] (left ++ line input) (length left) 0 room Look (Some a))
    with (with_lexem (Some a) (PConfig [PCell 0 None] (left ++ line input) (length left) 0 room Look None)).
  apply run_lexem; [exact H|reflexivity|].
  change (match snd (pparse room left input h) with Ok _ | UB => True | _ => False end).
  destruct (parse room left input) as [[[ts|] kept]| | |].
  - destruct P as (h' & p & l & E & _). rewrite E. exact I.
  - destruct P as (h' & E & _). rewrite E. exact I.
  - destruct P as (h' & E). rewrite E. exact I.
  - destruct P.
  - destruct P.
Qed.

Lemma lparse_null : forall room left input, lparse None room left input = pparse room left input.
Proof. reflexivity. Qed.

Theorem stale_read : forall x a room left input h, room <> Some O -> sound h -> stale x h ->
  snd (first_read (Some x) a room left input h) = UB.
Proof.
  intros x a room left input h R S0 H. pose proof (stale_lexem room left input h x R S0 H) as E.
  unfold first_read, mbind at 1. destruct (lparse (Some x) room left input h) as [h' r]. cbn in E. subst r. reflexivity.
Qed.

Lemma keeps_get_lexem : forall a p s, keeps a (get_lexem p s).
Proof. intros a p s. unfold get_lexem. keep. Qed.

Lemma keeps_look : forall a cfg, keeps a (plook cfg).
Proof.
  intros a cfg. unfold plook. destruct (pstack cfg) as [|t stk]; [keep|].
  apply keeps_bind; [keep|]. intros f. apply keeps_bind; [keep|]. intros [[act idx]|].
  - destruct (Z.testbit act 1); [|keep]. apply keeps_bind; [keep|]. intros s. apply keeps_bind; [keep|]. intros k.
    apply keeps_bind.
    + destruct (fst s =? "")%string; [keep|]. apply keeps_bind; [apply keeps_get_lexem|]. intros x.
      apply keeps_bind; [apply keeps_create|]. intros y. keep.
    + intros r. destruct (_ || _); [keep|]. destruct (clear_input _ _ _). keep.
  - apply keeps_bind; [apply keeps_get_lexem|]. intros x. keep.
Qed.

Lemma keeps_run : forall a n cfg, keeps a (prun n cfg).
Proof.
  intros a n. induction n as [|n IH]; intros cfg; cbn [prun]; [keep|].
  apply keeps_bind.
  - unfold pstep. destruct (pnext cfg); [apply keeps_look|apply reduce_stale].
  - intros [c|[[o kept] x]]; [apply IH|keep].
Qed.

Lemma stale_walk : forall a h n, stale a h -> walk (S n) (Some a) h = (h, UB).
Proof.
  intros a h n [H _]. cbn [walk]. unfold mbind, node_at, has in *.
  destruct (lookup Z.eqb a (live h)) as [b|]; [discriminate|]. reflexivity.
Qed.

(* ast *)
Theorem stale_ast : forall a room left input h kept, room <> Some O -> sound h -> stale a h ->
  parse room left input = Ok (Rejected, kept) -> snd (first_read None (Some a) room left input h) = UB.
Proof.
  intros a room left input h kept R S0 H E. pose proof (pparse_memory room left input h R S0) as P.
  rewrite E in P. destruct P as (h' & F & _).
  unfold first_read, mbind at 1. rewrite lparse_null, F. unfold mbind at 1, rounds at 1.
  assert (K : stale a h') by (pose proof (keeps_run a _ _ _ H : stale a (fst (pparse room left input h))) as K; rewrite F in K; exact K).
  rewrite (stale_walk _ _ _ K). reflexivity.
Qed.

Theorem accepted_anyway : forall a room left input h trees kept, room <> Some O -> sound h ->
  parse room left input = Ok (Accepted trees, kept) -> first_read None a room left input h = pread room left input h.
Proof.
  intros a room left input h trees kept R S0 E. pose proof (pparse_memory room left input h R S0) as P.
  rewrite E in P. destruct P as (h' & p & l & F & _).
  unfold first_read, pread, mbind. rewrite lparse_null, F. destruct p; reflexivity.
Qed.

Theorem null_anyway : forall room left input h, room <> Some O -> sound h ->
  first_read None None room left input h = pread room left input h.
Proof.
  intros room left input h R S0.
  unfold first_read, pread, mbind. rewrite lparse_null. destruct (pparse room left input h) as [h' [[p kept]| | |]]; try reflexivity.
  destruct p as [[q|]|]; reflexivity.
Qed.
