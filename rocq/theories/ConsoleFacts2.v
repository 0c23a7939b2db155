(* What a parse has fetched of its stream when it ends. *)
From Coq Require Import ZArith String Ascii List Bool Arith Lia.
From Verif Require Import Base Tables Parser LexFacts ParserFacts Buffer BufferSpec BufferFacts.
From Verif Require Import Console ConsoleSpec ConsoleFacts.
Import ListNotations.
Open Scope list_scope.
Open Scope Z_scope.

(** * The tables *)

Lemma accept_rows : forallb (forallb (fun a => negb (a =? 1))) dfa_accept = true.
Proof. vm_compute. reflexivity. Qed.

Lemma accept_symbol m row st a : rd dfa_accept m = Ok row -> rd row st = Ok a -> a <> 1.
Proof.
  intros R A E. apply rd_In in R. apply rd_In in A. pose proof accept_rows as F.
  rewrite forallb_forall in F. specialize (F _ R). rewrite forallb_forall in F. specialize (F _ A).
  subst a. discriminate.
Qed.

(* The reductions at the end of the input: 206 takes the newline, 269 is that
   of the goal. *)
Definition closing (i : Z) : Prop := i = 206 \/ i = 269.

Lemma goal_rows : forallb (fun i => match rd productions (Z.of_nat i) with
  | Ok (_, _, lhs) => (negb (lhs =? 59) || (Z.of_nat i =? 269)) && (negb (lhs =? 120) || (Z.of_nat i =? 206))
  | _ => true end)
  (seq 0 (length productions)) = true.
Proof. vm_compute. reflexivity. Qed.

Lemma goal_production i emit n lhs : rd productions i = Ok (emit, n, lhs) -> lhs = 59 \/ lhs = 120 -> closing i.
Proof.
  intros R H. pose proof (rd_ok _ _ _ R) as [B _]. pose proof goal_rows as F. rewrite forallb_forall in F.
  specialize (F (Z.to_nat i)). rewrite Z2Nat.id in F by lia. rewrite R in F.
  assert (I : In (Z.to_nat i) (seq 0 (length productions))) by (apply in_seq; lia).
  specialize (F I). apply andb_true_iff in F as [F1 F2]. destruct H as [->| ->].
  - cbn [Z.eqb Pos.eqb negb orb] in F1. apply Z.eqb_eq in F1. right. exact F1.
  - cbn [Z.eqb Pos.eqb negb orb] in F2. apply Z.eqb_eq in F2. left. exact F2.
Qed.

Definition closes (act idx : Z) : bool := Z.testbit act 0 && ((idx =? 206) || (idx =? 269)).

Lemma closes_after act idx i : after act idx = Reduce i -> closing i -> closes act idx = true.
Proof.
  unfold after, closes. destruct (Z.testbit act 0); [|discriminate]. intros H. injection H as ->.
  intros [->| ->]; reflexivity.
Qed.

Lemma act_rows : forallb (forallb (fun '(y, act, idx) => negb (closes act idx) || (y =? 0))) actions = true.
Proof. vm_compute. reflexivity. Qed.

Lemma def_rows : forallb (fun i => negb (closes 1 i)) def_prod = true.
Proof. vm_compute. reflexivity. Qed.

Lemma go_rows : forallb (forallb (fun '(y, act, idx) => negb (closes act idx) || (y =? 120))) go = true.
Proof. vm_compute. reflexivity. Qed.

Lemma act_goal s sym act idx i : get_act s sym = Ok (Some (act, idx)) -> after act idx = Reduce i -> closing i -> sym = 0.
Proof.
  unfold get_act. intros G A C. pose proof (closes_after _ _ _ A C) as CL.
  destruct (rd actions s) as [row| | |] eqn:R; cbn [bind] in G; try discriminate.
  apply rd_In in R. destruct (find_entry row sym) as [[a j]|] eqn:F.
  - apply find_entry_In in F. destruct (a =? 0); [discriminate|]. injection G as -> ->.
    pose proof act_rows as W. rewrite forallb_forall in W. specialize (W _ R). rewrite forallb_forall in W.
    specialize (W _ F). cbv beta iota in W. rewrite CL in W. apply Z.eqb_eq, W.
  - destruct (rd def_prod s) as [j| | |] eqn:D; cbn [bind] in G; try discriminate.
    destruct (-1 <? j); [|discriminate]. injection G as <- <-.
    apply rd_In in D. pose proof def_rows as W. rewrite forallb_forall in W. specialize (W _ D). rewrite CL in W. discriminate.
Qed.

Lemma go_goal s lhs act idx i : get_go s lhs = Ok (Some (act, idx)) -> after act idx = Reduce i -> closing i -> lhs = 120.
Proof.
  unfold get_go. intros G A C. pose proof (closes_after _ _ _ A C) as CL.
  destruct (rd go s) as [row| | |] eqn:R; cbn [bind] in G; try discriminate.
  injection G as F. apply rd_In in R. apply find_entry_In in F.
  pose proof go_rows as W. rewrite forallb_forall in W. specialize (W _ R). rewrite forallb_forall in W.
  specialize (W _ F). cbv beta iota in W. rewrite CL in W. apply Z.eqb_eq, W.
Qed.

(** * What is kept *)

Section Fetched.
Variable P : list Z -> bool -> Prop.
Hypothesis fetch_none : P [] false -> P [] false.
Hypothesis fetch_char : forall c q, c <> 10 -> P (c :: q) false -> P q false.
Hypothesis fetch_end : forall q, P (10 :: q) false -> P q true.

Record fine (b : buffer) : Prop := {
  f_chars : forall i, (i < used b)%nat -> nth_error (cells b) i <> Some (Some 10);
  f_queue : P (queue b) (ended b)
}.

Lemma store_nth cs i v cs' : store cs i v = Ok cs' ->
  (i < length cs)%nat /\ length cs' = length cs /\ nth_error cs' i = Some (Some v) /\
  forall j, j <> i -> nth_error cs' j = nth_error cs j.
Proof.
  intros E. assert (L : (i < length cs)%nat).
  { unfold store in E. destruct (Nat.ltb_spec i (length cs)); [assumption|discriminate]. }
  destruct (store_ok cs i v L) as (cs2 & E2 & H). rewrite E in E2. injection E2 as <-. auto.
Qed.

Lemma load_nth cs i v : load cs i = Ok v -> nth_error cs i = Some (Some v).
Proof. unfold load. destruct (nth_error cs i) as [[w|]|]; try discriminate. intros H. injection H as ->. reflexivity. Qed.

Lemma enlarge_fine b b' : fine b -> enlarge b = Ok b' -> fine b' /\ ended b' = ended b /\ (used b' <= used b)%nat.
Proof.
  intros [F1 F2] E. destruct (enlarge_keeps _ _ E) as (Q1 & Q2 & Q3). split; [|split; [exact Q2|rewrite Q3; destruct (cells b); lia]].
  split; [|rewrite Q1, Q2; exact F2]. unfold enlarge in E. destruct (cells b) as [|c cs] eqn:EC.
  - injection E as <-. cbn. lia.
  - destruct (load (c :: cs) 0) as [v| | |]; cbn [bind] in E; try discriminate.
    destruct (_ && _); injection E as <-.
    + cbn [used cells]. intros i L. rewrite <- EC in *. destruct (Nat.lt_ge_cases i (length (cells b))) as [L'|L'].
      * rewrite resize_nth by lia. auto.
      * unfold resize. rewrite nth_error_app2 by (rewrite firstn_length; lia).
        intros X. apply nth_error_In, repeat_spec in X. discriminate.
    + rewrite EC. intros i L. apply F1, L.
Qed.

Lemma refill_fine b s b' : fine b -> refill b = Ok (s, b') ->
  fine b' /\ (s = true -> ended b' = true /\ (used b' <= used b)%nat) /\ (ended b = true -> s = true).
Proof.
  intros F E. unfold refill in E. destruct (enlarge b) as [b1| | |] eqn:EE; cbn [bind] in E; try discriminate.
  destruct (enlarge_fine _ _ F EE) as (F1 & ED & U). clear F EE. destruct (ended b1) eqn:E1.
  { injection E as <- <-. auto. }
  rewrite <- ED. destruct F1 as [C Q]. rewrite E1 in Q.
  destruct (match queue b1 with [] => (-1, []) | c :: q => (c, q) end) as [c q] eqn:EQ.
  assert (PQ : (c <> 10 -> P q false) /\ (c = 10 -> P q true)).
  { destruct (queue b1) as [|c0 q0]; injection EQ as <- <-.
    - split; [intros _; auto|discriminate].
    - split; [intros N; exact (fetch_char _ _ N Q)|intros ->; exact (fetch_end _ Q)]. }
  destruct (store (cells b1) (used b1) c) as [cs| | |] eqn:S1; cbn [bind] in E; try discriminate.
  destruct (store_nth _ _ _ _ S1) as (L1 & _ & N1 & O1).
  destruct (Z.eqb_spec c 10) as [C10|C10].
  { injection E as <- <-. cbn [ended used]. split; [|split; [auto|discriminate]]. split; cbn [used cells queue ended].
    - intros i L. rewrite O1 by lia. auto.
    - apply PQ, C10. }
  destruct (store cs (S (used b1)) 0) as [cs'| | |] eqn:S2; cbn [bind] in E; try discriminate.
  destruct (store_nth _ _ _ _ S2) as (L2 & _ & N2 & O2).
  injection E as <- <-. split; [|split; [discriminate|discriminate]]. split; cbn [used cells queue ended].
  - intros i L. rewrite O2 by lia. destruct (Nat.eq_dec i (used b1)) as [->|NE].
    + rewrite N1. congruence.
    + rewrite O1 by lia. apply C. lia.
  - apply PQ, C10.
Qed.

Lemma get_loop_fine off : forall fuel b c b', fine b -> get_loop fuel off b = Ok (c, b') ->
  fine b' /\ (c = 10 -> ended b' = true) /\ (c <> 10 -> (off < used b')%nat).
Proof.
  induction fuel as [|fuel IH]; intros b c b' F E; cbn [get_loop] in E; destruct (Nat.leb_spec (used b) off) as [L|L];
    try discriminate.
  - destruct (load (cells b) off) as [v| | |] eqn:LD; cbn [bind] in E; try discriminate. injection E as <- <-.
    split; [exact F|]. split; [|auto]. intros ->. apply load_nth in LD. destruct (f_chars _ F _ L LD).
  - destruct (refill b) as [[s b1]| | |] eqn:R; cbn [bind] in E; try discriminate.
    destruct (refill_fine _ _ _ F R) as (F1 & T & _). destruct s.
    + injection E as <- <-. split; [exact F1|]. split; [intros _; apply T; reflexivity|congruence].
    + exact (IH _ _ _ F1 E).
  - destruct (load (cells b) off) as [v| | |] eqn:LD; cbn [bind] in E; try discriminate. injection E as <- <-.
    split; [exact F|]. split; [|auto]. intros ->. apply load_nth in LD. destruct (f_chars _ F _ L LD).
Qed.

Lemma get_input_fine off b c b' : fine b -> get_input off b = Ok (c, b') ->
  fine b' /\ (c = 10 -> ended b' = true) /\ (c <> 10 -> (off < used b')%nat).
Proof. apply get_loop_fine. Qed.

(* Nothing is fetched for the first character of a token a second time. *)
Lemma get_first b c b' : fine b -> ended b = true \/ (0 < used b)%nat -> get_input 0 b = Ok (c, b') ->
  fine b' /\ (used b' <= used b)%nat /\ ended b' = ended b.
Proof.
  intros F H E. unfold get_input in E. cbn [get_loop] in E. destruct (Nat.leb_spec (used b) 0) as [L|L].
  - destruct H as [H|H]; [|lia].
    destruct (refill b) as [[s b1]| | |] eqn:R; cbn [bind] in E; try discriminate.
    destruct (refill_fine _ _ _ F R) as (F1 & T & T2). rewrite (T2 H) in *. injection E as <- <-.
    destruct (T eq_refl) as [T3 T4]. rewrite H. auto.
  - destruct (load (cells b) 0) as [v| | |]; cbn [bind] in E; try discriminate. injection E as <- <-. auto.
Qed.

Definition kept (b b' : buffer) : Prop :=
  fine b' /\ (ended b = true \/ (0 < used b)%nat -> ended b' = true \/ (0 < used b')%nat).

Lemma lex_loop_fine machine : forall fuel st next len best b r b', fine b -> fst best <> 0 -> (0 < used b)%nat ->
  lex_loop fuel machine st next len best b = Ok (r, b') ->
  fine b' /\ fst r <> 0 /\ (ended b' = true \/ (0 < used b')%nat).
Proof.
  induction fuel as [|fuel IH]; intros st next len best b r b' F B U E; [discriminate|]. cbn [lex_loop] in E.
  destruct (dfa_step machine st next) as [[st'|]| | |]; cbn [bind] in E; try discriminate.
  2: { injection E as <- <-. auto. }
  destruct (rd dfa_accept machine) as [row| | |] eqn:RA; cbn [bind] in E; try discriminate.
  destruct (rd row st') as [a| | |] eqn:RR; cbn [bind] in E; try discriminate.
  pose proof (accept_symbol _ _ _ _ RA RR) as NA. clear RA RR.
  assert (M : forall best, fst best <> 0 ->
    bind (get_input (S len) b) (fun '(c, b') =>
      if c =? 10 then Ok (best, b') else lex_loop fuel machine st' c (S len) best b') = Ok (r, b') ->
    fine b' /\ fst r <> 0 /\ (ended b' = true \/ (0 < used b')%nat)).
  { clear B E best. intros best B E. destruct (get_input (S len) b) as [[c b1]| | |] eqn:G; cbn [bind] in E; try discriminate.
    destruct (get_input_fine _ _ _ _ F G) as (F1 & G1 & G2). destruct (Z.eqb_spec c 10) as [C|C].
    - injection E as <- <-. auto.
    - specialize (G2 C). apply (IH _ _ _ _ _ _ _ F1 B ltac:(lia) E). }
  destruct (Z.ltb_spec 0 a); [|exact (M _ B E)].
  destruct (Z.eqb_spec (a - 1) 0); [lia|].
  destruct (rd symbols (a - 1)) as [sy| | |]; cbn [bind] in E; try discriminate.
  destruct (snd sy); [refine (M (a - 1, S len) _ E); cbn [fst]; lia|]. injection E as <- <-. cbn [fst]. auto.
Qed.

Lemma next_sym_after s b sym len b' : (forall c b1, get_input 0 b = Ok (c, b1) ->
    fine b1 /\ (c = 10 -> ended b1 = true) /\ (c <> 10 -> (0 < used b1)%nat)) ->
  next_sym s b = Ok (sym, len, b') ->
  fine b' /\ (sym = 0 -> ended b' = true) /\ (ended b' = true \/ (0 < used b')%nat).
Proof.
  intros F E. unfold next_sym in E. destruct (rd dfa_select s) as [machine| | |]; cbn [bind] in E; try discriminate.
  destruct (get_input 0 b) as [[c b1]| | |] eqn:G; cbn [bind] in E; try discriminate.
  destruct (F _ _ eq_refl) as (F1 & G1 & G2). destruct (Z.eqb_spec c 10) as [C|C].
  { injection E as <- <- <-. auto. }
  specialize (G2 C). destruct (-1 <? machine).
  - destruct (lex_loop_fine machine _ 0 c 0 (-1, O) b1 (sym, len) b' F1 ltac:(cbn; lia) ltac:(lia) E) as (F2 & N & K).
    cbn [fst] in N. split; [exact F2|]. split; [congruence|exact K].
  - injection E as <- <- <-. split; [exact F1|]. split; [discriminate|auto].
Qed.

Lemma next_sym_fine s b sym len b' : fine b -> next_sym s b = Ok (sym, len, b') ->
  fine b' /\ (sym = 0 -> ended b' = true) /\ (ended b' = true \/ (0 < used b')%nat).
Proof. intros F. apply next_sym_after. intros c b1. apply get_input_fine, F. Qed.

Lemma clear_fine len b p b' p' : fine b -> clear len b p = Ok (b', p') ->
  fine b' /\ ended b' = ended b /\ queue b' = queue b.
Proof.
  intros F E. unfold clear in E. destruct (cells b) as [|c cs] eqn:EC; [injection E as <- <-; auto|].
  destruct F as [C Q]. destruct len as [|len].
  - destruct (store (c :: cs) 0 0) as [cs'| | |]; cbn [bind] in E; try discriminate. injection E as <- <-.
    cbn. split; [|auto]. split; cbn; [lia|exact Q].
  - remember (c :: cs) as l eqn:EL. clear c cs EL. remember (S len) as k eqn:EK. clear len EK. destruct (advance k l p); cbn [bind] in E; try discriminate.
    destruct ((used b <? k)%nat || (length l <? used b + 2)%nat) eqn:B; try discriminate.
    apply orb_false_iff in B as [B1 B2]. apply Nat.ltb_ge in B1, B2.
    injection E as <- <-. cbn [ended queue]. split; [|auto]. split; [|exact Q].
    cbn [used cells]. intros i L. 
    rewrite nth_error_app1 by (rewrite firstn_length, skipn_length; lia).
    rewrite firstn_nth by lia. rewrite skipn_nth. rewrite <- EC. apply C. lia.
Qed.

Record safe (m : machine) : Prop := {
  s_buf : fine (mbuf m);
  s_goal : forall i, mnext m = Reduce i -> closing i -> ended (mbuf m) = true
}.

Definition over (r : ending * buffer) : Prop :=
  P (queue (snd r)) (ended (snd r)) /\ ((exists t, fst r = Built t) -> ended (snd r) = true).

Definition fair (r : machine + ending * buffer) : Prop :=
  match r with inl m => safe m | inr r => over r end.

Lemma mlook_after m r : (forall s sym len b, next_sym s (mbuf m) = Ok (sym, len, b) ->
    fine b /\ (sym = 0 -> ended b = true) /\ (ended b = true \/ (0 < used b)%nat)) ->
  mlook m = Ok r -> fair r.
Proof.
  intros F E. unfold mlook in E. destruct (mstack m) as [|top below]; [discriminate|].
  destruct (next_sym (state top) (mbuf m)) as [[[sym len] b]| | |] eqn:N; cbn [bind] in E; try discriminate.
  destruct (F _ _ _ _ N) as (F1 & Z0 & K). clear F N.
  destruct (get_act (state top) sym) as [[[act idx]|]| | |] eqn:G; cbn [bind] in E; try discriminate.
  2: { destruct (clear len b (mplace m)) as [[b' p]| | |] eqn:C; cbn [bind] in E; try discriminate.
       injection E as <-. destruct (clear_fine _ _ _ _ _ F1 C) as (F2 & _ & _). split; [apply (f_queue _ F2)|].
       intros [t X]. discriminate X. }
  pose proof (fun i => act_goal _ _ _ _ i G) as AG. clear G. destruct (Z.testbit act 1).
  2: { injection E as <-. split; cbn [mbuf mnext]; [exact F1|]. intros i X Y. exact (Z0 (AG i X Y)). }
  destruct (load (cells b) len) as [keep| | |] eqn:L; cbn [bind] in E; try discriminate.
  destruct (store (cells b) len 0) as [cs| | |] eqn:S1; cbn [bind] in E; try discriminate.
  destruct (store_nth _ _ _ _ S1) as (L1 & _ & N1 & O1).
  assert (F2 : fine (Buf cs (used b) (queue b) (ended b))).
  { split; cbn [used cells queue ended]; [|apply (f_queue _ F1)]. intros i LI.
    destruct (Nat.eq_dec i len) as [->|NE]; [rewrite N1; discriminate|]. rewrite O1 by exact NE. apply (f_chars _ F1), LI. }
  destruct (get_input 0 (Buf cs (used b) (queue b) (ended b))) as [[c b1]| | |] eqn:GI; cbn [bind] in E; try discriminate.
  destruct (get_first _ _ _ F2 K GI) as (F3 & U3 & E3). cbn [used ended] in U3, E3.
  destruct (rd symbols sym) as [sy| | |]; cbn [bind] in E; try discriminate.
  destruct (if (fst sy =? "")%string then Ok [] else _) as [leaf| | |]; cbn [bind] in E; try discriminate.
  destruct (push _ _ _) as [stk| | |]; cbn [bind] in E; try discriminate.
  destruct (store (cells b1) len keep) as [cs'| | |] eqn:S2; cbn [bind] in E; try discriminate.
  destruct (store_nth _ _ _ _ S2) as (L2 & _ & N2 & O2).
  assert (F4 : fine (Buf cs' (used b1) (queue b1) (ended b1))).
  { split; cbn [used cells queue ended]; [|apply (f_queue _ F3)]. intros i LI.
    destruct (Nat.eq_dec i len) as [->|NE].
    - rewrite N2. intros X. injection X as ->. apply load_nth in L. exact (f_chars _ F1 len ltac:(lia) L).
    - rewrite O2 by exact NE. apply (f_chars _ F3), LI. }
  destruct ((sym =? 0) || (sym =? -1)).
  { injection E as <-. split; cbn [mbuf mnext]; [exact F4|]. intros i X Y. cbn [ended]. rewrite E3. exact (Z0 (AG i X Y)). }
  destruct (clear len _ (mplace m)) as [[b3 p]| | |] eqn:C; cbn [bind] in E; try discriminate.
  destruct (clear_fine _ _ _ _ _ F4 C) as (F5 & E5 & _). injection E as <-.
  split; cbn [mbuf mnext]; [exact F5|]. intros i X Y. rewrite E5. cbn [ended]. rewrite E3. exact (Z0 (AG i X Y)).
Qed.

Lemma mlook_fair m r : safe m -> mlook m = Ok r -> fair r.
Proof. intros [F _]. apply mlook_after. intros s sym len b. apply next_sym_fine, F. Qed.

Lemma mreduce_fair i m r : safe m -> mnext m = Reduce i -> mreduce i m = Ok r -> fair r.
Proof.
  intros [F G] EN E. unfold mreduce in E.
  destruct (rd productions i) as [[[emit n] lhs]| | |] eqn:R; cbn [bind] in E; try discriminate.
  destruct (pop (Z.to_nat n) (mstack m) []) as [[stk collected]| | |]; cbn [bind] in E; try discriminate.
  destruct stk as [|[s own] below]; [discriminate|]. cbv zeta in E.
  destruct ((lhs =? 59) && match below with [] => true | _ => false end) eqn:B.
  - apply andb_true_iff in B as [B _]. apply Z.eqb_eq in B.
    specialize (G i EN (goal_production _ _ _ _ R (or_introl B))). destruct (clear (mlen m) (mbuf m) (mplace m)) as [[b p]| | |] eqn:C1; cbn [bind] in E; try discriminate.
    destruct (clear_fine _ _ _ _ _ F C1) as (F2 & E2 & _).
    destruct (clear 0 b p) as [[b' p']| | |] eqn:C2; cbn [bind] in E; try discriminate.
    destruct (clear_fine _ _ _ _ _ F2 C2) as (F3 & E3 & _). injection E as <-.
    split; cbn [fst snd]; [apply (f_queue _ F3)|congruence].
  - destruct (get_go s lhs) as [o| | |] eqn:GO; cbn [bind] in E; try discriminate.
    destruct (match o with Some e => e | None => (1, i) end) as [act j] eqn:EO.
    destruct (push _ _ _) as [stk'| | |]; cbn [bind] in E; try discriminate. injection E as <-.
    split; cbn [mbuf mnext]; [exact F|]. intros k A C. apply (G i EN). destruct o as [[act' j']|].
    + injection EO as -> ->. pose proof (go_goal _ _ _ _ _ GO A C) as L. exact (goal_production _ _ _ _ R (or_intror L)).
    + injection EO as <- <-. cbn in A. injection A as ->. exact C.
Qed.

Lemma mrun_over : forall fuel m r, safe m -> mrun fuel m = Ok r -> over r.
Proof.
  induction fuel as [|fuel IH]; intros m r S0 E; [discriminate|]. cbn [mrun] in E.
  destruct (mstep m) as [r1| | |] eqn:SM; cbn [bind] in E; try discriminate.
  assert (FR : fair r1).
  { unfold mstep in SM. destruct (mnext m) as [|i] eqn:EN; [exact (mlook_fair _ _ S0 SM)|exact (mreduce_fair _ _ _ S0 EN SM)]. }
  destruct r1 as [m'|o]; [exact (IH _ _ FR E)|]. injection E as <-. exact FR.
Qed.

(* The first character is fetched in any case. *)
Definition fetched (stream : list Z) : Prop :=
  match stream with
  | [] => P [] false
  | c :: q => (c <> 10 -> P q false) /\ (c = 10 -> P q true)
  end.

Lemma refill_first b s b' : used b = O -> ended b = false -> fetched (queue b) -> refill b = Ok (s, b') ->
  fine b' /\ (s = true -> ended b' = true) /\ (s = false -> (0 < used b')%nat).
Proof.
  intros U D F E. unfold refill in E. destruct (enlarge b) as [b1| | |] eqn:EE; cbn [bind] in E; try discriminate.
  destruct (enlarge_keeps _ _ EE) as (Q1 & Q2 & Q3). rewrite Q2, D in E. rewrite <- Q1 in F.
  assert (U1 : used b1 = O) by (rewrite Q3; destruct (cells b); auto). rewrite U1 in E.
  destruct (match queue b1 with [] => (-1, []) | c :: q => (c, q) end) as [c q] eqn:EQ.
  assert (PQ : (c <> 10 -> P q false) /\ (c = 10 -> P q true)).
  { unfold fetched in F. destruct (queue b1) as [|c0 q0]; injection EQ as <- <-; [|exact F].
    split; [intros _; exact F|discriminate]. }
  destruct (store (cells b1) 0 c) as [cs| | |] eqn:S1; cbn [bind] in E; try discriminate.
  destruct (store_nth _ _ _ _ S1) as (L1 & _ & N1 & O1).
  destruct (Z.eqb_spec c 10) as [C10|C10].
  { injection E as <- <-. cbn [ended]. split; [|split; [auto|discriminate]]. split; cbn [used cells queue ended]; [lia|].
    apply PQ, C10. }
  destruct (store cs 1 0) as [cs'| | |] eqn:S2; cbn [bind] in E; try discriminate.
  destruct (store_nth _ _ _ _ S2) as (L2 & _ & N2 & O2).
  injection E as <- <-. split; [|split; [discriminate|cbn [used]; lia]]. split; cbn [used cells queue ended].
  - intros i L. rewrite O2 by lia. replace i with O by lia. rewrite N1. congruence.
  - apply PQ, C10.
Qed.

Lemma get_input_first b c b' : used b = O -> ended b = false -> fetched (queue b) -> get_input 0 b = Ok (c, b') ->
  fine b' /\ (c = 10 -> ended b' = true) /\ (c <> 10 -> (0 < used b')%nat).
Proof.
  intros U D F E. unfold get_input in E. cbn [get_loop] in E. rewrite U in E. cbn [Nat.leb] in E.
  destruct (refill b) as [[s b1]| | |] eqn:R; cbn [bind] in E; try discriminate.
  destruct (refill_first _ _ _ U D F R) as (F1 & T1 & T2). destruct s.
  - injection E as <- <-. split; [exact F1|]. split; [auto|congruence].
  - destruct (Nat.leb_spec (used b1) 0) as [L|L]; [specialize (T2 eq_refl); lia|].
    destruct (load (cells b1) 0) as [v| | |] eqn:LD; cbn [bind] in E; try discriminate. injection E as <- <-.
    split; [exact F1|]. split; [|auto]. intros ->. apply load_nth in LD. destruct (f_chars _ F1 _ L LD).
Qed.

Lemma console_fetched room b stream r : used b = O -> fetched stream -> console room b stream = Ok r -> over r.
Proof.
  intros U PS E. unfold console in E. destruct (enough _) as [|n]; [discriminate|]. cbn [mrun] in E.
  destruct (mstep _) as [r1| | |] eqn:SM; cbn [bind] in E; try discriminate.
  unfold mstep in SM. cbn [mnext] in SM.
  assert (FR : fair r1).
  { revert SM. apply mlook_after. cbn [mbuf]. intros s sym len b1. apply next_sym_after. intros c b2.
    apply get_input_first; auto. }
  destruct r1 as [m'|o]; [exact (mrun_over _ _ _ FR E)|]. injection E as <-. exact FR.
Qed.

Lemma console_over room b stream r : used b = O -> P stream false -> console room b stream = Ok r -> over r.
Proof.
  intros U PS E. unfold console in E. apply (mrun_over _ _ _) in E; [exact E|].
  split; cbn [mbuf mnext]; [|discriminate]. split; cbn [used cells queue ended]; [rewrite U; lia|exact PS].
Qed.
End Fetched.

(** * Consequences *)

(* Without a newline nothing is built. *)
Lemma console_unended room b stream e b' : used b = O -> ~ In 10 stream ->
  console room b stream = Ok (e, b') -> exists p t, e = Failed p t.
Proof.
  intros U N E.
  destruct (console_over (fun q d => d = false /\ ~ In 10 q)) with (room := room) (b := b) (stream := stream) (r := (e, b'))
    as [[O1 _] O2]; auto.
  - intros c q _ [_ H]. split; [reflexivity|]. intros X. apply H. right. exact X.
  - intros q [_ H]. destruct H. left. reflexivity.
  - cbn [snd fst] in *. destruct e as [t|p t]; [|eauto]. rewrite O2 in O1 by eauto. discriminate.
Qed.

(* What is left behind is later, or some end of the line and later; it is
   later when a tree has been built. *)
Lemma console_left room b l later e b' : used b = O -> ~ In 10 l ->
  console room b (l ++ 10 :: later) = Ok (e, b') ->
  queue b' = later \/ (exists p t, e = Failed p t) /\ exists l1 l2, l = l1 ++ l2 /\ queue b' = l2 ++ 10 :: later.
Proof.
  intros U N E.
  destruct (console_over (fun q d => if d then q = later else exists l1 l2, l = l1 ++ l2 /\ q = l2 ++ 10 :: later))
    with (room := room) (b := b) (stream := l ++ 10 :: later) (r := (e, b')) as [O1 O2]; auto.
  - intros c q C (l1 & l2 & -> & H). destruct l2 as [|x l2]; [cbn [app] in H; injection H as H _; contradiction|].
    cbn [app] in H; injection H as -> ->. exists (l1 ++ [x]), l2. rewrite <- app_assoc. auto.
  - intros q (l1 & l2 & -> & H). destruct l2 as [|x l2]; [cbn [app] in H; injection H as ->; reflexivity|].
    cbn [app] in H. injection H as <- _. destruct N. apply in_or_app. right. left. reflexivity.
  - exists [], l. auto.
  - cbn [snd fst] in *. destruct (ended b') eqn:ED; [left; exact O1|]. right. split; [|exact O1].
    destruct e as [t|p t]; [|eauto]. discriminate (O2 (ex_intro _ t eq_refl)).
Qed.

(* Every call reads something of a stream that is not at its end. *)
Lemma console_progress room b stream e b' : used b = O -> console room b stream = Ok (e, b') -> stream <> [] ->
  (length (queue b') < length stream)%nat.
Proof.
  intros U E N.
  destruct (console_fetched (fun q _ => length q < length stream)%nat) with (room := room) (b := b) (stream := stream) (r := (e, b')) as [X _]; auto.
  - intros c q _. cbn [length]. lia.
  - intros q. cbn [length]. lia.
  - unfold fetched. destruct stream; [congruence|]. cbn [length]. split; intros _; lia.
Qed.

(* After the end nothing is built. *)
Lemma console_after room b e b' : used b = O -> console room b [] = Ok (e, b') -> queue b' = [] /\ exists p t, e = Failed p t.
Proof.
  intros U E. split; [|exact (console_unended room b [] e b' U (fun x => x) E)].
  destruct (console_over (fun q _ => q = [])) with (room := room) (b := b) (stream := @nil Z) (r := (e, b')) as [X _]; auto; discriminate.
Qed.
