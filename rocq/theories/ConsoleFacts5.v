(* Reading arbitrary bytes: the parser. *)
From Coq Require Import ZArith String Ascii List Bool Arith Lia.
From Verif Require Import Base Tables Parser LexFacts ParserFacts ParserFacts3 ParserFacts8 Buffer BufferSpec BufferFacts BufferFacts2 BufferFacts3.
From Verif Require Import Console ConsoleSpec ConsoleSpec2 ConsoleFacts ConsoleFacts2 ConsoleFacts4.
Import ListNotations.
Open Scope list_scope.
Open Scope Z_scope.

(* A cell without the texts of its tokens *)
Definition bare (c : cell) : Z * list ast := (state c, map outline (nodes c)).

Lemma chain_outline own own' col col' : map outline own = map outline own' -> map outline col = map outline col' ->
  map outline (chain own col) = map outline (chain own' col').
Proof.
  intros E1 E2. destruct own as [|a own], own' as [|a' own']; try discriminate; [exact E2|].
  destruct col as [|d col], col' as [|d' col']; try discriminate; [exact E1|].
  cbn [chain map] in *. injection E1 as E1 _. injection E2 as E2 E3. congruence.
Qed.

Lemma pop_bare n : forall stk stk' col col', map bare stk = map bare stk' -> map outline col = map outline col' ->
  follows (fun r r' => map bare (fst r) = map bare (fst r') /\ map outline (snd r) = map outline (snd r'))
    (pop n stk col) (pop n stk' col').
Proof.
  induction n as [|n IH]; intros stk stk' col col' E1 E2; [cbn; eauto|]. cbn [pop].
  destruct stk as [|c stk], stk' as [|c' stk']; try discriminate; [exact I|]. cbn [map] in E1.
  injection E1 as _ E E1. apply IH; [exact E1|]. apply chain_outline; assumption.
Qed.

Lemma push_bare rm c c' stk stk' : bare c = bare c' -> map bare stk = map bare stk' ->
  follows (fun r r' => map bare r = map bare r') (push rm c stk) (push rm c' stk').
Proof.
  intros E1 E2. unfold push. assert (L : length stk = length stk') by (rewrite <- (map_length bare stk), E2; apply map_length).
  rewrite L. assert (G : map bare (c :: stk) = map bare (c' :: stk')) by (cbn [map]; congruence).
  destruct rm as [n|]; [destruct (_ <? n)%nat; [|exact I]|]; eexists; split; eauto.
Qed.

(* The parser on the stream is where the parser on the text is. *)
Record tracks (l : list Z) (c : config) (m : machine) : Prop := {
  t_stack : map bare (stack c) = map bare (mstack m);
  t_room : mroom m = room c;
  t_next : mnext m = next c;
  t_text : text c = map stand_in l;
  t_len : mlen m = len c;
  t_held : used (mbuf m) = held c;
  t_view : view (mbuf m) l
}.

Definition over_alike (r : outcome * list ascii) (r' : ending * buffer) : Prop :=
  (snd r = [] -> used (snd r') = O) /\ akin (fst r) (fst r').

Definition tracked (r : config + outcome * list ascii) (r' : machine + ending * buffer) : Prop :=
  match r, r' with
  | inl c', inl m' => exists l, tracks l c' m'
  | inr r, inr r' => over_alike r r'
  | _, _ => False
  end.

Lemma clear_rest len b l p b' p' : view b l -> clear len b p = Ok (b', p') ->
  rest (map stand_in l) (used b) len = [] -> used b' = O.
Proof.
  intros V E R. pose proof (v_used _ _ V) as VU. pose proof (v_chars _ _ V) as VC. clear V. unfold clear in E. destruct (cells b) as [|c cs] eqn:EC.
  { injection E as <- <-. destruct (used b); [reflexivity|]. destruct (VC O ltac:(lia)) as (v & _ & X). discriminate. }
  destruct len as [|len].
  - destruct (store (c :: cs) 0 0); cbn [bind] in E; try discriminate. injection E as <- <-. reflexivity.
  - unfold rest, Parser.clear_input in R. remember (S len) as k eqn:EK. clear len EK. remember (c :: cs) as q. clear c cs Heqq.
    destruct (advance k q p); cbn [bind] in E; try discriminate.
    destruct ((used b <? k)%nat || (length q <? used b + 2)%nat) eqn:B; try discriminate.
    apply orb_false_iff in B as [B1 B2]. apply Nat.ltb_ge in B1, B2.
    injection E as <- <-. cbn [used]. apply (f_equal (@length _)) in R.
    rewrite firstn_length, skipn_length, map_length in R. cbn [length] in R. lia.
Qed.

Lemma clear_zero b p b' p' : clear 0 b p = Ok (b', p') -> cells b <> [] -> used b' = O.
Proof.
  unfold clear. destruct (cells b); [congruence|]. intros E _. destruct (store _ 0 0); cbn [bind] in E; try discriminate.
  injection E as <- <-. reflexivity.
Qed.

Lemma stand_in_positive l n : Forall (fun c => 0 <= code c) (firstn n (map stand_in l)) -> Forall (fun v => 0 <= v) (firstn n l).
Proof.
  rewrite firstn_map, Forall_map. apply Forall_impl. intros v H. rewrite stand_in_code in H. unfold stand in H.
  destruct (Z.ltb_spec v 0); lia.
Qed.

(* The NUL behind the token and the character put back *)
Lemma shift_view b l len keep cs c b1 cs' : view b l -> (used b = O -> ended b = true) ->
  load (cells b) len = Ok keep -> store (cells b) len 0 = Ok cs ->
  get_input 0 (Buf cs (used b) (queue b) (ended b)) = Ok (c, b1) -> store (cells b1) len keep = Ok cs' ->
  view (Buf cs' (used b1) (queue b1) (ended b1)) l /\ used b1 = used b.
Proof.
  intros V D L S1 G S2. destruct (store_nth _ _ _ _ S1) as (L1 & _ & N1 & O1). destruct (store_nth _ _ _ _ S2) as (L2 & _ & N2 & O2).
  apply load_nth in L. unfold get_input in G. cbn [get_loop used] in G. destruct (Nat.leb_spec (used b) 0) as [U|U].
  - assert (U0 : used b = O) by lia. specialize (D U0).
    destruct (refill _) as [[s b2]| | |] eqn:R; cbn [bind] in G; try discriminate. unfold refill in R.
    destruct (enlarge (Buf cs (used b) (queue b) (ended b))) as [b3| | |] eqn:E; cbn [bind] in R; try discriminate.
    destruct (enlarge_keeps _ _ E) as (Q1 & Q2 & Q3). cbn [queue ended used cells] in Q1, Q2, Q3. rewrite Q2, D in R. injection R as <- <-.
    injection G as <- <-. assert (U3 : used b3 = O) by (rewrite Q3; destruct cs; [reflexivity|exact U0]).
    split; [|congruence]. destruct V as [V1 V2 V3]. split; cbn [used cells queue ended]; rewrite ?U3, ?Q1, ?Q2; [lia|lia|].
    rewrite <- U0. exact V3.
  - destruct (load (cells _) 0) as [v| | |]; cbn [bind] in G; try discriminate. injection G as <- <-. cbn [used cells queue ended] in *.
    split; [|reflexivity]. destruct V as [V1 V2 V3]. split; cbn [used cells queue ended]; [exact V1| |exact V3].
    intros i Hi. destruct (V2 i Hi) as (v' & X & Y). exists v'. split; [exact X|]. destruct (Nat.eq_dec i len) as [->|NE].
    + congruence.
    + rewrite O2, O1 by exact NE. exact Y.
Qed.

Lemma look_tracked l c m : tracks l c m -> follows tracked (look c) (mlook m).
Proof.
  intros [TS TR TN TT TL TH TV]. unfold look, mlook. rewrite TT.
  destruct (stack c) as [|top below] eqn:ES, (mstack m) as [|top' below'] eqn:EM; try discriminate TS; [exact I|].
  rewrite <- ES, <- EM in *. assert (ST : state top' = state top).
  { rewrite ES, EM in TS. cbn [map] in TS. injection TS as X _ _. congruence. }
  rewrite ST. clear ST.
  apply (follows_bind _ _ _ _ _ _ (next_sym_view (state top) (mbuf m) l TV)).
  intros f [[sym len] b] EG EN [(F1 & F2 & FV & FU) FE]. cbn [fst snd] in *. rewrite F1, F2 in *. clear F1 F2 sym len.
  destruct (get_sym_found _ _ _ EG) as (G1 & G2 & G3 & G4). rewrite map_length in G3.
  rewrite <- TH, <- FU.
  apply follows_same. intros o EO. destruct o as [[act idx]|].
  2: { apply follows_right; [apply clear_definite|]. intros [b' p'] EC. eexists. split; [reflexivity|].
       split; cbn [fst snd]; [|exact I]. exact (clear_rest _ _ _ _ _ _ FV EC). }
  assert (D : used b = O -> ended b = true).
  { intros U. apply FE. destruct l as [|v l]; [reflexivity|]. specialize (G4 ltac:(discriminate)). lia. }
  destruct (Z.testbit act 1).
  2: { eexists. split; [reflexivity|]. exists l. constructor; cbn; auto. }
  apply follows_right; [apply load_definite|]. intros keep LK.
  apply follows_right; [apply store_definite|]. intros cs SC.
  destruct (get_input 0 (Buf cs (used b) (queue b) (ended b))) as [[v b1]| | |] eqn:GI.
  4: { exfalso. unfold get_input in GI. cbn [get_loop used] in GI. destruct (Nat.leb_spec (used b) 0) as [U|U].
       - unfold refill in GI. destruct (enlarge_definite (Buf cs (used b) (queue b) (ended b))) as [E|[b3 E]]; rewrite E in GI; [discriminate|].
         destruct (enlarge_keeps _ _ E) as (_ & Q2 & _). cbn [ended] in Q2. rewrite D in Q2 by lia. cbn [bind] in GI. rewrite Q2 in GI. discriminate.
       - destruct (load_definite (cells (Buf cs (used b) (queue b) (ended b))) 0) as [E|[w E]]; rewrite E in GI; discriminate. }
  3: { exfalso. unfold get_input in GI. cbn [get_loop used] in GI. destruct (Nat.leb_spec (used b) 0) as [U|U].
       - unfold refill in GI. destruct (enlarge_definite (Buf cs (used b) (queue b) (ended b))) as [E|[b3 E]]; rewrite E in GI; [discriminate|].
         destruct (enlarge_keeps _ _ E) as (_ & Q2 & _). cbn [ended] in Q2. rewrite D in Q2 by lia. cbn [bind] in GI. rewrite Q2 in GI. discriminate.
       - destruct (load_definite (cells (Buf cs (used b) (queue b) (ended b))) 0) as [E|[w E]]; rewrite E in GI; discriminate. }
  2: exact I.
  cbn [bind]. apply follows_same. intros s Es.
  set (leaf := if (fst s =? "")%string then [] else [Leaf (fst s) _]).
  apply follows_right.
  { destruct (fst s =? "")%string; [right; eauto|]. destruct (lexem_definite (cells b1)) as [->|[w ->]]; [left; reflexivity|right; cbn [bind]; eauto]. }
  intros leaf' LF.
  assert (EL : map outline leaf = map outline leaf').
  { unfold leaf. destruct (fst s =? "")%string; [injection LF as <-; reflexivity|].
    destruct (lexem (cells b1)) as [w| | |]; cbn [bind] in LF; try discriminate. injection LF as <-. reflexivity. }
  clearbody leaf. rewrite TR. assert (LS : length (mstack m) = length (stack c)) by (rewrite <- (map_length bare (stack c)), TS, map_length; reflexivity).
  rewrite LS.
  assert (PB := push_bare (grow (room c) (length (stack c))) (Cell (target act idx) leaf) (Cell (target act idx) leaf')
    (stack c) (mstack m) ltac:(unfold bare; cbn [state nodes]; congruence) TS).
  apply (follows_bind _ _ _ _ _ _ PB). intros stk stk' _ _ EB. clear PB.
  apply follows_right; [apply store_definite|]. intros cs' SC'.
  destruct (shift_view _ _ _ _ _ _ _ _ FV D LK SC GI SC') as [SV SU].
  destruct ((fsym f =? 0) || (fsym f =? -1)) eqn:ENS.
  - eexists. split; [reflexivity|]. exists l. constructor; cbn; auto.
  - destruct (get_sym_length _ _ _ EG) as [Z|[Z|Z]]; [rewrite Z in ENS; discriminate|rewrite Z in ENS; discriminate|].
    apply follows_right; [apply clear_definite|]. intros [b3 p3] EC.
    assert (LU : (0 < flen f <= used (Buf cs' (used b1) (queue b1) (ended b1)))%nat) by (cbn [used]; lia).
    destruct (clear_view _ _ _ _ _ _ SV LU (stand_in_positive _ _ G1) EC) as [CV CU]. cbn [used] in CU.
    unfold Parser.clear_input. destruct (flen f) as [|k] eqn:EF; [lia|]. rewrite <- EF in *.
    eexists. split; [reflexivity|]. exists (skipn (flen f) l).
    constructor; cbn [stack mstack mroom room mnext next text mlen len mbuf held]; auto.
    + apply skipn_map.
    + rewrite CU, SU. reflexivity.
Qed.

Lemma reduce_tracked l c m i : tracks l c m -> follows tracked (reduce i c) (mreduce i m).
Proof.
  intros [TS TR TN TT TL TH TV]. unfold reduce, mreduce.
  apply follows_same. intros [[emit n] lhs] _.
  apply (follows_bind _ _ _ _ _ _ (pop_bare (Z.to_nat n) (stack c) (mstack m) [] [] TS eq_refl)).
  intros [stk col] [stk' col'] _ _ [E1 E2]. cbn [fst snd] in *.
  destruct stk as [|[s own] below], stk' as [|[s' own'] below']; try discriminate E1; [exact I|].
  cbn [map] in E1. unfold bare in E1 at 1 3. cbn [state nodes] in E1. injection E1 as <- EO EB. fold bare in EB. cbv zeta.
  assert (BB : match below with [] => true | _ => false end = match below' with [] => true | _ => false end)
    by (destruct below, below'; try discriminate EB; reflexivity).
  rewrite BB. clear BB.
  assert (EA : map outline (if (emit =? "")%string then own ++ col else [Node emit (own ++ col)]) =
               map outline (if (emit =? "")%string then own' ++ col' else [Node emit (own' ++ col')])).
  { assert (X : map outline (own ++ col) = map outline (own' ++ col')) by (rewrite !map_app; congruence).
    destruct (emit =? "")%string; [exact X|]. cbn [map outline]. rewrite X. reflexivity. }
  revert EA. generalize (if (emit =? "")%string then own ++ col else [Node emit (own ++ col)]).
  generalize (if (emit =? "")%string then own' ++ col' else [Node emit (own' ++ col')]). intros all' all EA.
  destruct ((lhs =? 59) && _).
  - apply follows_right; [apply clear_definite|]. intros [b p] EC.
    apply follows_right; [apply clear_definite|]. intros [b' p'] EC'. eexists. split; [reflexivity|].
    split; cbn [fst snd akin]; [|exact EA]. intros R. rewrite TT, <- TH, <- TL in R.
    pose proof (clear_rest _ _ _ _ _ _ TV EC R) as U0.
    unfold clear in EC'. destruct (cells b) as [|x q]; [injection EC' as <- <-; exact U0|].
    destruct (store (x :: q) 0 0); cbn [bind] in EC'; try discriminate. injection EC' as <- <-. reflexivity.
  - apply follows_same. intros o _. destruct (match o with Some e => e | None => (1, i) end) as [act j]. rewrite TR.
    assert (PB := push_bare (room c) (Cell (target act j) []) (Cell (target act j) []) (Cell s all :: below) (Cell s all' :: below')
      eq_refl ltac:(cbn [map]; unfold bare at 1 3; cbn [state nodes]; congruence)).
    apply (follows_bind _ _ _ _ _ _ PB). intros stk stk' _ _ ES. eexists. split; [reflexivity|]. exists l. constructor; cbn; auto.
Qed.

Lemma run_tracked : forall fuel l c m, tracks l c m -> follows over_alike (run fuel c) (mrun fuel m).
Proof.
  induction fuel as [|fuel IH]; intros l c m T; [reflexivity|]. cbn [run mrun].
  assert (ST : follows tracked (step c) (mstep m)).
  { unfold step, mstep. rewrite (t_next _ _ _ T). destruct (next c); [exact (look_tracked _ _ _ T)|exact (reduce_tracked _ _ _ _ T)]. }
  apply (follows_bind _ _ _ _ _ _ ST). intros [c'|r] [m'|r'] _ _ TR; cbn [tracked] in TR; try contradiction.
  - destruct TR as [l' T']. exact (IH _ _ _ T').
  - eexists. split; [reflexivity|exact TR].
Qed.

(* The characters of the first line of a stream *)
Fixpoint first_line (stream : list Z) : list Z :=
  match stream with
  | [] => [-1]
  | v :: stream' => if v =? 10 then [] else v :: first_line stream'
  end.

Lemma seen_line stream : seen stream = string_of_list_ascii (map stand_in (first_line stream)).
Proof. induction stream as [|v stream IH]; [reflexivity|]. cbn [seen first_line]. destruct (v =? 10); [reflexivity|]. cbn [map string_of_list_ascii]. rewrite IH. reflexivity. Qed.

Lemma first_line_view stream : octets stream ->
  (closed (first_line stream) /\ exists later, stream = first_line stream ++ 10 :: later) \/
  (exists pre, closed pre /\ first_line stream = pre ++ [-1] /\ stream = pre).
Proof.
  induction stream as [|v stream IH]; intros O; [right; exists []; split; [constructor|auto]|].
  inversion O as [|v' s' B O']; subst. cbn [first_line]. destruct (Z.eqb_spec v 10) as [->|N].
  - left. split; [constructor|]. exists stream. reflexivity.
  - destruct (IH O') as [[C (later & E)]|(pre & C & E1 & E2)].
    + left. split; [constructor; auto|]. exists later. cbn [app]. congruence.
    + right. exists (v :: pre). split; [constructor; auto|]. rewrite E1. cbn [app]. split; congruence.
Qed.

Lemma first_line_clean stream : octets stream ->
  Forall (fun c => code c <> 0 /\ code c <> 10) (map stand_in (first_line stream)).
Proof.
  intros O. rewrite Forall_map. apply Forall_forall. intros v I. rewrite stand_in_code.
  assert (N : v <> 10).
  { destruct (first_line_view stream O) as [[C _]|(pre & C & E & _)].
    - unfold closed in C. rewrite Forall_forall in C. apply (C v I).
    - rewrite E in I. unfold closed in C. rewrite Forall_forall in C. apply in_app_or in I as [I|[<-|[]]]; [apply (C v I)|lia]. }
  unfold stand. destruct (Z.ltb_spec v 0); [lia|]. destruct (Z.eqb_spec v 0); [lia|]. destruct (Z.ltb_spec v 128); lia.
Qed.

Lemma first_line_length stream : (length (first_line stream) <= S (length stream))%nat.
Proof. induction stream as [|v stream IH]; cbn [first_line length]; [lia|]. destruct (v =? 10); cbn [length]; lia. Qed.

Lemma console_tracked rm b stream : (match rm with Some n => 1 <= n | None => True end)%nat -> used b = O -> octets stream ->
  follows over_alike (parse rm [] (seen stream)) (console rm b stream).
Proof.
  intros RM U O. pose proof (parse_steps rm [] (seen stream) RM) as N. unfold parse in *. cbn [length plus] in *.
  assert (LN : line (seen stream) = map stand_in (first_line stream)).
  { rewrite seen_line. apply line_of_text. apply first_line_clean, O. }
  unfold console. rewrite <- (run_more _ _ (enough (S (used b + length stream))) N).
  - apply (run_tracked _ (first_line stream)). constructor; cbn [stack mstack mroom Parser.room mnext next text mlen len mbuf held start app length];
      auto.
    split; cbn [used cells queue ended]; rewrite U; [lia|lia|]. cbn [skipn].
    destruct (first_line_view stream O) as [H|(pre & C & E1 & E2)]; [left; exact H|right; split; [reflexivity|]].
    exists pre. auto.
  - rewrite LN, map_length. pose proof (first_line_length stream). unfold enough. lia.
Qed.

(* One call: it goes wrong, or ends like the parse of the text seen. *)
Lemma console_ends rm b stream : (match rm with Some n => 1 <= n | None => True end)%nat -> used b = O -> octets stream ->
  console rm b stream = UB \/
  exists e b' o, console rm b stream = Ok (e, b') /\ used b' = O /\ octets (queue b') /\
    parse rm [] (seen stream) = Ok (o, []) /\ akin o e.
Proof.
  intros RM U O. pose proof (console_tracked rm b stream RM U O) as T.
  destruct (console rm b stream) as [[e b']| | |] eqn:E; [right|left; reflexivity| |]; cbn [follows] in T.
  - destruct T as ([o rest] & P & T1 & T2). cbn [fst snd] in *.
    destruct (parse_ways rm (seen stream) RM) as [W|[o' W]]; [congruence|]. rewrite W in P. injection P as <- <-.
    exists e, b', o'. split; [reflexivity|]. split; [auto|]. split; [|auto].
    destruct (console_over (fun q _ => octets q)) with (room := rm) (b := b) (stream := stream) (r := (e, b')) as [X _]; auto.
    + intros c q _ H. inversion H; assumption.
    + intros q H. inversion H; assumption.
  - exfalso. destruct (parse_ways rm (seen stream) RM) as [W|[o' W]]; congruence.
  - exfalso. exact (parse_steps rm [] (seen stream) RM T).
Qed.

Lemma consoles_end rm : (match rm with Some n => 1 <= n | None => True end)%nat -> forall k b stream, used b = O -> octets stream ->
  consoles rm k b stream = UB \/ exists es b', consoles rm k b stream = Ok (es, b') /\ length es = k.
Proof.
  intros RM. induction k as [|k IH]; intros b stream U O; [right; cbn; eauto|]. cbn [consoles].
  destruct (console_ends rm b stream RM U O) as [->|(e & b1 & o & -> & U1 & O1 & _)]; [left; reflexivity|]. cbn [bind].
  destruct (IH b1 (queue b1) U1 O1) as [->|(es & b' & -> & L)]; [left; reflexivity|]. right. cbn [bind].
  exists (e :: es), b'. cbn [length]. auto.
Qed.

Lemma consoles_steps rm k b stream : (match rm with Some n => 1 <= n | None => True end)%nat -> idle b -> octets stream ->
  consoles rm k b stream <> OutOfFuel /\ consoles rm k b stream <> Throw.
Proof.
  intros RM [U _] O. destruct (consoles_end rm RM k b stream U O) as [E|(es & b' & E & _)]; rewrite E; split; discriminate.
Qed.

Lemma console_akin rm b stream e b' : (match rm with Some n => 1 <= n | None => True end)%nat -> idle b -> octets stream ->
  console rm b stream = Ok (e, b') -> exists o, parse rm [] (seen stream) = Ok (o, []) /\ akin o e.
Proof.
  intros RM [U _] O E. destruct (console_ends rm b stream RM U O) as [E'|(e' & b1 & o & E' & _ & _ & P & A)]; rewrite E in E'; [discriminate|].
  injection E' as <- <-. eauto.
Qed.

Lemma consoles_progress rm : (match rm with Some n => 1 <= n | None => True end)%nat -> forall k b stream es b',
  used b = O -> octets stream -> consoles rm k b stream = Ok (es, b') -> (length (queue b') <= length stream - k)%nat.
Proof.
  intros RM. induction k as [|k IH]; intros b stream es b' U O E; cbn [consoles] in E.
  - injection E as <- <-. cbn [queue]. lia.
  - destruct (console_ends rm b stream RM U O) as [X|(e & b1 & o & X & U1 & O1 & _)]; rewrite X in E; cbn [bind] in E; [discriminate|].
    destruct (consoles rm k b1 (queue b1)) as [[es' b2]| | |] eqn:E2; cbn [bind] in E; try discriminate. injection E as <- <-.
    specialize (IH _ _ _ _ U1 O1 E2). destruct stream as [|v stream].
    + destruct (console_after _ _ _ _ U X) as [Q _]. rewrite Q in IH. cbn [length] in *. lia.
    + pose proof (console_progress _ _ _ _ _ U X ltac:(discriminate)). lia.
Qed.

Lemma consoles_all_read rm k b stream es b' : (match rm with Some n => 1 <= n | None => True end)%nat -> idle b -> octets stream ->
  (length stream <= k)%nat -> consoles rm k b stream = Ok (es, b') -> queue b' = [].
Proof.
  intros RM [U _] O L E. pose proof (consoles_progress rm RM k b stream es b' U O E) as H.
  destruct (queue b'); [reflexivity|]. cbn [length] in H. lia.
Qed.

Lemma console_reads room b stream e b' : idle b -> console room b stream = Ok (e, b') ->
  (stream <> [] -> length (queue b') < length stream)%nat /\ (stream = [] -> queue b' = [] /\ exists p t, e = Failed p t).
Proof.
  intros [U _] E. split; [intros N; exact (console_progress _ _ _ _ _ U E N)|]. intros ->. exact (console_after _ _ _ _ U E).
Qed.
