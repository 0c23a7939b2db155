(* Spaces after tokens do not matter. *)
From Coq Require Import ZArith String Ascii List Bool Lia.
From Verif Require Import Base Tables Parser ParserSpec Grammar LexFacts ParserCert ParserFacts ParserFacts2 ParserFacts3 ParserFacts4 ParserFacts5 ParserFacts6 ParserRuns.
Import ListNotations.
Open Scope string_scope.
Open Scope list_scope.
Open Scope Z_scope.

Opaque Z.testbit.

(** * Accepting runs, by steps and lexemes *)

Definition sane (c : config) : Prop := room c = None /\ exists all ts, inv all ts c.

Inductive accepts : nat -> config -> list (list ascii) -> list ast -> Prop :=
  | A_done c trees l : sane c -> text c = [] -> step c = Ok (inr (Accepted trees, l)) -> accepts 1 c [] trees
  | A_quiet n c c' ws trees : sane c -> step c = Ok (inl c') -> text c' = text c ->
      accepts n c' ws trees -> accepts (S n) c ws trees
  | A_word n c c' w ws trees : sane c -> step c = Ok (inl c') -> next c = Look -> w <> [] ->
      text c = w ++ text c' -> accepts n c' ws trees -> accepts (S n) c (w :: ws) trees.

Lemma run_accepts all : forall fuel ts c trees l, room c = None -> inv all ts c ->
  run fuel c = Ok (Accepted trees, l) ->
  exists n t ws, accepts n c ws trees /\ derivation t /\ root t = 59 /\ text_of t = all /\
    projection t = trees /\ lexemes t = words ts ++ ws.
Proof.
  induction fuel as [|fuel IH]; intros ts c trees l R I E; [discriminate|].
  assert (SN : sane c) by (split; [exact R|eauto]).
  cbn [run] in E. destruct (step_progress all ts c R I) as [c' ts' S R' I' M CS|S|t S D RT TX LX TN];
    rewrite S in E; cbn [bind] in E.
  - destruct (IH ts' c' trees l R' I' E) as (n & t & ws & A & D & RT & TX & PJ & LX).
    destruct CS as [[C1 C2]|(w & W & NX & C1 & C2)].
    + exists (Datatypes.S n), t, ws. rewrite C1 in LX. repeat (split; [|assumption]). 
      split; [|auto]. eapply A_quiet; eassumption.
    + exists (Datatypes.S n), t, (w :: ws). rewrite C1, <- app_assoc in LX. split; [|auto].
      eapply A_word; eassumption.
  - discriminate.
  - inversion E. subst trees l. exists 1%nat, t, []. rewrite app_nil_r. split; [|auto].
    eapply A_done; eassumption.
Qed.

Lemma accepts_text n c ws trees : accepts n c ws trees -> text c = concat ws.
Proof.
  induction 1; cbn [concat]; [assumption|congruence|]. congruence.
Qed.

Lemma accepts_words n c ws trees : accepts n c ws trees -> Forall (fun w => w <> []) ws.
Proof. induction 1; auto. Qed.

Lemma accepts_sane n c ws trees : accepts n c ws trees -> sane c.
Proof. destruct 1; assumption. Qed.

(* Chains of steps. *)
Inductive steps : nat -> config -> config -> Prop :=
  | S_none c : steps 0 c c
  | S_more n c c' c'' : step c = Ok (inl c') -> steps n c' c'' -> steps (S n) c c''.

Lemma steps_trans m n a b c : steps m a b -> steps n b c -> steps (m + n) a c.
Proof. induction 1; intros; [assumption|]. cbn. econstructor; eauto. Qed.

Lemma steps_leads n a b : steps n a b -> leads a b.
Proof. induction 1; [constructor|econstructor; eauto]. Qed.

Lemma accepts_steps k c c' : steps k c c' -> forall n ws trees, accepts n c ws trees ->
  exists n' ws0 ws', n = (k + n')%nat /\ ws = ws0 ++ ws' /\ accepts n' c' ws' trees.
Proof.
  induction 1 as [c|k c c1 c2 E ST IH]; intros n ws trees A.
  - exists n, [], ws. auto.
  - inversion A as [c0 t0 l0 SN T E0|m c0 c1' ws0 t0 SN E0 T A'|m c0 c1' w ws0 t0 SN E0 NX W T A']; subst.
    + rewrite E in E0. discriminate.
    + rewrite E in E0. inversion E0. subst c1'.
      destruct (IH _ _ _ A') as (n' & u & v & Q1 & Q2 & Q3).
      exists n', u, v. split; [lia|auto].
    + rewrite E in E0. inversion E0. subst c1'.
      destruct (IH _ _ _ A') as (n' & u & v & Q1 & Q2 & Q3).
      exists n', (w :: u), v. split; [lia|]. subst. auto.
Qed.

(** * Steps of configurations with the same stack *)

Definition same (c1 c2 : config) : Prop :=
  stack c1 = stack c2 /\ next c1 = next c2 /\ room c1 = None /\ room c2 = None.

Lemma same_reduce c1 c2 i : same c1 c2 -> next c1 = Reduce i ->
  match step c1 with
  | Ok (inl c1') => exists c2', step c2 = Ok (inl c2') /\ same c1' c2' /\ text c1' = text c1 /\ text c2' = text c2
  | Ok (inr (o, _)) => exists l, step c2 = Ok (inr (o, l))
  | _ => True
  end.
Proof.
  intros (SK & NX & R1 & R2) N. unfold step. rewrite <- NX, N. unfold reduce. rewrite SK, R1, R2.
  destruct (rd productions i) as [[[emit m] lhs]| | |]; cbn [bind]; auto.
  destruct (pop (Z.to_nat m) (stack c2) []) as [[stk col]| | |]; cbn [bind]; auto.
  destruct stk as [|[s own] below]; [auto|].
  destruct ((lhs =? 59) && match below with [] => true | _ :: _ => false end); [eauto|].
  destruct (get_go s lhs) as [o| | |]; cbn [bind]; auto.
  destruct (match o with Some e => e | None => (1, i) end) as [a j]. cbn [push bind].
  eexists. split; [reflexivity|]. repeat split.
Qed.

(* Looking, in terms of the token found. *)
Lemma look_step c s n below f a i : room c = None -> next c = Look -> stack c = Cell s n :: below ->
  0 <= s < 176 -> get_sym s (text c) = Ok f -> get_act s (fsym f) = Ok (Some (a, i)) ->
  exists c', step c = Ok (inl c') /\ room c' = None /\ next c' = after a i /\
    (Z.testbit a 1 = false /\ stack c' = stack c /\ text c' = text c
     \/ Z.testbit a 1 = true /\
        stack c' = Cell (target a i) (own (Token (fsym f) (firstn (flen f) (text c)))) :: stack c /\
        text c' = skipn (flen f) (text c) /\
        (fsym f = 0 /\ text c = [] \/ 1 <= fsym f < 59 /\ (0 < flen f <= length (text c))%nat)).
Proof.
  intros R NX SK Hs E A. unfold step. rewrite NX. unfold look. rewrite SK. cbn [state].
  rewrite E. cbn [bind]. rewrite A. cbn [bind].
  destruct (get_sym_sound s (text c) Hs) as (f' & E' & SD). rewrite E in E'. inversion E'. subst f'.
  destruct (Z.testbit a 1) eqn:TB.
  - assert (FB : fsym f = 0 /\ text c = [] /\ flen f = O \/ 1 <= fsym f < 59 /\ (0 < flen f <= length (text c))%nat).
    { destruct SD as [[T F]|[(_ & F & _)|(F & L & _)]].
      - left. subst f. auto.
      - exfalso. rewrite F in A. rewrite (get_act_eq s _ Hs) in A.
        destruct (grow_fact s Hs) as [_ EN]. unfold entries_ok in EN. rewrite !andb_true_iff in EN.
        destruct EN as [[[EN1 _] _] _]. apply negb_true_iff in EN1. unfold has_entry in EN1.
        destruct (entry_of s (-1)); [discriminate|]. destruct (-1 <? def_of s); inversion A. subst a. discriminate.
      - right. auto. }
    destruct (symbol_names (fsym f)) as [b SN]; [lia|]. rewrite SN. cbn [bind fst].
    rewrite R. cbn [grow push bind].
    destruct FB as [(F & T & L)|(F & L)].
    + rewrite F. cbn [Z.eqb orb]. eexists. split; [reflexivity|]. cbn [room next stack text].
      split; [reflexivity|]. split; [reflexivity|]. right. split; [reflexivity|]. split; [reflexivity|].
      rewrite L. split; [reflexivity|]. left. auto.
    + destruct (Z.eqb_spec (fsym f) 0); [lia|]. destruct (Z.eqb_spec (fsym f) (-1)); [lia|]. cbn [orb].
      destruct (flen f) as [|k] eqn:FL; [lia|]. cbn [clear_input].
      eexists. split; [reflexivity|]. cbn [room next stack text].
      split; [reflexivity|]. split; [reflexivity|]. right. split; [reflexivity|]. split; [reflexivity|].
      split; [reflexivity|]. right. auto.
  - eexists. split; [reflexivity|]. cbn [room next stack text]. rewrite R. auto 10.
Qed.

(** * Blanks *)

Lemma land_fact p : 0 <= p < 176 -> lands_ok p = true /\ (def_of p = 211 \/ def_of p = 210 -> blank_state p = true).
Proof.
  intros H. pose proof land_checks as K. rewrite forallb_forall in K.
  specialize (K p (upto_In 176 p ltac:(cbn; lia))). apply andb_true_iff in K. destruct K as [K1 K2].
  split; [exact K1|]. fold (def_of p) in K2. intros D.
  destruct D as [D|D]; rewrite D in K2; cbn [Z.eqb Pos.eqb orb negb] in K2; exact K2.
Qed.

(* The states in which blanks are read. *)
Lemma blank_states :
  forallb (fun p => (negb (has_entry p 58) || (def_of p =? 211) || (p =? 1))
    && (negb (def_of p =? 211) || negb (p =? 1))
    && (negb (def_of p =? 210) || (p =? 1))) (upto 176) = true.
Proof. vm_compute. reflexivity. Qed.

Lemma blank_cases p : 0 <= p < 176 ->
  (has_entry p 58 = true -> def_of p = 211 \/ p = 1) /\ (def_of p = 211 -> p <> 1).
Proof.
  intros H. pose proof blank_states as K. rewrite forallb_forall in K.
  specialize (K p (upto_In 176 p ltac:(cbn; lia))). rewrite !andb_true_iff, !orb_true_iff, !negb_true_iff in K.
  destruct K as [[K1 K2] _]. split.
  - intros E. destruct K1 as [[K1|K1]|K1]; [congruence|left; apply Z.eqb_eq, K1|right; apply Z.eqb_eq, K1].
  - intros D. destruct K2 as [K2|K2]; apply Z.eqb_neq in K2; congruence.
Qed.

Lemma edges_one : forallb (fun p => forallb (fun x =>
    negb (edge_ok p x 1) || (x =? 118) && (def_of p =? 211)) (upto 234)) (upto 176) = true.
Proof. vm_compute. reflexivity. Qed.

Lemma root_bound t : derivation t -> 0 <= root t < 234.
Proof.
  intros D. destruct D as [sym txt H M|r lhs rhs name kids H M F]; [cbn; lia|].
  cbn [root]. rewrite H. apply nth_error_In in H.
  assert (K : forallb (fun r => (0 <=? fst (fst r)) && (fst (fst r) <? 234)) rules = true) by (vm_compute; reflexivity).
  rewrite forallb_forall in K. specialize (K _ H). cbn [fst] in K.
  rewrite andb_true_iff, Z.leb_le, Z.ltb_lt in K. exact K.
Qed.

(* A stack with state 1 on top. *)
Lemma linked_one n below ts : linked (Cell 1 n :: below) ts [] ->
  n = [] /\ exists q m below', below = Cell q m :: below' /\ 0 <= q < 176 /\ def_of q = 211.
Proof.
  intros L. inversion L as [ex|q t p m cs ts0 ex Hp E D L']; subst.
  pose proof (root_bound t D) as RB.
  pose proof edges_one as K. rewrite forallb_forall in K.
  specialize (K p (upto_In 176 p ltac:(cbn; lia))). rewrite forallb_forall in K.
  specialize (K (root t) (upto_In 234 (root t) ltac:(cbn; lia))). rewrite E in K. cbn [negb orb] in K.
  rewrite andb_true_iff, !Z.eqb_eq in K. destruct K as [K1 K2]. split.
  - pose proof (root_derived t D) as RD. destruct t; [lia|]. reflexivity.
  - exists p, m, cs. auto.
Qed.

Lemma blank_facts q : 0 <= q < 176 -> def_of q = 211 \/ q = 1 ->
  entry_of q 58 = Some (3, 207) /\ (forall x, x <> 58 -> entry_of q x = None) /\
  (forall w, exists k, get_sym q (" "%char :: w) = Ok (Found 58 1 k)) /\
  get_go q 119 = Ok (Some (3, if q =? 1 then 208 else 209)) /\
  (q <> 1 -> get_go q 118 = Ok (Some (2, 1)) /\ exists e, get_go q 117 = Ok (Some e)).
Proof.
  intros H D.
  assert (B : blank_state q = true).
  { apply (land_fact q H). destruct D as [D|D]; [auto|]. subst. right. exact blank_one. }
  unfold blank_state in B. rewrite !andb_true_iff in B. destruct B as [[[[B1 B2] B3] B4] B5].
  destruct lengths_ok as (LA & LG & _).
  split; [|split; [|split; [|split]]].
  - unfold entry_of. destruct (row actions q) as [|[[x a] i] [|]]; try discriminate.
    rewrite !andb_true_iff, !Z.eqb_eq in B1. destruct B1 as [[-> ->] ->]. reflexivity.
  - intros y Y. unfold entry_of. destruct (row actions q) as [|[[x a] i] [|]]; try discriminate.
    rewrite !andb_true_iff, !Z.eqb_eq in B1. destruct B1 as [[-> ->] ->]. cbn [find_entry].
    destruct (Z.eqb_spec 58 y); [congruence|reflexivity].
  - intros w. destruct (select_eq q H) as [SE SB]. set (m := nth (Z.to_nat q) dfa_select (-2)) in *.
    destruct (nth_error machines (Z.to_nat m)) as [cells|] eqn:N; [|discriminate].
    apply andb_true_iff in B5 as [B5 B6]. apply Z.leb_le in B5.
    assert (Hm : 0 <= m < 70) by lia. pose proof (machine_start m cells N) as Z0.
    rewrite (get_sym_scan q m _ _ H eq_refl B5).
    destruct (target_of cells 0 32) as [st|] eqn:T; [|discriminate]. apply Z.eqb_eq in B6.
    destruct (scan_one m cells Hm N 0 " "%char w O (-1, O) Z0) as [(T' & _)|(st' & T' & R & CB & K)];
      change (code " ") with 32 in *; rewrite T in T'; [discriminate|]. inversion T'. subst st'.
    destruct K as [(K1 & _)|(_ & K2)]; [lia|]. rewrite K2, B6.
    destruct (calm_fact m cells 0 N Z0) as [_ CF]. destruct (CF 32 st CB T) as (_ & _ & _ & ST & _).
    destruct (scan_stuck m cells st (59 - 1, 1%nat) 1%nat Hm N R (ST eq_refl eq_refl) w) as [k E].
    exists k. exact E.
  - unfold get_go. rewrite (row_rd go q LG H). cbn [bind].
    destruct (find_entry (row go q) 119) as [[a i]|]; [|discriminate].
    destruct (q =? 1); rewrite andb_true_iff, !Z.eqb_eq in B2; destruct B2 as [-> ->]; reflexivity.
  - intros Q. apply Z.eqb_neq in Q. rewrite Q in B3, B4. cbn [orb] in B3, B4.
    unfold get_go. rewrite (row_rd go q LG H). cbn [bind]. split.
    + destruct (find_entry (row go q) 118) as [[a i]|]; [|discriminate].
      rewrite andb_true_iff, !Z.eqb_eq in B3. destruct B3 as [-> ->]. reflexivity.
    + destruct (find_entry (row go q) 117) as [e|]; [|discriminate]. eauto.
Qed.

(* A reduction in terms of its production. *)
Lemma reduce_step c i emit m lhs stk s n below e : room c = None -> next c = Reduce i ->
  rd productions i = Ok (emit, m, lhs) -> emit = ""%string -> lhs <> 59 ->
  pop (Z.to_nat m) (stack c) [] = Ok (Cell s n :: below, stk) ->
  get_go s lhs = Ok (Some e) ->
  exists c', step c = Ok (inl c') /\ room c' = None /\ text c' = text c /\
    stack c' = Cell (target (fst e) (snd e)) [] :: Cell s (n ++ stk) :: below /\
    next c' = after (fst e) (snd e).
Proof.
  intros R NX P E L PO G. unfold step. rewrite NX. unfold reduce. rewrite P. cbn [bind].
  rewrite PO. cbn [bind]. subst emit. change ((""=?"")%string) with true. cbv iota.
  destruct (Z.eqb_spec lhs 59); [contradiction|]. cbn [andb]. rewrite G. cbn [bind].
  destruct e as [a j]. rewrite R. cbn [push bind fst snd].
  eexists. split; [reflexivity|]. cbn [room text stack next]. auto.
Qed.

Lemma p207 : rd productions 207 = Ok (""%string, 1, 119). Proof. vm_compute. reflexivity. Qed.
Lemma p208 : rd productions 208 = Ok (""%string, 2, 118). Proof. vm_compute. reflexivity. Qed.
Lemma p209 : rd productions 209 = Ok (""%string, 1, 118). Proof. vm_compute. reflexivity. Qed.
Lemma p210 : rd productions 210 = Ok (""%string, 1, 117). Proof. vm_compute. reflexivity. Qed.
Lemma p211 : rd productions 211 = Ok (""%string, 0, 117). Proof. vm_compute. reflexivity. Qed.

(* A stack on which blanks are read, and the one with blanks read. *)
Definition before (q : Z) (n : list ast) (below stk : list cell) : Prop :=
  0 <= q < 176 /\ def_of q = 211 /\
  (stk = Cell q n :: below \/ stk = Cell 1 [] :: Cell q n :: below).

Lemma reduce_blank c q n below stk : before q n below stk -> room c = None -> next c = Reduce 207 ->
  stack c = Cell (-1) [] :: stk ->
  exists c', steps 2 c c' /\ room c' = None /\ next c' = Look /\ text c' = text c /\
    stack c' = Cell 1 [] :: Cell q n :: below.
Proof.
  intros (H & D & K) R NX SK. pose proof (proj2 (blank_cases q H) D) as Q1.
  destruct (blank_facts q H (or_introl D)) as (_ & _ & _ & G119 & G). destruct (G Q1) as [G118 _].
  destruct (blank_facts 1 ltac:(lia) (or_intror eq_refl)) as (_ & _ & _ & G1 & _). cbn [Z.eqb Pos.eqb] in G1.
  apply Z.eqb_neq in Q1. rewrite Q1 in G119.
  destruct K as [-> | ->].
  - destruct (reduce_step c 207 "" 1 119 [] q n below (3, 209) R NX p207 eq_refl) as (c1 & S1 & R1 & T1 & SK1 & N1).
    + discriminate.
    + rewrite SK. reflexivity.
    + exact G119.
    + cbn [fst snd] in SK1, N1. change (target 3 209) with (-1) in SK1. change (after 3 209) with (Reduce 209) in N1.
      rewrite app_nil_r in SK1.
      destruct (reduce_step c1 209 "" 1 118 [] q n below (2, 1) R1 N1 p209 eq_refl) as (c2 & S2 & R2 & T2 & SK2 & N2).
      * discriminate.
      * rewrite SK1. reflexivity.
      * exact G118.
      * cbn [fst snd] in SK2, N2. change (target 2 1) with 1 in SK2. change (after 2 1) with Look in N2.
        rewrite app_nil_r in SK2. exists c2. split; [|split; [exact R2|split; [exact N2|split; [congruence|exact SK2]]]].
        econstructor; [exact S1|]. econstructor; [exact S2|]. constructor.
  - destruct (reduce_step c 207 "" 1 119 [] 1 [] (Cell q n :: below) (3, 208) R NX p207 eq_refl) as (c1 & S1 & R1 & T1 & SK1 & N1).
    + discriminate.
    + rewrite SK. reflexivity.
    + exact G1.
    + cbn [fst snd] in SK1, N1. change (target 3 208) with (-1) in SK1. change (after 3 208) with (Reduce 208) in N1.
      cbn [app] in SK1.
      destruct (reduce_step c1 208 "" 2 118 [] q n below (2, 1) R1 N1 p208 eq_refl) as (c2 & S2 & R2 & T2 & SK2 & N2).
      * discriminate.
      * rewrite SK1. reflexivity.
      * exact G118.
      * cbn [fst snd] in SK2, N2. change (target 2 1) with 1 in SK2. change (after 2 1) with Look in N2.
        rewrite app_nil_r in SK2. exists c2. split; [|split; [exact R2|split; [exact N2|split; [congruence|exact SK2]]]].
        econstructor; [exact S1|]. econstructor; [exact S2|]. constructor.
Qed.

(* Reading one space. *)
Lemma absorb_one c q n below w : before q n below (stack c) -> room c = None -> next c = Look ->
  text c = " "%char :: w ->
  exists c', steps 3 c c' /\ room c' = None /\ next c' = Look /\ text c' = w /\
    stack c' = Cell 1 [] :: Cell q n :: below.
Proof.
  intros B R NX T. pose proof B as (H & D & K).
  assert (TOP : exists s m rest, stack c = Cell s m :: rest /\ 0 <= s < 176 /\ (def_of s = 211 \/ s = 1)).
  { destruct K as [-> | ->].
    - exists q, n, below. auto.
    - exists 1, [], (Cell q n :: below). split; [reflexivity|]. split; [lia|auto]. }
  destruct TOP as (s & m & rs & SK & Hs & DS).
  destruct (blank_facts s Hs DS) as (E58 & _ & SC & _). destruct (SC w) as [k E].
  rewrite <- T in E.
  destruct (look_step c s m rs (Found 58 1 k) 3 207 R NX SK Hs E) as (c1 & S1 & R1 & N1 & Q).
  - rewrite (get_act_eq s _ Hs). cbn [fsym]. rewrite E58. reflexivity.
  - change (after 3 207) with (Reduce 207) in N1. change (target 3 207) with (-1) in Q.
    change (Z.testbit 3 1) with true in Q. cbn [fsym flen] in Q.
    destruct Q as [[Q _]|(_ & Q1 & Q2 & _)]; [discriminate|].
    change (own (Token 58 (firstn 1 (text c)))) with (@nil ast) in Q1.
    destruct (reduce_blank c1 q n below (stack c) B R1 N1 Q1) as (c2 & S2 & R2 & N2 & T2 & SK2).
    exists c2. split; [|split; [exact R2|split; [exact N2|split; [|exact SK2]]]].
    + change 3%nat with (1 + 2)%nat. eapply steps_trans; [|exact S2]. econstructor; [exact S1|constructor].
    + rewrite T2, Q2, T. reflexivity.
Qed.

Lemma absorb q n below : forall k c w, before q n below (stack c) -> room c = None -> next c = Look ->
  text c = spaces k ++ w -> (0 < k)%nat ->
  exists c', steps (3 * k) c c' /\ room c' = None /\ next c' = Look /\ text c' = w /\
    stack c' = Cell 1 [] :: Cell q n :: below.
Proof.
  induction k as [|k IH]; intros c w B R NX T K; [lia|].
  cbn [spaces repeat app] in T.
  destruct (absorb_one c q n below _ B R NX T) as (c1 & S1 & R1 & N1 & T1 & SK1).
  destruct k as [|k].
  - exists c1. split; [exact S1|]. auto.
  - destruct B as (H & D & _).
    destruct (IH c1 w) as (c2 & S2 & R2 & N2 & T2 & SK2); [|exact R1|exact N1|exact T1|lia|].
    + split; [exact H|]. split; [exact D|]. right. exact SK1.
    + exists c2. split; [|auto]. replace (3 * S (S k))%nat with (3 + 3 * S k)%nat by lia.
      eapply steps_trans; eassumption.
Qed.

(** * The two runs *)

Definition plain (l : list (list ascii * nat)) : list ascii := concat (map fst l).
Definition spaced (l : list (list ascii * nat)) : list ascii :=
  concat (map (fun p => fst p ++ spaces (snd p)) l).

Definition no_tab (l : list (list ascii)) : Prop := Forall (Forall (fun c => code c <> 9)) l.

Definition ends (c : config) (trees : list ast) : Prop :=
  exists c' l, leads c c' /\ step c' = Ok (inr (Accepted trees, l)).

Lemma ends_leads c c' trees : leads c c' -> ends c' trees -> ends c trees.
Proof. intros L (c2 & l & L2 & S). exists c2, l. split; [eapply leads_trans; eassumption|exact S]. Qed.

Lemma ends_step c c' trees : step c = Ok (inl c') -> ends c' trees -> ends c trees.
Proof. intros S. apply ends_leads. econstructor; [exact S|constructor]. Qed.

Lemma first_pad l : spaced l = plain l \/
  exists a w n b, l = a ++ (w, S n) :: b /\ plain a = spaced a.
Proof.
  induction l as [|[w n] l IH]; [left; reflexivity|]. destruct n as [|n].
  - destruct IH as [IH|(a & w' & n & b & -> & E)].
    + left. unfold plain, spaced in *. cbn [map concat fst snd spaces repeat]. rewrite app_nil_r, IH. reflexivity.
    + right. exists ((w, O) :: a), w', n, b. split; [reflexivity|].
      unfold plain, spaced in *. cbn [map concat fst snd spaces repeat]. rewrite app_nil_r, E. reflexivity.
  - right. exists [], w, n, l. auto.
Qed.

(* The plain run has done at most n steps less. *)
Definition follows (n : nat) : Prop := forall c1 c2 l trees,
  accepts n c1 (map fst l) trees -> no_tab (map fst l) -> same c1 c2 -> text c2 = spaced l -> ends c2 trees.

Lemma no_tab_app a b : no_tab (a ++ b) -> no_tab b.
Proof. unfold no_tab. rewrite Forall_app. tauto. Qed.

(* After a blank, or after several. *)
Lemma blank_closed n c1 c2 l trees k q m below :
  (forall n', (n' < n)%nat -> follows n') ->
  accepts n c1 (map fst l) trees -> no_tab (map fst l) -> same c1 c2 -> next c1 = Look ->
  0 <= q < 176 -> def_of q = 211 -> stack c1 = Cell q m :: below ->
  text c2 = spaces k ++ spaced l -> (0 < k)%nat -> ends c2 trees.
Proof.
  intros IH A NT (SK & NX & R1 & R2) L Hq D ST T K.
  assert (B : before q m below (stack c2)).
  { split; [exact Hq|]. split; [exact D|]. left. congruence. }
  destruct (absorb q m below k c2 _ B R2 ltac:(congruence) T K) as (c3 & S3 & R3 & N3 & T3 & SK3).
  apply (ends_leads c2 c3); [apply (steps_leads _ _ _ S3)|].
  pose proof (accepts_text _ _ _ _ A) as TX. pose proof (accepts_words _ _ _ _ A) as AW.
  destruct (get_sym_sound q (text c1) Hq) as (f1 & E1 & SD1).
  destruct (blank_facts q Hq (or_introl D)) as (E58 & ENO & SC & _ & G).
  pose proof (proj2 (blank_cases q Hq) D) as Q1. destruct (G Q1) as (_ & e & G117).
  destruct (blank_facts 1 ltac:(lia) (or_intror eq_refl)) as (F58 & FNO & FSC & _).
  destruct (Z.eq_dec (fsym f1) 58) as [F|F].
  - (* the plain run reads a blank itself *)
    destruct SD1 as [[_ SD]|[(_ & SD & _)|(_ & LN & M & _)]]; [subst f1; discriminate|lia|].
    rewrite F in M. change (lexeme 58) with blank in M. unfold blank in M.
    inversion M as [|rl c IR Q0 Q| | | | | | ]. clear M.
    destruct (text c1) as [|c0 rest1] eqn:TC; [cbn in LN; lia|].
    destruct (flen f1) as [|[|fl]]; [lia| |].
    2:{ destruct rest1; cbn in *; [lia|discriminate]. }
    cbn [firstn] in Q. inversion Q. subst c0.
    destruct l as [|[w pn] l']; [cbn in TX; discriminate|]. cbn [map fst concat] in TX.
    inversion AW as [|? ? W0 AW']; subst. destruct w as [|c0 w']; [contradiction|].
    cbn [app] in TX. injection TX as TX0 TX1. subst c0.
    assert (C9 : code c <> 9).
    { inversion NT as [|? ? X Y]; subst. inversion X; subst. assumption. }
    assert (C : c = " "%char).
    { cbn [in_ranges existsb fst snd] in IR. rewrite !orb_true_iff, !andb_true_iff, !Z.leb_le in IR.
      assert (code c = 32) by (destruct IR as [IR|[IR|IR]]; [lia|lia|discriminate]).
      clear - H. unfold code in H. destruct (Z.ltb_spec (Z.of_nat (nat_of_ascii c)) 128) as [X|X].
      - rewrite <- (ascii_nat_embedding c). replace (nat_of_ascii c) with 32%nat by lia. reflexivity.
      - assert (nat_of_ascii c < 256)%nat by apply nat_ascii_bounded. lia. }
    subst c.
    assert (B1 : before q m below (stack c1)) by (split; [exact Hq|split; [exact D|left; exact ST]]).
    destruct (absorb_one c1 q m below rest1 B1 R1 L TC) as (c4 & S4 & R4 & N4 & T4 & SK4).
    destruct (accepts_steps _ _ _ S4 _ _ _ A) as (n' & ws0 & ws' & EN & EW & A4).
    pose proof (accepts_text _ _ _ _ A4) as TX4.
    (* exactly the blank has been read *)
    assert (W1 : w' = [] /\ ws' = map fst l').
    { cbn [map fst] in EW. destruct ws0 as [|w0 ws0].
      - cbn [app] in EW. subst ws'. cbn [concat] in TX4. rewrite T4 in TX4.
        apply (f_equal (@length ascii)) in TX4. apply (f_equal (@length ascii)) in TX1.
        cbn [app length] in *. rewrite app_length in *. lia.
      - injection EW as EW0 EW1.
        assert (LL : length (concat (ws0 ++ ws')) = (length (concat ws0) + length rest1)%nat).
        { rewrite concat_app, app_length, <- TX4, T4. reflexivity. }
        rewrite <- EW1 in LL. rewrite TX1, app_length in LL.
        assert (Z : length w' = O /\ length (concat ws0) = O) by lia.
        destruct Z as [Z1 Z2]. destruct w'; [|discriminate]. split; [reflexivity|].
        destruct ws0 as [|x ws0]; [symmetry; exact EW1|]. exfalso. cbn [app] in EW1. rewrite EW1 in AW'.
        inversion AW' as [|? ? X Y]; subst. destruct x; [contradiction|discriminate]. }
    destruct W1 as [-> ->].
    assert (T3' : text c3 = spaces (S pn) ++ spaced l').
    { rewrite T3. unfold spaced. cbn [map concat fst snd app spaces repeat]. reflexivity. }
    assert (B3 : before q m below (stack c3)) by (split; [exact Hq|split; [exact D|right; exact SK3]]).
    destruct (absorb q m below (S pn) c3 _ B3 R3 N3 T3' ltac:(lia)) as (c5 & S5 & R5 & N5 & T5 & SK5).
    apply (ends_leads c3 c5); [apply (steps_leads _ _ _ S5)|].
    apply (IH n' ltac:(lia) c4 c5 l' trees).
    + exact A4.
    + inversion NT; assumption.
    + unfold same. rewrite SK4, SK5, N4, N5. auto.
    + exact T5.
  - (* neither run reads a further blank *)
    assert (F2 : exists f2, get_sym 1 (text c3) = Ok f2 /\ fsym f2 <> 58).
    { destruct (get_sym_sound 1 (text c3) ltac:(lia)) as (f2 & E2 & SD2). exists f2. split; [exact E2|]. intros F2.
      destruct SD2 as [[_ SD]|[(_ & SD & _)|(_ & LN & M & _)]]; [subst f2; discriminate|lia|].
      rewrite F2 in M. change (lexeme 58) with blank in M. unfold blank in M.
      inversion M as [|rl c IR Q0 Q| | | | | | ]. clear M.
      destruct l as [|[w pn] l'].
      - rewrite T3 in LN. cbn in LN. lia.
      - cbn [map fst] in AW. inversion AW as [|? ? W0 AW']; subst. destruct w as [|c0 w']; [contradiction|].
        assert (C9 : code c0 <> 9).
        { inversion NT as [|? ? X Y]; subst. inversion X; subst. assumption. }
        rewrite T3 in Q, LN. unfold spaced in Q, LN. cbn [map concat fst snd app] in Q, LN.
        destruct (flen f2) as [|fl]; [lia|]. cbn [firstn] in Q. inversion Q. subst c0.
        assert (C : c = " "%char).
        { cbn [in_ranges existsb fst snd] in IR. rewrite !orb_true_iff, !andb_true_iff, !Z.leb_le in IR.
          assert (code c = 32) by (destruct IR as [IR|[IR|IR]]; [lia|lia|discriminate]).
          clear - H. unfold code in H. destruct (Z.ltb_spec (Z.of_nat (nat_of_ascii c)) 128) as [X|X].
          - rewrite <- (ascii_nat_embedding c). replace (nat_of_ascii c) with 32%nat by lia. reflexivity.
          - assert (nat_of_ascii c < 256)%nat by apply nat_ascii_bounded. lia. }
        subst c. rewrite TX in E1. cbn [map fst concat app] in E1.
        destruct (SC (w' ++ concat (map fst l'))) as [kk E]. rewrite E in E1. inversion E1. subst f1.
        apply F. reflexivity. }
    destruct F2 as (f2 & E2 & F2).
    assert (DD : forall s x, 0 <= s < 176 -> entry_of s x = None -> 0 <= def_of s -> get_act s x = Ok (Some (1, def_of s))).
    { intros s x Hs X Y. rewrite (get_act_eq s x Hs), X. destruct (Z.ltb_spec (-1) (def_of s)); [reflexivity|lia]. }
    destruct (look_step c1 q m below f1 1 211 R1 L ST Hq E1) as (c4 & S4 & R4 & N4 & Q4).
    { rewrite (DD q _ Hq (ENO _ F)); rewrite D; [reflexivity|lia]. }
    change (after 1 211) with (Reduce 211) in N4. change (Z.testbit 1 1) with false in Q4.
    destruct Q4 as [(_ & SK4 & T4)|[Q4 _]]; [|discriminate].
    destruct (look_step c3 1 [] (Cell q m :: below) f2 1 210 R3 N3 SK3 ltac:(lia) E2) as (c5 & S5 & R5 & N5 & Q5).
    { apply (DD 1 _ ltac:(lia) (FNO _ F2)). vm_compute. discriminate. }
    change (after 1 210) with (Reduce 210) in N5. change (Z.testbit 1 1) with false in Q5.
    destruct Q5 as [(_ & SK5 & T5)|[Q5 _]]; [|discriminate].
    destruct (reduce_step c4 211 "" 0 117 [] q m below e R4 N4 p211 eq_refl) as (c6 & S6 & R6 & T6 & SK6 & N6).
    { discriminate. } { rewrite SK4, ST. reflexivity. } { exact G117. }
    destruct (reduce_step c5 210 "" 1 117 [] q m below e R5 N5 p210 eq_refl) as (c7 & S7 & R7 & T7 & SK7 & N7).
    { discriminate. } { rewrite SK5, SK3. reflexivity. } { exact G117. }
    apply (ends_step c3 c5 _ S5). apply (ends_step c5 c7 _ S7).
    assert (SS : steps 2 c1 c6) by (econstructor; [exact S4|econstructor; [exact S6|constructor]]).
    destruct (accepts_steps _ _ _ SS _ _ _ A) as (n' & ws0 & ws' & EN & EW & A6).
    assert (W : ws' = map fst l).
    { pose proof (accepts_text _ _ _ _ A6) as TX6. rewrite T6, T4, TX, EW, concat_app in TX6.
      apply (f_equal (@length ascii)) in TX6. rewrite app_length in TX6.
      destruct ws0 as [|x ws0]; [symmetry; exact EW|]. exfalso. rewrite EW in AW. cbn [app] in AW.
      inversion AW; subst. destruct x; [contradiction|]. cbn [concat app length] in TX6. rewrite app_length in TX6. lia. }
    subst ws'.
    apply (IH n' ltac:(lia) c6 c7 l trees).
    + exact A6.
    + exact NT.
    + unfold same. rewrite SK6, SK7, N6, N7. auto.
    + rewrite T7, T5. exact T3.
Qed.
