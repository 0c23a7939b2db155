(* Continued: on the way to acceptance a token or the end of the input is seen whenever
   the parser looks, so that nothing is ever dropped. *)
From Coq Require Import ZArith String Ascii List Bool Lia.
From Verif Require Import Base Tables Parser ParserSpec Grammar GrammarSpec LexFacts LexFacts2 ParserCert ParserFacts ParserFacts2 ParserFacts3 ParserFacts8.
From Verif Require Import ParserAhead ParserFacts9 ParserFacts10 ParserFacts11 ParserFacts12 FreshFacts6.
Import ListNotations.
Open Scope string_scope.
Open Scope list_scope.
Open Scope Z_scope.

(* Every token is seen where it may come. *)
Fixpoint visible (toks : list (Z * list ascii)) : Prop :=
  match toks with
  | [] => True
  | (a, w) :: toks' =>
      (forall s, 0 <= s < 176 -> among a (expected s) = true -> (a = 18 -> s = 26 -> peek toks' <> 14) ->
        spots s w (flat toks')) /\
      visible toks'
  end.

Lemma visible_app l1 l2 : visible (l1 ++ l2) -> visible l2.
Proof. induction l1 as [|[a w] l1 IH]; [auto|]. cbn. tauto. Qed.

Lemma tokens_visible toks : adjacent toks -> legible toks ->
  Forall (fun p => matches (lexeme (fst p)) (snd p)) toks ->
  visible toks /\ Forall (fun c => 0 <= code c) (flat toks).
Proof.
  induction toks as [|[a w] toks IH]; intros A L F; [split; constructor|].
  cbn [adjacent legible] in A, L. destruct A as (Ha & A1 & A2). destruct L as (L1 & L3).
  inversion F as [|? ? M F']; subst. cbn [fst snd] in M.
  destruct (IH A2 L3 F') as [R P]. clear IH.
  pose proof (matches_lex a w L1 M) as ML.
  assert (PW : Forall (fun c => 0 <= code c) (w ++ flat toks)).
  { apply Forall_app. split; [exact (lex_chars a w Ha ML)|exact P]. }
  split; [|exact PW].
  split; [|exact R]. intros s Hs EX ST.
  destruct (Z.eq_dec a 0) as [->|NZ].
  - assert (E : toks = []).
    { destruct toks as [|[b w'] toks]; [reflexivity|]. cbn [head_in] in A1.
      exfalso. change (near_to 0) with 0 in A1. unfold among in A1. rewrite Z.testbit_0_l in A1. discriminate. }
    subst toks. rewrite (eof_empty w M). apply see_end, Hs.
  - apply (see_token s a w); [exact Hs|lia|exact EX|exact ML| |exact P].
    destruct toks as [|[b w'] toks]; [exact I|]. cbn [head_in] in A1.
    cbn [adjacent] in A2. destruct A2 as (Hb & A2 & A3). cbn [legible] in L3. destruct L3 as (L4 & _).
    inversion F' as [|? ? M' F'']; subst. cbn [fst snd] in M'.
    pose proof (matches_lex b w' L4 M') as ML'.
    destruct (Z.eq_dec b 0) as [->|NB].
    + assert (E : toks = []).
      { destruct toks as [|[d w''] toks]; [reflexivity|]. cbn [head_in] in A2.
        exfalso. change (near_to 0) with 0 in A2. unfold among in A2. rewrite Z.testbit_0_l in A2. discriminate. }
      subst toks. rewrite (eof_empty w' M'). exact I.
    + pose proof (lex_filled b w' ltac:(lia) ML') as NE.
      destruct w' as [|c w']; [contradiction|]. unfold flat in *. cbn [map snd concat app] in *.
      rewrite Forall_cons_iff in P. destruct P as [P1 P2]. split; [assumption|].
      destruct (Z.eq_dec a 18) as [->|N18]; [destruct (Z.eq_dec b 14) as [->|N14]|].
      * right. cbn [peek] in ST. split; [reflexivity|]. split; [intros ->; apply ST; reflexivity|].
        change (lex 14) with (Cat (chr 45) (chr 45)) in ML'.
        inversion ML' as [| | |? ? u v U V EA EB| | | |].
        inversion U; inversion V; subst. injection EB as <- <-.
        match goal with H : in_ranges _ _ = true |- _ => apply in_single in H; rewrite H end.
        split; [reflexivity|]. eexists _, _. split; [reflexivity|].
        match goal with H : in_ranges _ _ = true |- _ => apply in_single in H; exact H end.
      * left. exact (may_follow_In 18 b c w' Ha Hb A1 ltac:(tauto) ML' P1).
      * left. exact (may_follow_In a b c w' Ha Hb A1 ltac:(tauto) ML' P1).
Qed.

(** * Steps *)

(* Something is seen when the parser looks. *)
Definition sees (c : config) : Prop :=
  next c = Look -> exists top below f, stack c = top :: below /\ get_sym (state top) (text c) = Ok f /\ -1 < fsym f.

Inductive goes : config -> config -> Prop :=
  | G_refl c : goes c c
  | G_step c c' c'' : sees c -> step c = Ok (inl c') -> goes c' c'' -> goes c c''.

Lemma goes_one c c' : sees c -> step c = Ok (inl c') -> goes c c'.
Proof. intros S E. exact (G_step _ _ _ S E (G_refl _)). Qed.

Lemma goes_trans a b c : goes a b -> goes b c -> goes a c.
Proof. induction 1; [auto|]. intros. econstructor; eauto. Qed.

Definition watched (t : tree) : Prop :=
  forall f all ts c s sts toks la act i, suits f t = true ->
    calm all ts c (s :: sts) (tokens t ++ toks) -> next c = Look ->
    readable (tokens t ++ toks) -> visible (tokens t ++ toks) -> among (peek toks) la = true -> numbered toks -> opens s f t la ->
    root t <> 59 -> trans s (root t) = Some (act, i) -> act = 2 \/ act = 3 ->
    exists c', goes c c' /\ calm all (t :: ts) c' (target act i :: s :: sts) toks /\ next c' = after act i.

Lemma token_watched a w : 0 <= a < 59 -> matches (lexeme a) w -> watched (Token a w).
Proof.
  intros Ha M f all ts c s sts toks la act i _ C NX RD VI PK _ OP _ TR AC.
  cbn [tokens app] in *. cbn [opens] in OP. destruct OP as [OP ST]. cbn [root] in TR.
  destruct RD as [RD _]. destruct VI as [VI _].
  destruct (calm_top _ _ _ _ _ _ C NX) as (n & below & SK & SB & L & Hs).
  unfold trans in TR. destruct (Z.ltb_spec a 59); [|lia].
  assert (A : act_at s a = Some (act, i)).
  { unfold act_at. rewrite TR. destruct AC as [-> | ->]; reflexivity. }
  destruct (shift_step all ts c s sts a w toks act i C NX
    (RD s Hs OP (fun E E' Q => eq_true_false_abs _ (eq_ind _ (fun x => among x la = true) PK _ Q) (ST E E'))) A) as (c' & S & C' & NX').
  - destruct AC as [-> | ->]; reflexivity.
  - exact Ha.
  - exact M.
  - exists c'. split; [|auto]. apply goes_one; [|exact S]. intros _.
    destruct (VI s Hs OP (fun E E' Q => eq_true_false_abs _ (eq_ind _ (fun x => among x la = true) PK _ Q) (ST E E'))) as (g & G1 & G2).
    exists (Cell s n), below, g. split; [exact SK|]. split; [|exact G2]. cbn [state].
    rewrite (calm_text _ _ _ _ _ C). exact G1.
Qed.

Lemma kids_watched r f : forall rest done it all ts c s sts toks,
  rhs_of r = map root (done ++ rest) -> Forall derivation rest -> Forall watched rest ->
  In it (ahead_of s) -> place it = f -> rule it = r -> dot it = length done ->
  among (peek toks) (follow it) = true -> numbered toks ->
  suit_all r f (length done) rest = true ->
  calm all (rev done ++ ts) c (s :: sts) (tokens_all rest ++ toks) -> next c = Look ->
  readable (tokens_all rest ++ toks) -> visible (tokens_all rest ++ toks) ->
  exists c' top, goes c c' /\ next c' = Reduce (Z.of_nat r) /\ length top = length rest /\
    calm all (rev (done ++ rest) ++ ts) c' (top ++ s :: sts) toks.
Proof.
  induction rest as [|k rest IH]; intros done it all ts c s sts toks RH FD FF II PL RU DO PK PB SU C NX RD VI.
  - (* complete *)
    destruct (map_root_firstn _ _ _ RH) as (N & _ & LN).
    destruct (calm_top _ _ _ _ _ _ C NX) as (n & below & SK & SB & L & Hs).
    pose proof (item_fact s it Hs II) as K. unfold item_ok in K. cbv zeta in K.
    rewrite RU, DO, N in K. apply andb_true_iff in K as [_ K]. rewrite forallb_forall in K.
    specialize (K (peek toks) (upto_In 59 _ (followed_range _ PB))). rewrite PK in K. apply act_eqb_eq in K.
    assert (EX : among (peek toks) (expected s) = true).
    { apply (expected_item s it); [exact II|]. unfold meets. rewrite RU, DO, N. exact PK. }
    cbn [tokens_all map concat app] in C, RD, VI.
    assert (RE : exists w rest, text c = w ++ rest /\ reads s (peek toks) w rest /\ spots s w rest).
    { destruct toks as [|[a w] toks]; cbn [peek] in *.
      - exists [], []. split; [exact (calm_text _ _ _ _ _ C)|]. split; [apply read_end, Hs|apply see_end, Hs].
      - exists w, (flat toks). split; [exact (calm_text _ _ _ _ _ C)|].
        destruct RD as [RD _]. destruct VI as [VI _].
        assert (Q : a = 18 -> s = 26 -> peek toks <> 14).
        { intros -> -> _.
          assert (E : act_at 26 18 = Some (2, 64)) by (vm_compute; reflexivity). rewrite E in K. injection K. discriminate. }
        split; [apply (RD s Hs EX Q)|apply (VI s Hs EX Q)]. }
    destruct RE as (w & rst & TX & RE & (g & G1 & G2)).
    destruct (look_step' _ _ _ _ _ _ _ _ _ _ C NX TX RE K) as (c' & S & C' & NX').
    exists c', []. split.
    { apply goes_one; [|exact S]. intros _. exists (Cell s n), below, g. split; [exact SK|]. split; [|exact G2].
      cbn [state]. rewrite TX. exact G1. } split; [exact NX'|]. split; [reflexivity|].
    rewrite app_nil_r. exact C'.
  - destruct (map_root_firstn _ _ _ RH) as (N & SK0 & LN). cbn [tl] in SK0. cbn [length] in LN.
    destruct (calm_top _ _ _ _ _ _ C NX) as (n & below & _ & _ & _ & Hs).
    pose proof (item_fact s it Hs II) as K. unfold item_ok in K. cbv zeta in K.
    rewrite RU, DO, N, PL, SK0 in K. apply andb_true_iff in K as [K1 K2].
    destruct (trans s (root k)) as [[act i]|] eqn:TR; [|discriminate].
    inversion FD as [|? ? DK FD']; subst. inversion FF as [|? ? FK FF']; subst.
    cbn [suit_all] in SU. apply andb_true_iff in SU as [SU1 SU2].
    assert (TK : tokens_all (k :: rest) ++ toks = tokens k ++ (tokens_all rest ++ toks)).
    { unfold tokens_all. cbn [map concat]. symmetry. apply app_assoc. }
    rewrite TK in C, RD, VI.
    assert (AC : act = 2 \/ act = 3).
    { rewrite orb_true_iff, !andb_true_iff, !Z.eqb_eq in K2. tauto. }
    assert (FR : Forall framed rest) by (eapply Forall_impl; [|exact FD']; exact derivation_framed).
    pose proof (peek_all rest (follow it) toks FR PK) as PK'.
    assert (NG : root k <> 59).
    { pose proof (no_goal (rule it)) as NG. rewrite RH, forallb_forall in NG.
      assert (IK : In (root k) (map root (done ++ k :: rest))) by (apply in_map, in_or_app; right; left; reflexivity).
      specialize (NG _ IK). rewrite negb_true_iff, Z.eqb_neq in NG. exact NG. }
    assert (OP : opens s (kid_place (rule it) (place it) (length done)) k (firsts (map root rest) (follow it))).
    { destruct k as [a w|r0 ks]; cbn [opens].
      - inversion DK; subst. split.
        + apply (expected_item s it); [exact II|]. unfold meets. rewrite DO, N. cbn [root].
          destruct (Z.ltb_spec a 59); [|lia].
          unfold among. rewrite Z.shiftl_spec by lia. rewrite Z.sub_diag. reflexivity.
        + intros -> ->. cbn [root Z.ltb Z.compare Pos.compare Pos.compare_cont Z.eqb Pos.eqb] in K1.
          apply negb_true_iff in K1. exact K1.
      - destruct (derived_range _ DK) as [B1 B2].
        pose proof (root_derived _ DK) as RD0. change (59 <= root (Derived r0 ks)) in RD0. destruct (Z.ltb_spec (root (Derived r0 ks)) 59); [lia|].
        rewrite forallb_forall in K1.
        assert (LR : lhs_of r0 = root (Derived r0 ks)) by reflexivity.
        specialize (K1 r0). rewrite <- LR in K1. specialize (K1 (choice_In r0 B2)).
        rewrite suits_derived in SU1. apply andb_true_iff in SU1 as [SU1 _].
        rewrite SU1 in K1. exact K1. }
    destruct (FK _ all (rev done ++ ts) c s sts (tokens_all rest ++ toks) _ act i SU1 C NX RD VI PK' (numbered_all _ _ FD' PB) OP NG TR AC)
      as (c1 & L1 & C1 & NX1).
    assert (EA : k :: rev done ++ ts = rev (done ++ [k]) ++ ts) by (rewrite rev_app_distr; reflexivity).
    rewrite EA in C1.
    apply readable_app in RD. apply visible_app in VI.
    rewrite orb_true_iff, !andb_true_iff, !Z.eqb_eq in K2.
    destruct K2 as [[[[-> CV] I1] I2]|[[-> ->] EL]].
    + apply Z.leb_le in I1. apply Z.ltb_lt in I2.
      apply covered_item in CV as (it' & II' & PL' & RU' & DO' & WI).
      change (target 2 i) with i in C1. change (after 2 i) with Look in NX1.
      destruct (IH (done ++ [k]) it' all ts c1 i (s :: sts) toks) as (c' & top & L2 & NX2 & LT & C2).
      * rewrite <- app_assoc. exact RH.
      * exact FD'.
      * exact FF'.
      * exact II'.
      * exact PL'.
      * exact RU'.
      * rewrite DO', app_length. cbn. lia.
      * eapply within_among; [exact WI|exact PK].
      * exact PB.
      * rewrite app_length, Nat.add_comm. exact SU2.
      * exact C1.
      * exact NX1.
      * exact RD.
      * exact VI.
      * exists c', (top ++ [i]). split; [eapply goes_trans; eassumption|]. split; [exact NX2|].
        split; [rewrite app_length, LT; cbn; lia|].
        rewrite <- app_assoc in C2. cbn [app] in C2. rewrite <- app_assoc. exact C2.
    + change (target 3 (Z.of_nat (rule it))) with (-1) in C1.
      change (after 3 (Z.of_nat (rule it))) with (Reduce (Z.of_nat (rule it))) in NX1.
      apply Nat.eqb_eq in EL. rewrite LN in EL.
      assert (RN : rest = []) by (destruct rest; [reflexivity|cbn in EL; lia]). subst rest.
      exists c1, [-1]. split; [exact L1|]. split; [exact NX1|]. split; [reflexivity|]. exact C1.
Qed.


Lemma derivation_watched t : derivation t -> watched t.
Proof.
  intros D. induction D using derivation_ind'; [apply token_watched; assumption|].
  intros f all ts c s sts toks la act i SU C NX RD VI PK NU OP NG TR AC.
  assert (RHS : rhs_of r = rhs) by (unfold rhs_of; rewrite H; reflexivity).
  assert (RT : root (Derived r kids) = lhs) by (cbn [root]; rewrite H; reflexivity).
  rewrite RT in NG, TR. rewrite suits_derived in SU. apply andb_true_iff in SU as [_ SU].
  cbn [opens] in OP. apply covered_item in OP as (it & II & PL & RU & DO & WI).
  change (tokens (Derived r kids)) with (tokens_all kids) in C, RD, VI.
  destruct (kids_watched r f kids [] it all ts c s sts toks) as (c1 & top & L1 & NX1 & LT & C1); try assumption.
  - cbn [app]. congruence.
  - eapply within_among; eassumption.
  - assert (LK : length kids = length rhs) by (rewrite <- H0, map_length; reflexivity).
    cbn [app] in C1.
    destruct (reduce_step' all ts c1 kids top s sts toks r lhs rhs name act i C1 NX1 H LK LT NG TR)
      as (c2 & S & C2 & NX2).
    exists c2. split; [eapply goes_trans; [exact L1|apply goes_one; [congruence|exact S]]|]. auto.
Qed.

Lemma goal_watched t input : derivation t -> root t = 59 -> suits 0 t = true ->
  text_of t = line input -> spaced (tokens t) ->
  exists c, goes (start unlimited [] input) c /\ next c = Reduce 269 /\ step c = Ok (inr (Accepted (projection t), [])).
Proof.
  intros D RT SU TX LG.
  inversion D as [|r lhs rhs name kids N MR FD]; subst; [cbn in RT; lia|].
  cbn [root] in RT. rewrite N in RT. subst lhs.
  assert (R269 : r = 269%nat).
  { apply goal_rule; [|unfold lhs_of; rewrite N; reflexivity].
    destruct lengths_ok as (_ & _ & _ & _ & _ & LR). rewrite <- LR. apply nth_error_Some. congruence. }
  subst r.
  assert (N' : nth_error rules 269 = Some (59, rhs_of 269, "")) by reflexivity.
  rewrite N in N'. injection N' as E1 E2. subst name.
  assert (LK : length kids = 2%nat).
  { rewrite <- (map_length root kids), E1. reflexivity. }
  assert (AD : adjacent (tokens (Derived 269 kids))) by (apply derivation_framed, D).
  destruct (tokens_readable _ AD (spaced_legible _ LG) (derivation_tokens _ D)) as [RD _].
  destruct (tokens_visible _ AD (spaced_legible _ LG) (derivation_tokens _ D)) as [VI _].
  destruct (covered_item _ _ _ _ _ goal_covered) as (it & II & PL & RU & DO & WI).
  rewrite suits_derived in SU. apply andb_true_iff in SU as [_ SU].
  pose (all := line input).
  assert (C : calm all [] (start unlimited [] input) [0] (tokens_all kids ++ [])).
  { split.
    - reflexivity.
    - split; [reflexivity|]. cbn [start next stack]. constructor.
    - reflexivity.
    - cbn [start text app]. rewrite app_nil_r. change (tokens_all kids) with (tokens (Derived 269 kids)).
      rewrite flat_tokens. symmetry. exact TX. }
  destruct (kids_watched 269 0 kids [] it all [] (start unlimited [] input) 0 [] []) as
    (c1 & top & L1 & NX1 & LT & C1); try assumption.
  - cbn [app]. congruence.
  - eapply Forall_impl; [|exact FD]. exact derivation_watched.
  - eapply within_among; [exact WI|reflexivity].
  - constructor.
  - reflexivity.
  - rewrite app_nil_r. exact RD.
  - rewrite app_nil_r. exact VI.
  - cbn [app] in C1. rewrite app_nil_r in C1. rewrite LK in LT.
    pose proof (accept_step all c1 kids top [] C1 NX1 LK LT) as ST.
    exists c1. split; [exact L1|]. split; [exact NX1|]. exact ST.
Qed.
