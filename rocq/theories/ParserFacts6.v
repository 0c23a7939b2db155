(* Spaces after tokens: both runs side by side. *)
From Coq Require Import ZArith String Ascii List Bool Lia.
From Verif Require Import Base Tables Parser ParserSpec Grammar LexFacts ParserCert ParserFacts ParserFacts2 ParserFacts3 ParserFacts4 ParserFacts5.
Import ListNotations.
Open Scope string_scope.
Open Scope list_scope.
Open Scope Z_scope.

(** * Looking at a text cut by a space *)

Lemma grow_fact p : 0 <= p < 176 -> grows_ok p = true /\ entries_ok p = true.
Proof.
  intros H. pose proof grow_checks as K. rewrite forallb_forall in K.
  specialize (K p (upto_In 176 p ltac:(cbn; lia))). apply andb_true_iff in K. exact K.
Qed.

Definition def_of (p : Z) : Z := nth (Z.to_nat p) def_prod (-2).

Lemma get_act_eq p x : 0 <= p < 176 ->
  get_act p x = match entry_of p x with
                | Some (a, i) => if a =? 0 then Ok None else Ok (Some (a, i))
                | None => if -1 <? def_of p then Ok (Some (1, def_of p)) else Ok None
                end.
Proof.
  intros H. destruct lengths_ok as (LA & _ & LD & _).
  unfold get_act. rewrite (row_rd actions p LA H). cbn [bind]. unfold entry_of.
  destruct (find_entry (row actions p) x) as [[a i]|]; [reflexivity|].
  rewrite (nth_rd def_prod p (-2) LD H). reflexivity.
Qed.

Lemma select_eq p : 0 <= p < 176 -> rd dfa_select p = Ok (nth (Z.to_nat p) dfa_select (-2)) /\
  -1 <= nth (Z.to_nat p) dfa_select (-2) < 70.
Proof.
  intros H. destruct lengths_ok as (_ & _ & _ & L & _). split; [apply nth_rd; assumption|].
  pose proof (state_fact p H) as K. unfold state_ok in K. rewrite !andb_true_iff in K.
  destruct K as [[_ [K1 K2]] _]. apply Z.leb_le in K1. apply Z.ltb_lt in K2. lia.
Qed.

Lemma get_sym_scan p m c text : 0 <= p < 176 -> nth (Z.to_nat p) dfa_select (-2) = m -> 0 <= m ->
  get_sym p (c :: text) = scan m 0 (c :: text) 0 (-1, O).
Proof.
  intros H E M. unfold get_sym. destruct (select_eq p H) as [S _]. rewrite S, E. cbn [bind].
  destruct (Z.ltb_spec (-1) m); [reflexivity|lia].
Qed.

Lemma get_sym_none p c text : 0 <= p < 176 -> nth (Z.to_nat p) dfa_select (-2) < 0 ->
  get_sym p (c :: text) = Ok (Found (-1) 0 1).
Proof.
  intros H M. unfold get_sym. destruct (select_eq p H) as [S _]. rewrite S. cbn [bind].
  destruct (Z.ltb_spec (-1) (nth (Z.to_nat p) dfa_select (-2))); [lia|reflexivity].
Qed.

(* A text beginning with a quote is a quoted text, or nothing. *)
Lemma quote_sym p c text f : 0 <= p < 176 -> code c = 34 -> get_sym p (c :: text) = Ok f ->
  fsym f = -1 \/ fsym f = 6.
Proof.
  intros H C E. destruct (get_sym_sound p (c :: text) H) as (f' & E' & [[T _]|[(_ & F & _)|(F & L & M & _)]]);
    rewrite E in E'; inversion E'; subst f'; [discriminate|auto|right].
  destruct (flen f) as [|k]; [lia|]. cbn [firstn] in M.
  pose proof (matches_begins _ _ M _ _ eq_refl) as B. rewrite C in B.
  pose proof only_quoted as O. rewrite forallb_forall in O.
  specialize (O (fsym f) (upto_In 59 (fsym f) ltac:(cbn; lia))). rewrite B in O. cbn [negb orb] in O.
  apply Z.eqb_eq. exact O.
Qed.

Lemma entry_nowhere x : has_entry 1000 x = false.
Proof. reflexivity. Qed.

Lemma look_sim p u v w f a i : 0 <= p < 176 -> u <> [] -> get_sym p (u ++ v) = Ok f ->
  get_act p (fsym f) = Ok (Some (a, i)) -> (Z.testbit a 1 = true -> (flen f <= length u)%nat) ->
  exists f', get_sym p (u ++ " "%char :: w) = Ok f' /\ get_act p (fsym f') = Ok (Some (a, i)) /\
    (Z.testbit a 1 = true -> fsym f' = fsym f /\ flen f' = flen f).
Proof.
  intros H U E A L. destruct u as [|c u]; [contradiction|]. cbn [app] in *.
  destruct (get_sym_sound p (c :: u ++ " "%char :: w) H) as (f' & E' & SD').
  exists f'. split; [exact E'|].
  destruct (get_sym_sound p (c :: u ++ v) H) as (f0 & E0 & SD).
  rewrite E in E0. inversion E0. subst f0. clear E0.
  destruct (grow_fact p H) as [GR EN].
  unfold entries_ok in EN. rewrite !andb_true_iff in EN. destruct EN as [[[EN1 EN2] EN3] EN4].
  apply negb_true_iff in EN1. fold (def_of p) in EN2, EN4.
  (* entries without shift are for single characters *)
  assert (SC : forall x a0 i0, entry_of p x = Some (a0, i0) -> Z.testbit a0 1 = false ->
             single_char (lexeme x) = true).
  { intros x a0 i0 F T. unfold entry_of in F. apply find_entry_In in F. rewrite forallb_forall in EN3.
    specialize (EN3 _ F). cbv beta iota in EN3. rewrite T in EN3. exact EN3. }
  assert (DEF : forall x, has_entry p x = false -> get_act p x =
             if -1 <? def_of p then Ok (Some (1, def_of p)) else Ok None).
  { intros x X. rewrite (get_act_eq p x H). unfold has_entry in X. destruct (entry_of p x); [discriminate|reflexivity]. }
  assert (SH : Z.testbit a 1 = true -> has_entry p (fsym f) = true).
  { intros T. rewrite (get_act_eq p _ H) in A. unfold has_entry. destruct (entry_of p (fsym f)) as [[a0 i0]|]; [reflexivity|].
    destruct (-1 <? def_of p); inversion A. subst. discriminate. }
  assert (SAME : fsym f' = fsym f -> flen f' = flen f -> get_act p (fsym f') = Ok (Some (a, i)) /\
     (Z.testbit a 1 = true -> fsym f' = fsym f /\ flen f' = flen f)).
  { intros Q1 Q2. rewrite Q1. auto. }
  assert (BOTH : has_entry p (fsym f) = false -> has_entry p (fsym f') = false ->
     get_act p (fsym f') = Ok (Some (a, i)) /\ (Z.testbit a 1 = true -> fsym f' = fsym f /\ flen f' = flen f)).
  { intros Q1 Q2. rewrite (DEF _ Q2), <- (DEF _ Q1). split; [exact A|]. intros T.
    rewrite (SH T) in Q1. discriminate. }
  destruct (select_eq p H) as [SE SB]. set (m := nth (Z.to_nat p) dfa_select (-2)) in *.
  destruct (Z.lt_ge_cases m 0) as [M|M].
  { rewrite (get_sym_none p _ _ H M) in E. rewrite (get_sym_none p _ _ H M) in E'.
    inversion E. inversion E'. subst. apply SAME; reflexivity. }
  assert (Hm : 0 <= m < 70) by lia.
  destruct (machine_exists m Hm) as [cells N]. pose proof (machine_start m cells N) as Z0.
  pose proof E as ES. pose proof E' as ES'.
  rewrite (get_sym_scan p m _ _ H eq_refl M) in ES. rewrite (get_sym_scan p m _ _ H eq_refl M) in ES'.
  destruct (Z.eq_dec (code c) 34) as [C|C].
  - (* a quote *)
    destruct (quote_sym p _ _ f H C E) as [F|F].
    + assert (HF : has_entry p (fsym f) = false) by (rewrite F; exact EN1).
      destruct (Z.eqb_spec (def_of p) (-1)) as [D|D].
      * rewrite (DEF _ HF), D in A. discriminate.
      * apply BOTH; [exact HF|]. destruct (quote_sym p _ _ f' H C E') as [F'|F']; rewrite F'; [exact EN1|].
        cbn [orb] in EN2. apply negb_true_iff in EN2. exact EN2.
    + destruct (has_entry p 6) eqn:E6.
      * (* shifted *)
        assert (T : Z.testbit a 1 = true).
        { destruct (Z.testbit a 1) eqn:T; [reflexivity|]. exfalso.
          rewrite (get_act_eq p _ H), F in A. unfold has_entry in E6.
          destruct (entry_of p 6) as [[a0 i0]|] eqn:G; [|discriminate].
          destruct (a0 =? 0); inversion A. subst a0 i0. specialize (SC _ _ _ G T). discriminate. }
        change (c :: u ++ v) with ((c :: u) ++ v) in ES.
        destruct (scan_quoted m cells v (" "%char :: w) Hm N (c :: u) 0 O (-1, O) f Z0) as (f2 & G1 & G2 & G3).
        -- discriminate.
        -- exact ES.
        -- exact F.
        -- cbn [plus]. apply L. exact T.
        -- change (c :: u ++ " "%char :: w) with ((c :: u) ++ " "%char :: w) in ES'.
           rewrite ES' in G1. inversion G1. subst f2. apply SAME; congruence.
      * apply BOTH; [rewrite F; exact E6|].
        destruct (quote_sym p _ _ f' H C E') as [F'|F']; rewrite F'; assumption.
  - destruct (calm_fact m cells 0 N Z0) as [_ CF].
    destruct (scan_one m cells Hm N 0 c (u ++ v) O (-1, O) Z0) as [(T & X)|(st & T & R & CB & K)].
    { destruct (scan_one m cells Hm N 0 c (u ++ " "%char :: w) O (-1, O) Z0) as [(T' & X')|(st & T' & _)]; [|congruence].
      rewrite X in ES. rewrite X' in ES'. inversion ES. inversion ES'. subst. apply SAME; reflexivity. }
    destruct (scan_one m cells Hm N 0 c (u ++ " "%char :: w) O (-1, O) Z0) as [(T' & X')|(st' & T' & R' & CB' & K')]; [congruence|].
    rewrite T in T'. inversion T'. subst st'. clear T' R' CB'.
    destruct (CF (code c) st CB T) as (Q & _ & _ & _ & Z1). specialize (Q eq_refl C).
    (* one lemma for both cuts *)
    assert (CUT : forall q, has_entry q (-1) = false ->
      (forall st x st', 0 <= st < states_of m -> 0 <= x < 128 -> 0 < accept_of cells st ->
       has_entry q (accept_of cells st - 1) = true -> target_of cells st x = Some st' ->
       0 < accept_of cells st' /\ shifted q (accept_of cells st' - 1) = true) ->
      fsym f' = fsym f /\ flen f' = flen f
      \/ (1 + length u < flen f)%nat /\ (has_entry q (fsym f') = false \/ shifted q (fsym f) = true)).
    { intros q HQ G. destruct K as [(K1 & K2)|(K1 & K2)], K' as [(K1' & K2')|(K1' & K2')]; try lia.
      - rewrite K2 in ES. rewrite K2' in ES'.
        apply (scan_cut q m cells v w Hm N G u st 1%nat (-1, O) f f'); auto.
      - rewrite K2 in ES. rewrite K2' in ES'.
        apply (scan_cut q m cells v w Hm N G u st 1%nat (accept_of cells st - 1, 1%nat) f f'); auto.
        right. split; [reflexivity|lia]. }
    destruct (Z.testbit a 1) eqn:TB.
    + destruct (CUT 1000 (entry_nowhere _)) as [[G1 G2]|[G1 _]].
      * intros ? ? ? ? ? ? HE. rewrite entry_nowhere in HE. discriminate.
      * apply SAME; assumption.
      * exfalso. specialize (L eq_refl). cbn [length] in L. lia.
    + unfold grows_ok in GR. cbv zeta in GR. fold (def_of p) in GR. fold m in GR. rewrite !orb_true_iff in GR.
      destruct GR as [[GR|GR]|GR].
      * (* no default: the entry shifts *)
        exfalso. apply Z.eqb_eq in GR. rewrite (get_act_eq p _ H), GR in A.
        destruct (entry_of p (fsym f)) as [[a0 i0]|] eqn:G; [|discriminate].
        destruct (a0 =? 0); inversion A. subst a0 i0.
        pose proof (get_act_cases p (fsym f) H) as [(a1 & i1 & GA & [[_ GE]|(_ & CO & _)])|(GA & GF & _)].
        -- rewrite (get_act_eq p _ H), G in GA. destruct (a =? 0); inversion GA. subst a1 i1.
           clear - GE TB GR H G. revert GE.
           assert (K : forallb (fun p => negb (nth (Z.to_nat p) def_prod (-2) =? -1)
                     || forallb (fun e => Z.testbit (snd (fst e)) 1) (row actions p)) (upto 176) = true)
             by (vm_compute; reflexivity).
           rewrite forallb_forall in K. specialize (K p (upto_In 176 p ltac:(cbn; lia))).
           fold (def_of p) in K. rewrite GR in K. cbn [Z.eqb Pos.eqb negb orb] in K.
           rewrite forallb_forall in K. unfold entry_of in G. apply find_entry_In in G.
           specialize (K _ G). cbn [fst snd] in K. congruence.
        -- unfold complete_ok in CO. rewrite (get_act_eq p _ H), G in GA. destruct (a =? 0); inversion GA. subst.
           clear - H G TB GR.
           assert (K : forallb (fun p => negb (nth (Z.to_nat p) def_prod (-2) =? -1)
                     || forallb (fun e => Z.testbit (snd (fst e)) 1) (row actions p)) (upto 176) = true)
             by (vm_compute; reflexivity).
           rewrite forallb_forall in K. specialize (K p (upto_In 176 p ltac:(cbn; lia))).
           fold (def_of p) in K. rewrite GR in K. cbn [Z.eqb Pos.eqb negb orb] in K.
           rewrite forallb_forall in K. unfold entry_of in G. apply find_entry_In in G.
           specialize (K _ G). cbn [fst snd] in K. congruence.
        -- unfold entry_of in G. congruence.
      * apply Z.ltb_lt in GR. lia.
      * rewrite N in GR. rewrite forallb_forall in GR.
        destruct (CUT p EN1) as [[G1 G2]|[G1 G2]].
        -- intros st0 x st' Hst Hx A0 HE TT. specialize (GR st0 (machine_row _ _ _ N Hst)).
           destruct (Z.ltb_spec 0 (accept_of cells st0)); [|lia]. rewrite HE in GR. cbn [andb negb orb] in GR.
           rewrite forallb_forall in GR. specialize (GR x (upto_In 128 x Hx)). cbv beta in GR. rewrite TT in GR.
           apply andb_true_iff in GR as [GR1 GR2]. apply Z.ltb_lt in GR1. auto.
        -- apply SAME; assumption.
        -- assert (HF : has_entry p (fsym f) = false).
           { destruct (has_entry p (fsym f)) eqn:HE; [|reflexivity]. exfalso. unfold has_entry in HE.
             destruct (entry_of p (fsym f)) as [[a0 i0]|] eqn:G; [|discriminate].
             rewrite (get_act_eq p _ H), G in A. destruct (a0 =? 0); inversion A. subst a0 i0.
             specialize (SC _ _ _ G TB).
             destruct SD as [[SD _]|[(_ & SD & _)|(_ & LN & MT & _)]]; [discriminate| |].
             - rewrite SD in G. unfold has_entry in EN1. rewrite G in EN1. discriminate.
             - destruct (lexeme (fsym f)); try discriminate. inversion MT as [|? ? ? Q1 Q2| | | | | | ].
               apply (f_equal (@length ascii)) in Q2. rewrite firstn_length in Q2. cbn [length] in *. lia. }
           apply BOTH; [exact HF|]. destruct G2 as [G2|G2]; [exact G2|].
           exfalso. unfold shifted in G2. unfold has_entry in HF. destruct (entry_of p (fsym f)); discriminate.
Qed.
