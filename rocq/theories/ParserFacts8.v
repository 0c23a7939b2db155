(* Spaces after tokens do not matter: the whole parse. *)
From Coq Require Import ZArith String Ascii List Bool Lia.
From Verif Require Import Base Tables Parser ParserSpec Grammar LexFacts ParserCert ParserFacts ParserFacts2 ParserFacts3 ParserFacts4 ParserFacts5 ParserFacts6 ParserFacts7 ParserRuns.
Import ListNotations.
Open Scope string_scope.
Open Scope list_scope.
Open Scope Z_scope.

Opaque Z.testbit.

(* Following a step that is taken by both runs. *)
Lemma accepts_quiet n c c' ws trees : accepts n c ws trees -> step c = Ok (inl c') -> text c' = text c ->
  exists n', n = S n' /\ accepts n' c' ws trees.
Proof.
  intros A E T. inversion A as [c0 t0 l0 SN T0 E0|m c0 c1' ws0 t0 SN E0 T0 A'|m c0 c1' w ws0 t0 SN E0 NX W T0 A']; subst.
  - congruence.
  - rewrite E in E0. inversion E0. subst. eauto.
  - rewrite E in E0. inversion E0. subst. rewrite T in T0. exfalso.
    apply (f_equal (@length ascii)) in T0. rewrite app_length in T0. destruct w; [contradiction|]. cbn in T0. lia.
Qed.

Lemma accepts_word n c c' ws trees : accepts n c ws trees -> step c = Ok (inl c') ->
  (length (text c') < length (text c))%nat ->
  exists n' w ws', n = S n' /\ ws = w :: ws' /\ w <> [] /\ text c = w ++ text c' /\ accepts n' c' ws' trees.
Proof.
  intros A E T. inversion A as [c0 t0 l0 SN T0 E0|m c0 c1' ws0 t0 SN E0 T0 A'|m c0 c1' w ws0 t0 SN E0 NX W T0 A']; subst.
  - congruence.
  - rewrite E in E0. inversion E0. subst. rewrite T0 in T. lia.
  - rewrite E in E0. inversion E0. subst. exists m, w, ws0. auto.
Qed.

Lemma spaced_cons w k l : spaced ((w, k) :: l) = w ++ spaces k ++ spaced l.
Proof. unfold spaced. cbn [map concat fst snd]. apply app_assoc_reverse. Qed.

(* One look of both runs. *)
Lemma follows_look n : (forall n', (n' < n)%nat -> follows n') ->
  forall c1 c2 l trees, accepts n c1 (map fst l) trees -> no_tab (map fst l) -> same c1 c2 ->
  text c2 = spaced l -> next c1 = Look -> ends c2 trees.
Proof.
  intros IH c1 c2 l trees A NT SM T2 NX.
  pose proof (accepts_sane _ _ _ _ A) as (R1 & all & ts & INV).
  pose proof (accepts_text _ _ _ _ A) as T1. pose proof (accepts_words _ _ _ _ A) as AW.
  destruct SM as (SK & NE & _ & R2).
  destruct INV as [BD LK]. rewrite NX in LK.
  destruct (linked_state _ _ _ LK) as (s & m & below & ST & Hs).
  destruct (get_sym_sound s (text c1) Hs) as (f1 & E1 & SD1).
  (* the plain run goes on *)
  assert (ACT : exists a i, get_act s (fsym f1) = Ok (Some (a, i))).
  { destruct (get_act_cases s (fsym f1) Hs) as [(a & i & G & _)|(G & _)]; [eauto|]. exfalso.
    assert (RJ : exists l', step c1 = Ok (inr (Rejected, l'))).
    { unfold step. rewrite NX. unfold look. rewrite ST. cbn [state]. rewrite E1. cbn [bind]. rewrite G. cbn [bind]. eauto. }
    destruct RJ as [l' RJ]. inversion A; congruence. }
  destruct ACT as (a & i & A1).
  destruct (look_step c1 s m below f1 a i R1 NX ST Hs E1 A1) as (c1' & S1 & R1' & N1' & Q1).
  (* the spaced run finds the same *)
  assert (LOOK2 : exists f2, get_sym s (text c2) = Ok f2 /\ get_act s (fsym f2) = Ok (Some (a, i)) /\
            (Z.testbit a 1 = true -> fsym f2 = fsym f1 /\ flen f2 = flen f1 /\
               firstn (flen f1) (text c2) = firstn (flen f1) (text c1))).
  { destruct (first_pad l) as [P|(la & w & k & lb & EL & P)].
    - exists f1. assert (TT : text c2 = text c1) by (rewrite T2, P, T1; reflexivity).
      rewrite TT. auto.
    - assert (U : text c1 = (plain la ++ w) ++ plain lb /\
                  text c2 = (plain la ++ w) ++ " "%char :: (spaces k ++ spaced lb)).
      { split.
        - rewrite T1, EL, map_app, concat_app. cbn [map fst concat]. unfold plain. rewrite <- app_assoc. reflexivity.
        - rewrite T2, EL. unfold spaced at 1. rewrite map_app, concat_app. fold (spaced la). rewrite <- P.
          cbn [map concat fst snd]. fold (spaced lb). rewrite <- !app_assoc. reflexivity. }
      destruct U as [U1 U2]. set (u := plain la ++ w) in *.
      assert (UN : u <> []).
      { rewrite EL, map_app in AW. apply Forall_app in AW as [_ AW]. inversion AW; subst. cbn [fst] in *.
        unfold u. intros Q. apply app_eq_nil in Q as [_ Q]. contradiction. }
      assert (FL : Z.testbit a 1 = true -> (flen f1 <= length u)%nat).
      { intros TB. destruct Q1 as [[Q _]|(_ & _ & TX & QF)]; [congruence|].
        destruct QF as [[_ Q]|[_ Q]].
        - rewrite Q in U1. destruct u; [contradiction|discriminate].
        - destruct (accepts_word _ _ _ _ _ A S1) as (n' & w' & ws' & _ & EW & W & TW & _).
          { rewrite TX, skipn_length. lia. }
          assert (LW : length w' = flen f1).
          { apply (f_equal (@length ascii)) in TW. rewrite TX, app_length, skipn_length in TW. lia. }
          rewrite EL in EW. rewrite <- LW. unfold u. rewrite app_length. unfold plain.
          destruct la as [|[w1 k1] la]; cbn [app map fst] in EW; inversion EW; subst; cbn [map fst concat];
            rewrite ?app_length; cbn [length]; lia. }
      rewrite U1 in E1. destruct (look_sim s u _ (spaces k ++ spaced lb) f1 a i Hs UN E1 A1 FL) as (f2 & G1 & G2 & G3).
      exists f2. rewrite U2. split; [exact G1|]. split; [exact G2|]. intros TB. destruct (G3 TB) as [G4 G5].
      split; [exact G4|]. split; [exact G5|]. specialize (FL TB). rewrite U1.
      rewrite !firstn_app. replace (flen f1 - length u)%nat with O by lia. reflexivity. }
  destruct LOOK2 as (f2 & E2 & A2 & SAME).
  destruct (look_step c2 s m below f2 a i R2 ltac:(congruence) ltac:(congruence) Hs E2 A2) as (c2' & S2 & R2' & N2' & Q2).
  destruct Q1 as [(TB & SK1 & TX1)|(TB & SK1 & TX1 & QF)];
    destruct Q2 as [(TB' & SK2 & TX2)|(TB' & SK2 & TX2 & QF2)]; try congruence.
  - (* no shift *)
    destruct (accepts_quiet _ _ _ _ _ A S1 TX1) as (n' & EN & A').
    apply (ends_step _ _ _ S2). apply (IH n' ltac:(lia) c1' c2' l trees A' NT).
    + unfold same. rewrite SK1, SK2, N1', N2'. auto.
    + congruence.
  - destruct (SAME TB) as (G1 & G2 & G3). rewrite G1, G2 in *. rewrite G3 in SK2.
    assert (SM : same c1' c2') by (unfold same; rewrite SK1, SK2, N1', N2', SK; auto).
    apply (ends_step _ _ _ S2).
    destruct QF as [[F0 T0]|[F1 FL]].
    + (* end of file *)
      assert (L0 : l = []).
      { destruct l as [|[w k] l]; [reflexivity|]. exfalso. rewrite T0 in T1. cbn [map fst concat] in T1.
        inversion AW; subst. destruct w; [contradiction|discriminate]. }
      subst l. assert (TX : text c1' = text c1) by (rewrite TX1, T0; apply skipn_nil).
      destruct (accepts_quiet _ _ _ _ _ A S1 TX) as (n' & EN & A').
      apply (IH n' ltac:(lia) c1' c2' [] trees A' NT SM). rewrite TX2, T2. apply skipn_nil.
    + destruct (accepts_word _ _ _ _ _ A S1) as (n' & w & ws' & EN & EW & W & TW & A').
      { rewrite TX1, skipn_length. lia. }
      destruct l as [|[w0 k] l]; [discriminate|]. cbn [map fst] in EW. inversion EW. subst w ws'. clear EW.
      assert (NT' : no_tab (map fst l)) by (inversion NT; assumption).
      assert (LW : length w0 = flen f1).
      { apply (f_equal (@length ascii)) in TW. rewrite TX1, app_length, skipn_length in TW. lia. }
      assert (T2' : text c2' = spaces k ++ spaced l).
      { rewrite TX2, T2, spaced_cons, <- LW. rewrite skipn_app, skipn_all, Nat.sub_diag. reflexivity. }
      destruct k as [|k].
      { apply (IH n' ltac:(lia) c1' c2' l trees A' NT' SM). exact T2'. }
      (* where the token leads *)
      destruct (land_fact s Hs) as [LD _]. unfold lands_ok in LD. rewrite forallb_forall in LD.
      assert (EO : entry_of s (fsym f1) = Some (a, i)).
      { rewrite (get_act_eq s _ Hs) in A1. destruct (entry_of s (fsym f1)) as [[a0 i0]|].
        - destruct (a0 =? 0); inversion A1. reflexivity.
        - destruct (-1 <? def_of s); inversion A1. subst a. discriminate. }
      pose proof EO as EI. unfold entry_of in EI. apply find_entry_In in EI. specialize (LD _ EI).
      cbv beta iota in LD. rewrite TB in LD. cbn [negb orb] in LD.
      rewrite !orb_true_iff, !andb_true_iff, !Z.eqb_eq in LD.
      assert (IHn : forall x, (x < n')%nat -> follows x) by (intros; apply IH; lia).
      destruct LD as [[[[LD1 LD2] LD3]|[LD1 LD2]]|[LD1 LD2]]; [|lia|].
      * (* a blank *)
        rewrite LD1 in *. subst a i.
        assert (BF : exists q n0 below0, before q n0 below0 (stack c1)).
        { assert (HE : has_entry s 58 = true) by (unfold has_entry; rewrite EO; reflexivity).
          destruct (proj1 (blank_cases s Hs) HE) as [D|D].
          - exists s, m, below. split; [exact Hs|]. split; [exact D|]. left. exact ST.
          - subst s. rewrite ST in LK. destruct (linked_one _ _ _ LK) as (-> & q & n0 & below0 & -> & Hq & D).
            exists q, n0, below0. split; [exact Hq|]. split; [exact D|]. right. exact ST. }
        destruct BF as (q & n0 & below0 & BF).
        change (after 3 207) with (Reduce 207) in *. change (target 3 207) with (-1) in *.
        match type of SK1 with _ = Cell (-1) ?o :: _ => change o with (@nil ast) in * end.
        destruct (reduce_blank c1' q n0 below0 (stack c1) BF R1' N1' SK1) as (c3 & S3 & R3 & N3 & T3 & SK3).
        rewrite <- SK in SK2.
        destruct (reduce_blank c2' q n0 below0 (stack c1) BF R2' N2' SK2) as (c4 & S4 & R4 & N4 & T4 & SK4).
        assert (BF4 : before q n0 below0 (stack c4)).
        { destruct BF as (B1 & B2 & _). split; [exact B1|]. split; [exact B2|]. right. exact SK4. }
        destruct (absorb q n0 below0 (S k) c4 (spaced l) BF4 R4 N4 ltac:(congruence) ltac:(lia)) as (c5 & S5 & R5 & N5 & T5 & SK5).
        apply (ends_leads c2' c4); [apply (steps_leads _ _ _ S4)|].
        apply (ends_leads c4 c5); [apply (steps_leads _ _ _ S5)|].
        destruct (accepts_steps _ _ _ S3 _ _ _ A') as (n2 & ws0 & ws' & EN2 & EW & A3).
        assert (W3 : ws' = map fst l).
        { pose proof (accepts_text _ _ _ _ A') as TX. pose proof (accepts_text _ _ _ _ A3) as TX3.
          pose proof (accepts_words _ _ _ _ A') as AW3.
          rewrite T3, TX, EW, concat_app in TX3.
          apply (f_equal (@length ascii)) in TX3. rewrite app_length in TX3.
          destruct ws0 as [|x ws0]; [symmetry; exact EW|]. exfalso. rewrite EW in AW3. cbn [app] in AW3.
          inversion AW3; subst. destruct x; [contradiction|]. cbn [concat app length] in TX3. rewrite app_length in TX3. lia. }
        subst ws'.
        apply (IH n2 ltac:(lia) c3 c5 l trees A3 NT').
        -- unfold same. rewrite SK3, SK5, N3, N5. auto.
        -- exact T5.
      * (* any other token *)
        subst a. change (target 2 i) with i in *. change (after 2 i) with Look in *.
        assert (Hi : 0 <= i < 176).
        { pose proof (accepts_sane _ _ _ _ A') as (_ & all' & ts' & [_ LK']). rewrite N1' in LK'.
          destruct (linked_state _ _ _ LK') as (s' & m' & below' & SS & HH). rewrite SK1 in SS. inversion SS. subst. exact HH. }
        apply (blank_closed n' c1' c2' l trees (S k) i _ (stack c1) IHn A' NT' SM N1' Hi LD2 SK1 T2'). lia.
Qed.

Lemma follows_all : forall n, follows n.
Proof.
  intros n. induction n as [n IH] using (well_founded_induction lt_wf).
  intros c1 c2 l trees A NT SM T2. destruct (next c1) eqn:NX.
  - apply (follows_look n IH c1 c2 l trees); assumption.
  - pose proof (same_reduce c1 c2 idx SM NX) as SR.
    inversion A as [c0 t0 l0 SN T0 E0|m c0 c1' ws0 t0 SN E0 T0 A'|m c0 c1' w ws0 t0 SN E0 NX' W T0 A']; subst.
    + rewrite E0 in SR. destruct SR as [l' SR]. exists c2, l'. split; [constructor|exact SR].
    + rewrite E0 in SR. destruct SR as (c2' & S2 & SM' & _ & TX2).
      apply (ends_step _ _ _ S2). apply (IH m ltac:(lia) c1' c2' l trees A' NT SM'). congruence.
    + congruence.
Qed.

(* What leads to acceptance is accepted by a run. *)
Lemma leads_run c c' : leads c c' -> forall trees l fuel, step c' = Ok (inr (Accepted trees, l)) ->
  run fuel c = OutOfFuel \/ run fuel c = Ok (Accepted trees, l).
Proof.
  induction 1 as [c|c c1 c2 E L IH]; intros trees l fuel A; destruct fuel as [|fuel]; try (left; reflexivity).
  - right. cbn [run]. rewrite A. reflexivity.
  - cbn [run]. rewrite E. cbn [bind]. eapply IH. exact A.
Qed.

Lemma padded_spaced ws : forall pads, length pads = length ws ->
  padded ws pads = spaced (combine ws pads) /\ map fst (combine ws pads) = ws.
Proof.
  induction ws as [|w ws IH]; intros [|k pads] L; try discriminate; [split; reflexivity|].
  cbn [padded combine]. rewrite spaced_cons. destruct (IH pads) as [I1 I2]; [cbn in L; lia|].
  rewrite I1. split; [reflexivity|]. cbn [map fst]. rewrite I2. reflexivity.
Qed.

(* A text without newline and NUL is its own first line. *)
Lemma line_of_text l : Forall (fun c => code c <> 0 /\ code c <> 10) l -> line (string_of_list_ascii l) = l.
Proof.
  induction 1 as [|c l [H1 H2] F IH]; [reflexivity|]. cbn [string_of_list_ascii line].
  destruct (Z.eqb_spec (code c) 0); [contradiction|]. destruct (Z.eqb_spec (code c) 10); [contradiction|].
  cbn [orb]. rewrite IH. reflexivity.
Qed.

Lemma line_clean s : Forall (fun c => code c <> 0 /\ code c <> 10) (line s).
Proof.
  induction s as [|c s IH]; cbn [line]; [constructor|].
  destruct (Z.eqb_spec (code c) 0); [constructor|]. destruct (Z.eqb_spec (code c) 10); [constructor|].
  cbn [orb]. constructor; auto.
Qed.

Lemma Forall_concat_inv {A} (P : A -> Prop) ws : Forall P (concat ws) -> Forall (Forall P) ws.
Proof.
  induction ws as [|w ws IH]; cbn [concat]; intros F; [constructor|]. apply Forall_app in F as [F1 F2]. auto.
Qed.

Lemma spaces_clean (P : ascii -> Prop) n : P " "%char -> Forall P (spaces n).
Proof. intros H. induction n; [constructor|]. constructor; assumption. Qed.

Lemma padded_clean (P : ascii -> Prop) ws : P " "%char -> Forall (Forall P) ws ->
  forall pads, Forall P (padded ws pads).
Proof.
  intros H. induction 1 as [|w ws F1 F2 IH]; intros [|k pads]; cbn [padded]; try constructor.
  apply Forall_app. split; [exact F1|]. apply Forall_app. split; [apply spaces_clean, H|apply IH].
Qed.

Lemma spaces_ignored input trees l0 : parse unlimited [] input = Ok (Accepted trees, l0) ->
  Forall (fun c => code c <> 9) (line input) ->
  exists t, derivation t /\ root t = 59 /\ trees = projection t /\ line input = concat (lexemes t) /\
    forall lead pads, length pads = length (lexemes t) ->
      parse unlimited [] (string_of_list_ascii (spaces lead ++ padded (lexemes t) pads)) =
        Ok (Accepted trees, []).
Proof.
  intros E NT. unfold parse in E.
  destruct (run_accepts (line input) _ [] (start unlimited [] input) _ _ eq_refl (start_inv unlimited [] input) E)
    as (n & t & ws & A & D & RT & TX & PJ & LX).
  cbn in LX. subst ws.
  pose proof (accepts_text _ _ _ _ A) as T1. cbn [start text app] in T1.
  exists t. split; [exact D|]. split; [exact RT|]. split; [symmetry; exact PJ|]. split; [exact T1|].
  intros lead pads LP.
  destruct (padded_spaced (lexemes t) pads LP) as [P1 P2].
  set (s2 := string_of_list_ascii _).
  assert (L2 : line s2 = spaces lead ++ padded (lexemes t) pads).
  { apply line_of_text. pose proof (line_clean input) as LC. rewrite T1 in LC. apply Forall_concat_inv in LC.
    apply Forall_app. split; [apply spaces_clean; split; discriminate|].
    apply padded_clean; [split; discriminate|exact LC]. }
  assert (NT' : no_tab (map fst (combine (lexemes t) pads))).
  { rewrite P2. unfold no_tab. apply Forall_concat_inv. rewrite <- T1. exact NT. }
  rewrite <- P2 in A.
  assert (EN : ends (start unlimited [] s2) trees).
  { destruct lead as [|k].
    - apply (follows_all n _ _ _ _ A NT').
      + repeat split.
      + cbn [start text app]. rewrite L2. cbn [spaces repeat app]. exact P1.
    - eapply (blank_closed n _ _ _ _ (S k) 0 [] [] (fun n' _ => follows_all n') A NT').
      + repeat split.
      + reflexivity.
      + lia.
      + reflexivity.
      + reflexivity.
      + cbn [start text app]. rewrite L2, P1. reflexivity.
      + lia. }
  destruct EN as (c & l & LD & ST).
  destruct (parse_total [] s2) as [G|(t' & G & _)].
  - destruct (leads_run _ _ LD _ _ (enough (length (@nil ascii) + length (line s2))) ST) as [Q|Q];
      unfold parse in G; rewrite Q in G; discriminate.
  - destruct (leads_run _ _ LD _ _ (enough (length (@nil ascii) + length (line s2))) ST) as [Q|Q];
      unfold parse in *; rewrite Q in G; [discriminate|].
    rewrite Q. inversion G. reflexivity.
Qed.
