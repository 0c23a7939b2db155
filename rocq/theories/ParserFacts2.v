(* Steps of the parser keep its invariant; runs end. *)
From Coq Require Import ZArith String Ascii List Bool Lia.
From Verif Require Import Base Tables Parser Grammar LexFacts ParserCert ParserFacts.
Import ListNotations.
Open Scope string_scope.
Open Scope list_scope.
Open Scope Z_scope.

(* The lexemes on the stack. *)
Definition words (ts : list tree) : list (list ascii) := concat (map lexemes (rev ts)).

Lemma words_cons t ts : words (t :: ts) = words ts ++ lexemes t.
Proof. unfold words. cbn [rev]. rewrite map_app, concat_app. cbn. rewrite app_nil_r. reflexivity. Qed.

Lemma words_app ts1 ts2 : words (ts1 ++ ts2) = words ts2 ++ words ts1.
Proof. unfold words. rewrite rev_app_distr, map_app, concat_app. reflexivity. Qed.

(* A step consumes nothing, or one lexeme. *)
Definition consumed (ts ts' : list tree) (cfg cfg' : config) : Prop :=
  words ts' = words ts /\ text cfg' = text cfg
  \/ exists w, w <> [] /\ next cfg = Look /\ words ts' = words ts ++ [w] /\ text cfg = w ++ text cfg'.

(* What one step of a parser with unlimited stack does. *)
Inductive progress (all : list ascii) (ts : list tree) (cfg : config) : Prop :=
  | P_next cfg' ts' : step cfg = Ok (inl cfg') -> room cfg' = None -> inv all ts' cfg' ->
      (measure ts cfg < measure ts' cfg')%nat -> consumed ts ts' cfg cfg' -> progress all ts cfg
  | P_reject : step cfg = Ok (inr (Rejected, [])) -> progress all ts cfg
  | P_accept t : step cfg = Ok (inr (Accepted (projection t), [])) -> derivation t ->
      root t = 59 -> text_of t = all -> lexemes t = words ts -> text cfg = [] -> progress all ts cfg.

Lemma list_sum_app' l1 l2 : list_sum (l1 ++ l2) = (list_sum l1 + list_sum l2)%nat.
Proof. apply list_sum_app. Qed.

Lemma list_sum_rev l : list_sum (rev l) = list_sum l.
Proof.
  induction l as [|a l IH]; [reflexivity|]. cbn [rev]. rewrite list_sum_app', IH.
  unfold list_sum. cbn [fold_right]. lia.
Qed.

Lemma look_progress all ts cfg : room cfg = None -> next cfg = Look -> inv all ts cfg ->
  progress all ts cfg.
Proof.
  intros R NX [B I]. rewrite NX in I.
  destruct (linked_state _ _ _ I) as (s & n & below & SK & Hs).
  assert (ST : step cfg = look cfg) by (unfold step; rewrite NX; reflexivity).
  unfold look in ST. rewrite SK in ST. cbn [state] in ST.
  destruct (get_sym_sound s (text cfg) Hs) as (f & EF & SF). rewrite EF in ST. cbn [bind] in ST.
  destruct (get_act_cases s (fsym f) Hs) as [(a & i & EA & C)|(EA & FN & DP)];
    rewrite EA in ST; cbn [bind] in ST.
  - assert (RED : a = 1 -> complete_ok s i = true -> i <> 206 -> i <> 269 -> progress all ts cfg).
    { intros -> CO N1 N2. change (Z.testbit 1 1) with false in ST. change (after 1 i) with (Reduce i) in ST.
      cbv iota in ST. unfold complete_ok in CO. rewrite !andb_true_iff, Z.leb_le, Z.ltb_lt in CO.
      destruct CO as [CO1 CO2].
      eapply (P_next _ _ _ _ ts ST).
      - exact R.
      - split; [exact B|]. cbn [next stack text]. split; [lia|]. split; [|intuition].
        left. exists s, n, below. rewrite SK in I. split; [reflexivity|]. split; [exact I|].
        apply item_in_In. exact CO2.
      - unfold measure. cbn [next]. rewrite NX. lia.
      - left. auto. }
    destruct C as [(F & EN)|(-> & CO & N1 & N2)]; [|auto].
    destruct (Z.eq_dec a 1) as [A1|A1].
    + subst a. unfold entry_ok in EN. rewrite andb_true_iff in EN. destruct EN as [_ EN].
      cbn [Z.eqb Pos.eqb andb orb] in EN. rewrite !andb_true_iff, !negb_true_iff, !Z.eqb_neq in EN.
      destruct EN as [[EN1 EN2] EN3]. auto.
    + (* shift *)
      assert (TB : Z.testbit a 1 = true /\ 0 <= fsym f < 59).
      { unfold entry_ok in EN. rewrite !andb_true_iff, Z.leb_le, Z.ltb_lt in EN.
        destruct EN as [EN0 EN]. split; [|lia].
        rewrite !orb_true_iff, !andb_true_iff in EN.
        destruct EN as [[[E1 _]|[[[E1 _] _] _]]|[[[[E1 _] _] _] _]]; apply Z.eqb_eq in E1; subst; try reflexivity.
        contradiction. }
      destruct TB as [TB FB]. rewrite TB in ST.
      destruct (symbol_names (fsym f) FB) as [b SN]. rewrite SN in ST. cbn [bind fst] in ST.
      rewrite R in ST. cbn [grow push bind] in ST.
      set (lexm := firstn (flen f) (text cfg)) in *.
      set (t := Token (fsym f) lexm) in *.
      assert (OWN : (if (token_name (fsym f) =? "")%string then []
                     else [Leaf (token_name (fsym f)) (string_of_list_ascii lexm)]) = own t) by reflexivity.
      rewrite OWN in ST.
      assert (D : derivation t).
      { constructor; [exact FB|]. destruct SF as [[T F0]|[(_ & F0 & _)|(_ & _ & M & _)]].
        - subst f. cbn. unfold lexm. cbn. constructor.
        - lia.
        - exact M. }
      destruct SF as [[T F0]|[(_ & F0 & _)|(F1 & F2 & M & _)]]; [| lia |].
      * (* end of file *)
        assert (FS : fsym f = 0) by (subst f; reflexivity).
        rewrite FS in ST. cbn [Z.eqb orb] in ST.
        eapply (P_next _ _ _ _ (t :: ts) ST).
        -- reflexivity.
        -- eapply (pushed all t ts s n below a i _ true); try reflexivity.
           ++ rewrite SK in I. exact I.
           ++ exact Hs.
           ++ exact D.
           ++ exact EN.
           ++ exact A1.
           ++ cbn [text]. rewrite body_cons. unfold t, lexm. rewrite T. cbn [text_of].
              rewrite firstn_nil, app_nil_r. rewrite T in B. exact B.
           ++ intros _. cbn [text]. exact T.
        -- unfold measure. cbn [next map]. rewrite NX. unfold t. cbn [size list_sum fold_right].
           fold (list_sum (map size ts)). lia.
        -- left. rewrite words_cons. unfold t. cbn [lexemes text]. rewrite FS. split; [apply app_nil_r|reflexivity].
      * destruct (Z.eqb_spec (fsym f) 0); [lia|]. destruct (Z.eqb_spec (fsym f) (-1)); [lia|].
        cbn [orb] in ST.
        destruct (flen f) as [|l] eqn:FL; [lia|]. cbn [clear_input] in ST.
        eapply (P_next _ _ _ _ (t :: ts) ST).
        -- reflexivity.
        -- eapply (pushed all t ts s n below a i _ true); try reflexivity.
           ++ rewrite SK in I. exact I.
           ++ exact Hs.
           ++ exact D.
           ++ exact EN.
           ++ exact A1.
           ++ cbn [text]. rewrite body_cons. unfold t, lexm. cbn [text_of].
              rewrite <- app_assoc. rewrite (firstn_skipn (S l) (text cfg)). exact B.
           ++ unfold t. cbn [root]. lia.
        -- unfold measure. cbn [next map]. rewrite NX. unfold t. cbn [size list_sum fold_right].
           fold (list_sum (map size ts)). lia.
        -- right. exists lexm. split; [|split; [exact NX|split]].
           ++ intros Q. apply (f_equal (@length ascii)) in Q. unfold lexm in Q. rewrite firstn_length in Q.
              cbn [length] in Q. lia.
           ++ rewrite words_cons. unfold t. cbn [lexemes]. destruct (Z.eqb_spec (fsym f) 0); [lia|reflexivity].
           ++ cbn [text]. symmetry. apply firstn_skipn.
  - apply P_reject. rewrite ST. f_equal. f_equal. f_equal. unfold rest.
    assert (FL : flen f = O).
    { destruct SF as [[T F0]|[(_ & F0 & FL)|(F1 & F2 & M & cells & l & P & N & IN)]].
      - subst f. reflexivity.
      - exact FL.
      - exfalso. pose proof (reject_fact s Hs) as K. unfold reject_ok in K.
        rewrite DP in K. cbn [Z.eqb negb orb] in K. rewrite N in K.
        rewrite !orb_true_iff in K. destruct K as [[K|K]|K]; [discriminate| |].
        + apply Z.eqb_eq in K. lia.
        + rewrite forallb_forall in K. specialize (K _ IN). cbn [snd] in K.
          replace (fsym f + 1 - 1) with (fsym f) in K by lia. rewrite FN in K.
          rewrite orb_true_iff, Z.eqb_eq in K. destruct K; [lia|discriminate]. }
    rewrite FL. reflexivity.
Qed.

Lemma production_eq r lhs rhs name : nth_error rules r = Some (lhs, rhs, name) ->
  rd productions (Z.of_nat r) = Ok (name, Z.of_nat (length rhs), lhs).
Proof.
  intros N. apply rd_nth; [lia|]. rewrite Nat2Z.id, productions_eq, nth_error_map, N. reflexivity.
Qed.

Lemma rest_nil h l : rest [] h l = [].
Proof. unfold rest, clear_input. destruct l; rewrite skipn_nil; apply firstn_nil. Qed.

Lemma goal_rule r : (r < 270)%nat -> lhs_of r = 59 -> r = 269%nat.
Proof.
  intros H E. pose proof goal_once as G. rewrite forallb_forall in G.
  specialize (G r). rewrite E in G. apply Nat.eqb_eq.
  assert (I : In r (seq 0 270)) by (apply in_seq; lia). specialize (G I). cbn [Z.eqb Pos.eqb negb orb] in G.
  apply andb_true_iff in G as [G _]. exact G.
Qed.

Lemma line_rule r : (r < 270)%nat -> lhs_of r = 120 -> r = 206%nat.
Proof.
  intros H E. pose proof goal_once as G. rewrite forallb_forall in G.
  specialize (G r). rewrite E in G. apply Nat.eqb_eq.
  assert (I : In r (seq 0 270)) by (apply in_seq; lia). specialize (G I). cbn [Z.eqb Pos.eqb negb orb] in G.
  apply andb_true_iff in G as [_ G]. exact G.
Qed.

Lemma item_zero s r : 0 <= s < 176 -> In (r, O) (items_of s) ->
  lhs_of r = 59 /\ s = 0
  \/ lhs_of r <> 59 /\ exists a i, find_entry (row go s) (lhs_of r) = Some (a, i) /\
       entry_ok false s (lhs_of r, a, i) = true.
Proof.
  intros H I. pose proof (state_fact s H) as K. unfold state_ok in K. rewrite !andb_true_iff in K.
  destruct K as [[[[_ K1] _] _] K2]. rewrite forallb_forall in K2. specialize (K2 _ I).
  cbn [fst snd] in K2. destruct (Z.eqb_spec (lhs_of r) 59).
  - left. split; [assumption|]. apply Z.eqb_eq. exact K2.
  - right. split; [assumption|]. destruct (find_entry (row go s) (lhs_of r)) as [[a i]|] eqn:F; [|discriminate].
    exists a, i. split; [reflexivity|]. rewrite forallb_forall in K1. apply K1, find_entry_In, F.
Qed.

(* Below a stack with state 0 on top there is nothing. *)
Lemma linked_zero n below ts ex : linked (Cell 0 n :: below) ts ex -> below = [] /\ ts = [] /\ n = ex.
Proof.
  intros L. inversion L; subst; [auto|]. exfalso.
  match goal with H : edge_ok _ _ 0 = true |- _ =>
    unfold edge_ok in H; change (0 <? 0) with false in H; discriminate H end.
Qed.

Lemma reduce_progress all ts cfg i : room cfg = None -> next cfg = Reduce i -> inv all ts cfg ->
  progress all ts cfg.
Proof.
  intros R NX [B I]. rewrite NX in I. destruct I as (Hi & RD & T).
  set (r := Z.to_nat i) in *.
  assert (RL : (r < 270)%nat) by lia.
  destruct (nth_error rules r) as [[[lhs rhs] name]|] eqn:NR.
  2:{ apply nth_error_None in NR. destruct lengths_ok as (_ & _ & _ & _ & _ & LR). lia. }
  assert (RHS : rhs_of r = rhs) by (unfold rhs_of; rewrite NR; reflexivity).
  assert (LHS : lhs_of r = lhs) by (unfold lhs_of; rewrite NR; reflexivity).
  assert (NAME : name_of r = name) by (unfold name_of; rewrite NR; reflexivity).
  destruct (ready_pop _ _ _ RD) as (ts1 & ts2 & s & n & below & col & ex & E1 & E2 & E3 & E4 & E5 & E6 & E7).
  rewrite RHS in *.
  destruct (linked_replace _ _ _ _ _ _ r E5 eq_refl E6) as (o & NO & OE & REPL).
  destruct (linked_state _ _ _ E5) as (s' & n' & below' & SE & Hs). inversion SE; subst s' n' below'. clear SE.
  assert (ST : step cfg = reduce i cfg) by (unfold step; rewrite NX; reflexivity).
  unfold reduce in ST. replace i with (Z.of_nat r) in ST at 1 by lia.
  rewrite (production_eq _ _ _ _ NR) in ST. cbn [bind] in ST. rewrite Nat2Z.id, E4 in ST. cbn [bind] in ST.
  set (t := Derived r (rev ts1)).
  assert (D : derivation t).
  { apply (D_derived r lhs rhs name); [exact NR|exact E2|apply Forall_rev; exact E3]. }
  assert (RT : root t = lhs) by (cbn; rewrite NR; reflexivity).
  assert (NODES : (if (name =? "")%string then n ++ col else [Node name (n ++ col)]) = o ++ under t).
  { unfold t. cbn [under projection]. rewrite NR. rewrite NO, <- app_assoc, E7.
    destruct (String.eqb_spec name ""); [reflexivity|].
    rewrite OE; [reflexivity|congruence]. }
  rewrite NODES in ST.
  assert (TX : body (t :: ts2) = body ts).
  { rewrite body_cons, E1, body_app. unfold t. cbn [text_of]. reflexivity. }
  assert (SZ : (size t = S (list_sum (map size ts1)))%nat).
  { unfold t. cbn [size]. rewrite map_rev, list_sum_rev. reflexivity. }
  destruct (item_zero s r Hs E6) as [(G1 & G2)|(G1 & a & j & F & EN)].
  - (* goal *)
    subst s. destruct (linked_zero _ _ _ _ E5) as (-> & -> & _).
    pose proof (goal_rule r RL G1) as RG.
    rewrite LHS in G1. rewrite G1 in ST, RT. cbn [Z.eqb Pos.eqb andb] in ST.
    assert (TN : text cfg = []).
    { apply T. right. lia. }
    rewrite TN, rest_nil in ST. rewrite app_nil_r in E1.
    assert (ON : o = []).
    { specialize (REPL []). inversion REPL as [ex' Q|]; subst. destruct o; [reflexivity|discriminate]. }
    rewrite ON in ST. cbn [app] in ST.
    apply (P_accept _ _ _ t ST D RT).
    + rewrite TN, app_nil_r in B. rewrite <- TX in B. rewrite body_cons in B. exact B.
    + rewrite E1. reflexivity.
    + exact TN.
  - rewrite LHS in *. destruct (Z.eqb_spec lhs 59); [contradiction|]. cbn [andb] in ST.
    unfold get_go in ST. destruct lengths_ok as (_ & LG & _).
    rewrite (row_rd go s LG Hs) in ST. cbn [bind] in ST. rewrite F, R in ST. cbn [push bind] in ST.
    eapply (P_next _ _ _ _ (t :: ts2) ST).
    + reflexivity.
    + eapply (pushed all t ts2 s (o ++ under t) below a j _ false); try reflexivity.
      * apply REPL.
      * exact Hs.
      * exact D.
      * rewrite RT. exact EN.
      * intros ->. unfold entry_ok in EN. rewrite andb_true_iff in EN. destruct EN as [_ EN]. discriminate.
      * cbn [text]. rewrite TX. exact B.
      * cbn [text]. rewrite RT. intros [Q|Q].
        -- subst lhs. apply rule_fact in NR. unfold rule_ok in NR. rewrite Q in NR. discriminate.
        -- apply T. left. rewrite <- LHS in Q. pose proof (line_rule r RL Q). lia.
    + unfold measure. cbn [next map list_sum fold_right]. rewrite NX, SZ, E1, map_app, list_sum_app'.
      fold (list_sum (map size ts2)). destruct (after a j); lia.
    + left. rewrite words_cons, E1, words_app. split; reflexivity.
Qed.

Lemma step_progress all ts cfg : room cfg = None -> inv all ts cfg -> progress all ts cfg.
Proof.
  intros R I. destruct (next cfg) eqn:NX;
    [apply look_progress|eapply reduce_progress]; eassumption.
Qed.
