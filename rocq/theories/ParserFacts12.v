(* The parser follows every preferred derivation, continued: whole trees. *)
From Coq Require Import ZArith String Ascii List Bool Lia.
From Verif Require Import Base Tables Parser ParserSpec Grammar GrammarSpec LexFacts LexFacts2 ParserCert ParserFacts ParserFacts2 ParserFacts3 ParserFacts8.
From Verif Require Import ParserAhead ParserFacts9 ParserFacts10 ParserFacts11.
Import ListNotations.
Open Scope string_scope.
Open Scope list_scope.
Open Scope Z_scope.

(* The productions of a tree are allowed at their places. *)
Fixpoint suits (f : nat) (t : tree) : bool :=
  match t with
  | Token _ _ => true
  | Derived r kids =>
      allowed f r &&
      (fix go (d : nat) (ks : list tree) : bool :=
         match ks with
         | [] => true
         | k :: ks' => suits (kid_place r f d) k && go (S d) ks'
         end) O kids
  end.

Fixpoint suit_all (r f d : nat) (ks : list tree) : bool :=
  match ks with
  | [] => true
  | k :: ks' => suits (kid_place r f d) k && suit_all r f (S d) ks'
  end.

Lemma suits_derived f r kids : suits f (Derived r kids) = allowed f r && suit_all r f 0 kids.
Proof.
  cbn [suits]. f_equal. generalize O. induction kids as [|k kids IH]; intros d; [reflexivity|].
  cbn [suit_all]. rewrite <- IH. reflexivity.
Qed.

Lemma peek_all kids la toks : Forall framed kids -> among (peek toks) la = true ->
  among (peek (tokens_all kids ++ toks)) (firsts (map root kids) la) = true.
Proof.
  induction 1 as [|k kids (F1 & F2 & _) F IH]; intros H; [exact H|].
  unfold tokens_all in *. cbn [map concat firsts]. rewrite <- app_assoc.
  destruct (tokens k) as [|[a w] l] eqn:E.
  - rewrite F1 by reflexivity. cbn [app]. rewrite among_or, (IH H). apply orb_true_r.
  - cbn [app head_in peek] in *. destruct (empty (root k)); [|exact F2].
    rewrite among_or, F2. reflexivity.
Qed.

Lemma readable_app l1 l2 : readable (l1 ++ l2) -> readable l2.
Proof. induction l1 as [|[a w] l1 IH]; [auto|]. cbn. tauto. Qed.

(* No terminal but those of the grammar comes next. *)
Definition numbered (toks : list (Z * list ascii)) : Prop := Forall (fun p => 0 <= fst p < 59) toks.

Lemma followed_range toks : numbered toks -> 0 <= peek toks < 59.
Proof. intros N. destruct toks as [|[a w] toks]; cbn; [lia|]. inversion N; assumption. Qed.

Lemma derivation_numbered t : derivation t -> numbered (tokens t).
Proof.
  intros D. induction D using derivation_ind'.
  - constructor; [exact H|constructor].
  - change (tokens (Derived r kids)) with (tokens_all kids). clear H H0 H1.
    induction H2 as [|k kids K F IH]; [constructor|].
    unfold tokens_all in *. cbn [map concat]. apply Forall_app. auto.
Qed.

Lemma numbered_all kids toks : Forall derivation kids -> numbered toks -> numbered (tokens_all kids ++ toks).
Proof.
  induction 1 as [|k kids D F IH]; intros N; [exact N|].
  unfold tokens_all in *. cbn [map concat]. rewrite <- app_assoc. apply Forall_app.
  split; [apply derivation_numbered, D|apply IH, N].
Qed.

(* State s can start on tree t when the tokens after it start with one of la. *)
Definition opens (s : Z) (f : nat) (t : tree) (la : Z) : Prop :=
  match t with
  | Token a _ => among a (expected s) = true /\ (a = 18 -> s = 26 -> among 14 la = false)
  | Derived r _ => covered s f r 0 la = true
  end.

Definition followed (t : tree) : Prop :=
  forall f all ts c s sts toks la act i, suits f t = true ->
    calm all ts c (s :: sts) (tokens t ++ toks) -> next c = Look ->
    readable (tokens t ++ toks) -> among (peek toks) la = true -> numbered toks -> opens s f t la ->
    root t <> 59 -> trans s (root t) = Some (act, i) -> act = 2 \/ act = 3 ->
    exists c', leads c c' /\ calm all (t :: ts) c' (target act i :: s :: sts) toks /\ next c' = after act i.

Lemma leads_one c c' : step c = Ok (inl c') -> leads c c'.
Proof. intros E. exact (L_step _ _ _ E (L_refl _)). Qed.

Lemma token_followed a w : 0 <= a < 59 -> matches (lexeme a) w -> followed (Token a w).
Proof.
  intros Ha M f all ts c s sts toks la act i _ C NX RD PK _ OP _ TR AC.
  cbn [tokens app] in *. cbn [opens] in OP. destruct OP as [OP ST]. cbn [root] in TR.
  destruct RD as [RD _].
  destruct (calm_top _ _ _ _ _ _ C NX) as (n & below & SK & SB & L & Hs).
  unfold trans in TR. destruct (Z.ltb_spec a 59); [|lia].
  assert (A : act_at s a = Some (act, i)).
  { unfold act_at. rewrite TR. destruct AC as [-> | ->]; reflexivity. }
  destruct (shift_step all ts c s sts a w toks act i C NX
    (RD s Hs OP (fun E E' Q => eq_true_false_abs _ (eq_ind _ (fun x => among x la = true) PK _ Q) (ST E E'))) A) as (c' & S & C' & NX').
  - destruct AC as [-> | ->]; reflexivity.
  - exact Ha.
  - exact M.
  - exists c'. split; [apply leads_one; exact S|]. auto.
Qed.

Lemma map_root_firstn done rest r : rhs_of r = map root (done ++ rest) ->
  nth_error (rhs_of r) (length done) = match rest with k :: _ => Some (root k) | [] => None end /\
  skipn (S (length done)) (rhs_of r) = map root (tl rest) /\
  length (rhs_of r) = (length done + length rest)%nat.
Proof.
  intros ->. rewrite map_app. split; [|split].
  - rewrite nth_error_app2; rewrite map_length; [|lia]. rewrite Nat.sub_diag. destruct rest; reflexivity.
  - rewrite skipn_app, map_length. rewrite skipn_all2 by (rewrite map_length; lia).
    replace (S (length done) - length done)%nat with 1%nat by lia. destruct rest; reflexivity.
  - rewrite app_length, !map_length. reflexivity.
Qed.

Lemma derived_range t : derivation t -> 0 <= root t < 234 /\ match t with Derived r _ => (r < 270)%nat | _ => True end.
Proof.
  intros D. inversion D; subst; cbn [root]; [split; [lia|exact I]|]. rewrite H.
  assert (K : forallb (fun r => (0 <=? fst (fst r)) && (fst (fst r) <? 234)) rules = true) by (vm_compute; reflexivity).
  rewrite forallb_forall in K. specialize (K _ (nth_error_In _ _ H)). cbn [fst] in K.
  rewrite andb_true_iff, Z.leb_le, Z.ltb_lt in K. split; [lia|].
  destruct lengths_ok as (_ & _ & _ & _ & _ & LR). rewrite <- LR. apply nth_error_Some. congruence.
Qed.

(* Goals occur at the root only. *)
Lemma no_goal r : forallb (fun x => negb (x =? 59)) (rhs_of r) = true.
Proof.
  unfold rhs_of. destruct (nth_error rules r) as [[[lhs rhs] name]|] eqn:N; [|reflexivity].
  assert (K : forallb (fun r => forallb (fun x => negb (x =? 59)) (snd (fst r))) rules = true) by (vm_compute; reflexivity).
  rewrite forallb_forall in K. exact (K _ (nth_error_In _ _ N)).
Qed.

Lemma kids_followed r f : forall rest done it all ts c s sts toks,
  rhs_of r = map root (done ++ rest) -> Forall derivation rest -> Forall followed rest ->
  In it (ahead_of s) -> place it = f -> rule it = r -> dot it = length done ->
  among (peek toks) (follow it) = true -> numbered toks ->
  suit_all r f (length done) rest = true ->
  calm all (rev done ++ ts) c (s :: sts) (tokens_all rest ++ toks) -> next c = Look ->
  readable (tokens_all rest ++ toks) ->
  exists c' top, leads c c' /\ next c' = Reduce (Z.of_nat r) /\ length top = length rest /\
    calm all (rev (done ++ rest) ++ ts) c' (top ++ s :: sts) toks.
Proof.
  induction rest as [|k rest IH]; intros done it all ts c s sts toks RH FD FF II PL RU DO PK PB SU C NX RD.
  - (* complete *)
    destruct (map_root_firstn _ _ _ RH) as (N & _ & LN).
    destruct (calm_top _ _ _ _ _ _ C NX) as (n & below & SK & SB & L & Hs).
    pose proof (item_fact s it Hs II) as K. unfold item_ok in K. cbv zeta in K.
    rewrite RU, DO, N in K. apply andb_true_iff in K as [_ K]. rewrite forallb_forall in K.
    specialize (K (peek toks) (upto_In 59 _ (followed_range _ PB))). rewrite PK in K. apply act_eqb_eq in K.
    assert (EX : among (peek toks) (expected s) = true).
    { apply (expected_item s it); [exact II|]. unfold meets. rewrite RU, DO, N. exact PK. }
    cbn [tokens_all map concat app] in C, RD.
    assert (RE : exists w rest, text c = w ++ rest /\ reads s (peek toks) w rest).
    { destruct toks as [|[a w] toks]; cbn [peek] in *.
      - exists [], []. split; [exact (calm_text _ _ _ _ _ C)|apply read_end, Hs].
      - exists w, (flat toks). split; [exact (calm_text _ _ _ _ _ C)|].
        destruct RD as [RD _]. apply (RD s Hs EX). intros -> -> _.
        assert (E : act_at 26 18 = Some (2, 64)) by (vm_compute; reflexivity). rewrite E in K. injection K. discriminate. }
    destruct RE as (w & rst & TX & RE).
    destruct (look_step' _ _ _ _ _ _ _ _ _ _ C NX TX RE K) as (c' & S & C' & NX').
    exists c', []. split; [apply leads_one; exact S|]. split; [exact NX'|]. split; [reflexivity|].
    rewrite app_nil_r. exact C'.
  - destruct (map_root_firstn _ _ _ RH) as (N & SK0 & LN). cbn [tl] in SK0. cbn [length] in LN.
    destruct (calm_top _ _ _ _ _ _ C NX) as (n & below & _ & _ & _ & Hs).
    pose proof (item_fact s it Hs II) as K. unfold item_ok in K. cbv zeta in K.
    rewrite RU, DO, N, PL, SK0 in K. apply andb_true_iff in K as [K1 K2].
    destruct (trans s (root k)) as [[act i]|] eqn:TR; [|discriminate].
    inversion FD as [|? ? DK FD']; subst. inversion FF as [|? ? FK FF']; subst.
    cbn [suit_all] in SU. apply andb_true_iff in SU as [SU1 SU2].
    assert (TK : tokens_all (k :: rest) ++ toks = tokens k ++ (tokens_all rest ++ toks)).
    { unfold tokens_all. cbn [map concat]. symmetry. apply app_assoc. }
    rewrite TK in C, RD.
    assert (AC : act = 2 \/ act = 3).
    { rewrite orb_true_iff, !andb_true_iff, !Z.eqb_eq in K2. tauto. }
    assert (FR : Forall framed rest) by (eapply Forall_impl; [|exact FD']; exact derivation_framed).
    pose proof (peek_all rest (follow it) toks FR PK) as PK'.
    assert (NG : root k <> 59).
    { pose proof (no_goal (rule it)) as NG. rewrite RH, forallb_forall in NG.
      assert (IK : In (root k) (map root (done ++ k :: rest))) by (apply in_map, in_or_app; right; left; reflexivity).
      specialize (NG _ IK). rewrite negb_true_iff, Z.eqb_neq in NG. exact NG. }
    assert (OP : opens s (kid_place (rule it) (place it) (length done)) k (firsts (map root rest) (follow it))).
    { destruct k as [a w|r0 ks]; cbn [opens].
      - inversion DK; subst. split.
        + apply (expected_item s it); [exact II|]. unfold meets. rewrite DO, N. cbn [root].
          destruct (Z.ltb_spec a 59); [|lia].
          unfold among. rewrite Z.shiftl_spec by lia. rewrite Z.sub_diag. reflexivity.
        + intros -> ->. cbn [root Z.ltb Z.compare Pos.compare Pos.compare_cont Z.eqb Pos.eqb] in K1.
          apply negb_true_iff in K1. exact K1.
      - destruct (derived_range _ DK) as [B1 B2].
        pose proof (root_derived _ DK) as RD0. change (59 <= root (Derived r0 ks)) in RD0. destruct (Z.ltb_spec (root (Derived r0 ks)) 59); [lia|].
        rewrite forallb_forall in K1.
        assert (LR : lhs_of r0 = root (Derived r0 ks)) by reflexivity.
        specialize (K1 r0). rewrite <- LR in K1. specialize (K1 (choice_In r0 B2)).
        rewrite suits_derived in SU1. apply andb_true_iff in SU1 as [SU1 _].
        rewrite SU1 in K1. exact K1. }
    destruct (FK _ all (rev done ++ ts) c s sts (tokens_all rest ++ toks) _ act i SU1 C NX RD PK' (numbered_all _ _ FD' PB) OP NG TR AC)
      as (c1 & L1 & C1 & NX1).
    assert (EA : k :: rev done ++ ts = rev (done ++ [k]) ++ ts) by (rewrite rev_app_distr; reflexivity).
    rewrite EA in C1.
    apply readable_app in RD.
    rewrite orb_true_iff, !andb_true_iff, !Z.eqb_eq in K2.
    destruct K2 as [[[[-> CV] I1] I2]|[[-> ->] EL]].
    + apply Z.leb_le in I1. apply Z.ltb_lt in I2.
      apply covered_item in CV as (it' & II' & PL' & RU' & DO' & WI).
      change (target 2 i) with i in C1. change (after 2 i) with Look in NX1.
      destruct (IH (done ++ [k]) it' all ts c1 i (s :: sts) toks) as (c' & top & L2 & NX2 & LT & C2).
      * rewrite <- app_assoc. exact RH.
      * exact FD'.
      * exact FF'.
      * exact II'.
      * exact PL'.
      * exact RU'.
      * rewrite DO', app_length. cbn. lia.
      * eapply within_among; [exact WI|exact PK].
      * exact PB.
      * rewrite app_length, Nat.add_comm. exact SU2.
      * exact C1.
      * exact NX1.
      * exact RD.
      * exists c', (top ++ [i]). split; [eapply leads_trans; eassumption|]. split; [exact NX2|].
        split; [rewrite app_length, LT; cbn; lia|].
        rewrite <- app_assoc in C2. cbn [app] in C2. rewrite <- app_assoc. exact C2.
    + change (target 3 (Z.of_nat (rule it))) with (-1) in C1.
      change (after 3 (Z.of_nat (rule it))) with (Reduce (Z.of_nat (rule it))) in NX1.
      apply Nat.eqb_eq in EL. rewrite LN in EL.
      assert (RN : rest = []) by (destruct rest; [reflexivity|cbn in EL; lia]). subst rest.
      exists c1, [-1]. split; [exact L1|]. split; [exact NX1|]. split; [reflexivity|]. exact C1.
Qed.


Lemma derivation_followed t : derivation t -> followed t.
Proof.
  intros D. induction D using derivation_ind'; [apply token_followed; assumption|].
  intros f all ts c s sts toks la act i SU C NX RD PK NU OP NG TR AC.
  assert (RHS : rhs_of r = rhs) by (unfold rhs_of; rewrite H; reflexivity).
  assert (RT : root (Derived r kids) = lhs) by (cbn [root]; rewrite H; reflexivity).
  rewrite RT in NG, TR. rewrite suits_derived in SU. apply andb_true_iff in SU as [_ SU].
  cbn [opens] in OP. apply covered_item in OP as (it & II & PL & RU & DO & WI).
  change (tokens (Derived r kids)) with (tokens_all kids) in C, RD.
  destruct (kids_followed r f kids [] it all ts c s sts toks) as (c1 & top & L1 & NX1 & LT & C1); try assumption.
  - cbn [app]. congruence.
  - eapply within_among; eassumption.
  - assert (LK : length kids = length rhs) by (rewrite <- H0, map_length; reflexivity).
    cbn [app] in C1.
    destruct (reduce_step' all ts c1 kids top s sts toks r lhs rhs name act i C1 NX1 H LK LT NG TR)
      as (c2 & S & C2 & NX2).
    exists c2. split; [eapply leads_trans; [exact L1|apply leads_one; exact S]|]. auto.
Qed.

(** * Whole texts *)

Lemma flat_tokens t : flat (tokens t) = text_of t.
Proof.
  revert t. fix IH 1. intros [sym txt|r kids].
  - unfold flat. cbn. apply app_nil_r.
  - unfold flat. cbn [tokens text_of]. induction kids as [|k kids IHk]; [reflexivity|].
    cbn [map concat]. rewrite map_app, concat_app, IHk. f_equal. exact (IH k).
Qed.

Lemma derivation_tokens t : derivation t -> Forall (fun p => matches (lexeme (fst p)) (snd p)) (tokens t).
Proof.
  intros D. induction D using derivation_ind'.
  - constructor; [exact H0|constructor].
  - change (tokens (Derived r kids)) with (tokens_all kids). clear H H0 H1.
    induction H2 as [|k kids K F IH]; [constructor|].
    unfold tokens_all in *. cbn [map concat]. apply Forall_app. auto.
Qed.

Lemma goal_covered : covered 0 0 269 0 1 = true.
Proof. vm_compute. reflexivity. Qed.

Lemma goal_accepted t input : derivation t -> root t = 59 -> suits 0 t = true ->
  text_of t = line input -> spaced (tokens t) ->
  parse unlimited [] input = Ok (Accepted (projection t), []).
Proof.
  intros D RT SU TX LG.
  inversion D as [|r lhs rhs name kids N MR FD]; subst; [cbn in RT; lia|].
  cbn [root] in RT. rewrite N in RT. subst lhs.
  assert (R269 : r = 269%nat).
  { apply goal_rule; [|unfold lhs_of; rewrite N; reflexivity].
    destruct lengths_ok as (_ & _ & _ & _ & _ & LR). rewrite <- LR. apply nth_error_Some. congruence. }
  subst r.
  assert (N' : nth_error rules 269 = Some (59, rhs_of 269, "")) by reflexivity.
  rewrite N in N'. injection N' as E1 E2. subst name.
  assert (LK : length kids = 2%nat).
  { rewrite <- (map_length root kids), E1. reflexivity. }
  assert (AD : adjacent (tokens (Derived 269 kids))) by (apply derivation_framed, D).
  destruct (tokens_readable _ AD (spaced_legible _ LG) (derivation_tokens _ D)) as [RD _].
  destruct (covered_item _ _ _ _ _ goal_covered) as (it & II & PL & RU & DO & WI).
  rewrite suits_derived in SU. apply andb_true_iff in SU as [_ SU].
  pose (all := line input).
  assert (C : calm all [] (start unlimited [] input) [0] (tokens_all kids ++ [])).
  { split.
    - reflexivity.
    - split; [reflexivity|]. cbn [start next stack]. constructor.
    - reflexivity.
    - cbn [start text app]. rewrite app_nil_r. change (tokens_all kids) with (tokens (Derived 269 kids)).
      rewrite flat_tokens. symmetry. exact TX. }
  destruct (kids_followed 269 0 kids [] it all [] (start unlimited [] input) 0 [] []) as
    (c1 & top & L1 & NX1 & LT & C1); try assumption.
  - cbn [app]. congruence.
  - eapply Forall_impl; [|exact FD]. exact derivation_followed.
  - eapply within_among; [exact WI|reflexivity].
  - constructor.
  - reflexivity.
  - rewrite app_nil_r. exact RD.
  - cbn [app] in C1. rewrite app_nil_r in C1. rewrite LK in LT.
    pose proof (accept_step all c1 kids top [] C1 NX1 LK LT) as ST.
    destruct (leads_run _ _ L1 _ _ (enough (length (@nil ascii) + length (line input))) ST) as [Q|Q]; [|exact Q].
    exfalso. pose proof (parse_total [] input) as G. unfold parse in G. fold unlimited in G.
    destruct G as [G|(t' & G & _)]; rewrite Q in G; discriminate.
Qed.
