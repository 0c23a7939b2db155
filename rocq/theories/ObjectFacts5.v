(* The stored fields of every object made are those of the denoted term. *)
From Coq Require Import ZArith List Bool Lia Sorting.
From Verif Require Import Base Hash Enums Term TermSpec TermFacts CompoundSpec Terms
  IndexVar Object ObjectSpec ObjectFacts ObjectFacts2 ObjectFacts3 ObjectFacts4.
Import ListNotations.

(* fields_match for an object and all it reaches *)
Definition all_match (h : heap) (o : obj) : Prop := forall x, reach o x -> fields_match h x.

Lemma fields_match_denote : forall h h' o, denote h' o = denote h o -> fields_match h o -> fields_match h' o.
Proof. intros h h' o E. unfold fields_match. rewrite E. auto. Qed.

Lemma all_match_ext : forall h h' o, ext h h' -> wf h o -> all_match h o -> all_match h' o.
Proof.
  intros h h' o X W A x R. apply (fields_match_denote h); [|auto].
  apply denote_ext; [assumption|eapply wf_reach; eauto].
Qed.

Lemma well_ordered_reach : forall h o x, reach o x -> well_ordered (denote h o) -> well_ordered (denote h x).
Proof.
  induction 1; intros W; auto; apply IHreach.
  - apply (well_ordered_part h (OStmt d c s p)); simpl; auto.
  - apply (well_ordered_part h (OStmt d c s p)); simpl; auto.
  - apply (well_ordered_part h (OComp d c l)); simpl; auto.
Qed.

Lemma corr_match : forall h h' o o', corr h h' o o' -> well_ordered (denote h o) ->
  all_match h o -> all_match h' o'.
Proof.
  intros h h' o o' (_ & _ & C) Wo A x R.
  destruct (C x R) as (y & Ry & (S1 & S2 & S3 & S4 & S5 & S6 & S7 & S8) & D).
  specialize (A y Ry). unfold fields_match in *. rewrite D by (eapply well_ordered_reach; eauto).
  destruct A as (A1 & A2 & A3 & A4 & A5 & A6 & A7 & A8). repeat split; congruence.
Qed.

Lemma match_stmt : forall h d c s p, fields_match h s -> fields_match h p ->
  h_hash d = hash_container [1; 60; h_hash (hdr s); cop_code c; h_hash (hdr p); 60; 40; 41; 40; 41; 40; 41]%Z ->
  h_complexity d = (1 + (h_complexity (hdr s) + h_complexity (hdr p)))%Z ->
  h_has_var d = h_has_var (hdr s) || h_has_var (hdr p) ->
  h_has_ivar d = h_has_ivar (hdr s) || h_has_ivar (hdr p) ->
  h_has_dvar d = h_has_dvar (hdr s) || h_has_dvar (hdr p) ->
  h_has_qvar d = h_has_qvar (hdr s) || h_has_qvar (hdr p) ->
  h_is_operation d = h_is_operation (hdr p) ->
  h_is_higher_order d = cop_higher_order c ->
  fields_match h (OStmt d c s p).
Proof.
  intros h d c s p (A1 & A2 & A3 & A4 & A5 & A6 & A7 & A8) (B1 & B2 & B3 & B4 & B5 & B6 & B7 & B8) E1 E2 E3 E4 E5 E6 E7 E8.
  unfold fields_match. cbn [hdr denote thash complexity has_var has_ivar has_dvar has_qvar is_operation is_higher_order existsb].
  rewrite E1, E2, E3, E4, E5, E6, E7, E8, A1, A2, A3, A4, A5, A6, B1, B2, B3, B4, B5, B6, B7, !orb_false_r.
  repeat split.
Qed.

Lemma map_match : forall A h (f : header -> A) (g : term -> A) l,
  (forall x, In x l -> f (hdr x) = g (denote h x)) ->
  map (fun o => f (hdr o)) l = map g (map (denote h) l).
Proof. intros A h f g l H. rewrite map_map. apply map_ext_in. assumption. Qed.

Lemma exists_match : forall h (f : header -> bool) (g : term -> bool) l,
  (forall x, In x l -> f (hdr x) = g (denote h x)) ->
  existsb (fun o => f (hdr o)) l = existsb (fun b => b) (map g (map (denote h) l)).
Proof.
  induction l as [|x l IH]; intros H; [reflexivity|]. simpl.
  rewrite IH by (intros; apply H; simpl; auto). rewrite H by (simpl; auto). reflexivity.
Qed.

Lemma match_comp : forall h d c l, (forall x, In x l -> fields_match h x) ->
  h_hash d = hash_container ([2; 40; con_code c] ++ map (fun o => h_hash (hdr o)) l ++ [41; 40; 41; 40; 41; 40; 41])%Z ->
  h_complexity d = fold_left (fun sum x => sum + x)%Z (map (fun o => h_complexity (hdr o)) l) 0%Z ->
  h_has_var d = existsb (fun o => h_has_var (hdr o)) l ->
  h_has_ivar d = existsb (fun o => h_has_ivar (hdr o)) l ->
  h_has_dvar d = existsb (fun o => h_has_dvar (hdr o)) l ->
  h_has_qvar d = existsb (fun o => h_has_qvar (hdr o)) l ->
  h_is_operation d = false -> h_is_higher_order d = false ->
  fields_match h (OComp d c l).
Proof.
  intros h d c l H E1 E2 E3 E4 E5 E6 E7 E8. unfold fields_match.
  cbn [hdr denote thash complexity has_var has_ivar has_dvar has_qvar is_operation is_higher_order].
  rewrite E1, E2, E3, E4, E5, E6, E7, E8.
  rewrite (map_match _ h h_hash thash), (map_match _ h h_complexity complexity) by (intros; apply H; assumption).
  rewrite (exists_match h h_has_var has_var), (exists_match h h_has_ivar has_ivar),
    (exists_match h h_has_dvar has_dvar), (exists_match h h_has_qvar has_qvar) by (intros; apply H; assumption).
  repeat split.
Qed.

Lemma step_match : forall h x h' o',
  (forall o, In o (uses x) -> wf h o /\ all_match h o /\ well_ordered (denote h o)) ->
  step h x = Ok (h', o') -> all_match h' o'.
Proof.
  intros h x h' o' Hu E. destruct x as [b|n|k i|c s p b|c l b|o]; cbn [step uses] in *.
  - inversion E as [[Eh Eo]]. unfold new_atom in *. destruct (new_term h) as [[h1 id] ivs].
    cbn [fst snd] in *. inversion Eh; subst. intros x R. apply reach_cases in R.
    destruct R as [->|(y & [] & _)]. repeat split.
  - inversion E as [[Eh Eo]]. unfold new_itv in *. destruct (new_term h) as [[h1 id] ivs].
    cbn [fst snd] in *. inversion Eh; subst. intros x R. apply reach_cases in R.
    destruct R as [->|(y & [] & _)]. repeat split.
  - inversion E as [[Eh Eo]]. unfold new_var in *. destruct (new_term h) as [[h1 id] ivs].
    inversion Eh; subst. intros x R. apply reach_cases in R.
    destruct R as [->|(y & [] & _)]. repeat split.
  - destruct (Hu s (or_introl eq_refl)) as (Ws & As & Os).
    destruct (Hu p (or_intror (or_introl eq_refl))) as (Wp & Ap & Op).
    destruct (new_stmt_spec h c s p b Ws Wp) as (h2 & d & s' & p' & E2 & X & W & Cs & Cp & Hb & F1 & F2 & F3 & F4 & F5 & F6 & F7 & F8).
    rewrite E in E2. inversion E2; subst h2 o'; clear E2.
    pose proof (corr_match _ _ _ _ Cs Os As) as Ms. pose proof (corr_match _ _ _ _ Cp Op Ap) as Mp.
    intros x R. apply reach_cases in R. destruct R as [->|(y & Hy & R)].
    + apply match_stmt; auto.
      * apply Ms. constructor.
      * apply Mp. constructor.
      * rewrite F7. destruct Cp as ((_ & _ & _ & _ & _ & _ & G & _) & _). exact G.
    + destruct Hy as [<-|[<-|[]]]; [apply Ms|apply Mp]; assumption.
  - destruct (new_comp_spec h c l b (fun o Ho => proj1 (Hu o Ho)))
      as (h2 & d & l' & E2 & X & W & C & Hb & F1 & F2 & F3 & F4 & F5 & F6 & F7 & F8).
    rewrite E in E2. inversion E2; subst h2 o'; clear E2.
    assert (M : forall t, In t l' -> all_match h' t).
    { intros t Ht. destruct (C t Ht) as (x & Hx & Cx). destruct (Hu x Hx) as (_ & Ax & Ox).
      eapply corr_match; eauto. }
    intros x R. apply reach_cases in R. destruct R as [->|(y & Hy & R)].
    + apply match_comp; auto. intros x Hx. apply (M x Hx). constructor.
    + apply (M y); assumption.
  - destruct (Hu o (or_introl eq_refl)) as (Wo & Ao & Oo).
    destruct (clone_spec o h Wo) as (h2 & o2 & E2 & C). rewrite E in E2. inversion E2; subst h2 o2.
    eapply corr_match; [apply cloned_corr; exact C|assumption|assumption].
Qed.

Lemma reach_part : forall o x, In x (parts o) -> reach o x.
Proof. intros o x H. apply reach_cases. right. exists x. split; [assumption|constructor]. Qed.

Lemma made_match_all : forall h pool, made h pool ->
  (forall o, In o pool -> well_ordered (denote h o)) -> forall o, In o pool -> all_match h o.
Proof.
  induction 1 as [|h pool x h' o M IH Hu E|h pool n M IH L|h pool o o' M IH Ho Hp]; intros Wo q Hq.
  - destruct Hq.
  - destruct (step_spec h x) as (h2 & o2 & E2 & X & W).
    { intros y Hy. eapply made_wf; eauto. }
    rewrite E in E2. inversion E2; subst h2 o2; clear E2.
    assert (Wo' : forall y, In y pool -> well_ordered (denote h y)).
    { intros y Hy. rewrite <- (denote_ext h h' y X) by (eapply made_wf; eauto). apply Wo. right. assumption. }
    destruct Hq as [<-|Hq].
    + eapply step_match; [|exact E]. intros y Hy. split; [eapply made_wf; eauto|]. split; auto.
    + eapply all_match_ext; [exact X|eapply made_wf; eauto|auto].
  - pose proof (gap_ext h n L) as X. eapply all_match_ext; [exact X|eapply made_wf; eauto|].
    apply IH; [|assumption]. intros y Hy.
    rewrite <- (denote_ext _ _ y X) by (eapply made_wf; eauto). auto.
  - assert (Wo' : forall y, In y pool -> well_ordered (denote h y)) by (intros; apply Wo; right; assumption).
    destruct Hq as [<-|Hq]; [|auto].
    intros x R. apply (IH Wo' o Ho). eapply reach_trans; [apply reach_part|]; eauto.
Qed.

Lemma made_match : forall h pool, made h pool ->
  (forall o, In o pool -> well_ordered (denote h o)) -> forall o, In o pool -> fields_match h o.
Proof. intros h pool M Wo o Ho. apply (made_match_all h pool M Wo o Ho). constructor. Qed.

(* What the constructors build. *)
Lemma made_new_stmt : forall h pool c s p b h' o', made h pool -> In s pool -> In p pool ->
  (b = true \/ well_ordered (denote h s) /\ well_ordered (denote h p)) ->
  step h (NewStmt c s p b) = Ok (h', o') -> denote h' o' = Stmt c (denote h s) (denote h p).
Proof.
  intros h pool c s p b h' o' M Hs Hp O E.
  pose proof (made_wf _ _ M) as W.
  destruct (new_stmt_spec h c s p b (W s Hs) (W p Hp))
    as (h2 & d & s' & p' & E2 & X & _ & (_ & Ds & _) & (_ & Dp & _) & Hb & _).
  cbn [step] in E. rewrite E in E2. inversion E2; subst h2 o'; clear E2. cbn [denote].
  destruct O as [->|(Os & Op)].
  - destruct (Hb eq_refl) as (-> & ->). rewrite !(denote_ext h h') by auto. reflexivity.
  - rewrite Ds, Dp by assumption. reflexivity.
Qed.

Lemma made_new_comp : forall h pool c l h' o', made h pool -> incl l pool ->
  step h (NewComp c l true) = Ok (h', o') -> denote h' o' = Comp c (map (denote h) l).
Proof.
  intros h pool c l h' o' M Hl E. pose proof (made_wf _ _ M) as W.
  destruct (new_comp_spec h c l true (fun o Ho => W o (Hl o Ho))) as (h2 & d & l' & E2 & X & _ & _ & Hb & _).
  cbn [step] in E. rewrite E in E2. inversion E2; subst h2 o'; clear E2. cbn [denote].
  rewrite (Hb eq_refl). f_equal. apply map_ext_in. intros a Ha. apply denote_ext; auto.
Qed.

(* Nothing a program does to some terms changes the terms it already holds. *)
Lemma made_stable : forall h pool x h' o', made h pool -> incl (uses x) pool ->
  step h x = Ok (h', o') -> forall o, In o pool -> denote h' o = denote h o.
Proof.
  intros h pool x h' o' M Hu E o Ho. pose proof (made_wf _ _ M) as W.
  destruct (step_spec h x) as (h2 & o2 & E2 & X & _); [auto|].
  rewrite E in E2. inversion E2; subst h2 o2. apply denote_ext; auto.
Qed.
