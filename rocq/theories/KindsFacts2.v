From Coq Require Import ZArith List Bool Lia.
From Verif Require Import Base Float Truth Maps MapsFacts Kinds KindsSpec KindsFacts.
From Verif Require Evidence Actions.
Import ListNotations.
Local Open Scope nat_scope.

Definition grown (w w1 : world) : Prop :=
  (exists t, truths w1 = truths w ++ t) /\ (exists s, stamps w1 = stamps w ++ s).

Lemma grown_same : forall w w1, truths w1 = truths w -> stamps w1 = stamps w -> grown w w1.
Proof. intros w w1 H1 H2. split; exists []; now rewrite app_nil_r. Qed.

Lemma grown_trans : forall a b c, grown a b -> grown b c -> grown a c.
Proof.
  intros a b c [[t1 H1] [s1 H2]] [[t2 H3] [s2 H4]]. split.
  - exists (t1 ++ t2). now rewrite H3, H1, app_assoc.
  - exists (s1 ++ s2). now rewrite H4, H2, app_assoc.
Qed.

Lemma grown_base : forall w t p tr st w1 s, base w t p tr st = (w1, s) ->
  grown w w1 /\ stamp_asked w1 st (s_stamp s).
Proof.
  intros w t p tr st w1 s H. unfold base in H. destruct st.
  - injection H as <- <-. split; [now apply grown_same|reflexivity].
  - unfold new_stamp in H. destruct (Evidence.stamp_bool (memory w) true) as [m x] eqn:E. injection H as <- <-.
    split.
    + split; [exists []; cbn; now rewrite app_nil_r|now exists [x]].
    + cbn. exists (length (stamps w)), x. repeat split.
      * now rewrite nth_error_app2, Nat.sub_diag.
      * unfold Evidence.stamp_bool, Evidence.stamp5, Evidence.get_input_id in E. cbn in E. now injection E as _ <-.
      * unfold Evidence.stamp_bool, Evidence.stamp5, Evidence.get_input_id in E. cbn in E. injection E as _ <-. discriminate.
Qed.

Lemma grown_truth : forall w s v w1 s1, with_truth w s v = (w1, s1) ->
  grown w w1 /\ truth_asked w1 (s_truth s) v (s_truth s1).
Proof.
  intros w s v w1 s1 H. unfold with_truth in H. destruct (s_truth s) eqn:E.
  - injection H as <- <-. split; [now apply grown_same|exact E].
  - cbn in H. injection H as <- <-. split.
    + split; [now exists [v]|exists []; cbn; now rewrite app_nil_r].
    + exists (length (truths w)). cbn. now rewrite nth_error_app2, Nat.sub_diag.
Qed.

Lemma grown_place : forall w s, grown w (place (w, s)).
Proof. intros. now apply grown_same. Qed.

Lemma step_grown : forall c w x w1, step c w x = Ok w1 -> grown w w1.
Proof.
  intros c w x w1 H. destruct x; cbn [step] in H.
  - injection H as <-. destruct (base w t p tr st) eqn:E. apply grown_base in E as [E _]. eapply grown_trans; eauto using grown_place.
  - destruct (base w t _ tr st) eqn:E. apply grown_base in E as [E _]. injection H as <-.
    destruct (with_truth w0 s _) eqn:E2. apply grown_truth in E2 as [E2 _].
    eapply grown_trans; [exact E|]. eapply grown_trans; [exact E2|]. apply grown_place.
  - injection H as <-. destruct (base w t _ _ st) eqn:E. apply grown_base in E as [E _]. eapply grown_trans; eauto using grown_place.
  - destruct (base w t _ tr st) eqn:E. apply grown_base in E as [E _]. cbv zeta in H. injection H as <-.
    destruct (with_truth w0 _ _) eqn:E2. apply grown_truth in E2 as [E2 _].
    eapply grown_trans; [exact E|]. eapply grown_trans; [exact E2|]. apply grown_place.
  - injection H as <-. destruct (base w t _ _ st) eqn:E. apply grown_base in E as [E _]. eapply grown_trans; eauto using grown_place.
  - destruct (look w a); try discriminate. injection H as <-. now apply grown_same.
  - destruct (look w a); try discriminate. injection H as <-. now apply grown_same.
  - destruct (look w a); try discriminate. injection H as <-. now apply grown_same.
  - destruct (look w a); try discriminate. destruct (look w b); try discriminate. injection H as <-. now apply grown_same.
  - destruct (look w a); try discriminate. injection H as <-. now apply grown_same.
  - destruct (look w a) as [s| | |]; try discriminate. cbn [bind] in H. destruct (s_desire s); try discriminate.
    destruct (look w n); try discriminate. injection H as <-. now apply grown_same.
  - destruct (look w a); try discriminate. injection H as <-. now apply grown_same.
Qed.

Lemma nth_grown : forall {A} (l l1 t : list A) n x, nth_error l n = Some x -> l1 = l ++ t -> nth_error l1 n = Some x.
Proof. intros. subst. rewrite nth_error_app1; auto. apply nth_error_Some. congruence. Qed.

Lemma truth_grown : forall w w1 g v p, grown w w1 -> truth_asked w g v p -> truth_asked w1 g v p.
Proof.
  intros w w1 g v p [[t H] _] K. destruct g; [exact K|]. destruct K as (a & E & N). exists a. eauto using nth_grown.
Qed.
Lemma stamp_grown : forall w w1 g p, grown w w1 -> stamp_asked w g p -> stamp_asked w1 g p.
Proof.
  intros w w1 g p [_ [t H]] K. destruct g; [exact K|]. destruct K as (a & s & E & N & R). exists a, s. eauto using nth_grown.
Qed.
Lemma asked_grown : forall c x w w1 s, grown w w1 -> as_asked c x w s -> as_asked c x w1 s.
Proof.
  intros c x w w1 s G H. destruct x; cbn in *; auto; decompose [and] H; repeat split; eauto using truth_grown, stamp_grown.
Qed.

Lemma step_asked : forall c w x w1, step c w x = Ok w1 -> makes x = true ->
  exists s, lookup Nat.eqb (count w) (alive w1) = Some s /\ as_asked c x w1 s.
Proof.
  intros c w x w1 H M. destruct x; cbn [step] in H; try discriminate.
  - injection H as <-. destruct (base w t p tr st) as [w2 s] eqn:E. assert (F := base_facts _ _ _ _ _ _ _ E). apply grown_base in E as [E E'].
    exists s. destruct F as (P1 & P2 & P3 & P4 & P5 & P6 & P7). split; [cbn; now rewrite P1, Nat.eqb_refl|].
    eapply asked_grown; [apply grown_place|]. cbn. auto.
  - destruct (base w t _ tr st) as [w2 s] eqn:E. assert (F := base_facts _ _ _ _ _ _ _ E). apply grown_base in E as [E E'].
    injection H as <-. destruct (with_truth w2 s _) as [w3 s3] eqn:E2. assert (F2 := truth_facts _ _ _ _ _ E2). apply grown_truth in E2 as [E2 E2'].
    exists s3. destruct F as (P1 & P2 & P3 & P4 & P5 & P6 & P7). destruct F2 as (Q1 & Q2 & Q3 & Q4 & Q5 & Q6 & Q7). split; [cbn; now rewrite Q1, P1, Nat.eqb_refl|].
    eapply asked_grown; [apply grown_place|]. cbn. repeat split; try congruence.
    rewrite Q7. eauto using stamp_grown.
  - injection H as <-. destruct (base w t _ _ st) as [w2 s] eqn:E. assert (F := base_facts _ _ _ _ _ _ _ E). apply grown_base in E as [E E'].
    exists s. destruct F as (P1 & P2 & P3 & P4 & P5 & P6 & P7). split; [cbn; now rewrite P1, Nat.eqb_refl|].
    eapply asked_grown; [apply grown_place|]. cbn. auto.
  - destruct (base w t _ tr st) as [w2 s] eqn:E. assert (F := base_facts _ _ _ _ _ _ _ E). apply grown_base in E as [E E'].
    cbv zeta in H. injection H as <-. destruct (with_truth w2 _ _) as [w3 s3] eqn:E2. assert (F2 := truth_facts _ _ _ _ _ E2). apply grown_truth in E2 as [E2 E2'].
    cbn in F2, E2'.
    exists s3. destruct F as (P1 & P2 & P3 & P4 & P5 & P6 & P7). destruct F2 as (Q1 & Q2 & Q3 & Q4 & Q5 & Q6 & Q7). split; [cbn; now rewrite Q1, P1, Nat.eqb_refl|].
    eapply asked_grown; [apply grown_place|]. cbn. repeat split; try congruence.
    rewrite Q7. eauto using stamp_grown.
  - injection H as <-. destruct (base w t _ _ st) as [w2 s] eqn:E. assert (F := base_facts _ _ _ _ _ _ _ E). apply grown_base in E as [E E'].
    exists s. destruct F as (P1 & P2 & P3 & P4 & P5 & P6 & P7). split; [cbn; now rewrite P1, Nat.eqb_refl|].
    eapply asked_grown; [apply grown_place|]. cbn. auto.
  - destruct (look w a) as [s| | |]; try discriminate. injection H as <-. exists s. cbn. now rewrite Nat.eqb_refl.
  - destruct (look w a) as [s| | |]; try discriminate. injection H as <-. exists s. cbn. now rewrite Nat.eqb_refl.
  - destruct (look w a) as [s| | |]; try discriminate. injection H as <-. eexists. cbn. rewrite Nat.eqb_refl. split; [reflexivity|exact I].
Qed.

Definition spares (l : list (config * op)) (x : op) (n : nat) : Prop :=
  match x with
  | Move a | SetTruth a _ | Assign a _ | Delete a => a <> n
  | SetDesire a _ => ~ comes_from l a n
  | _ => True
  end.

Lemma old_place : forall w w1 s n s0, count w1 = count w -> alive w1 = alive w -> n < count w ->
  lookup Nat.eqb n (alive w) = Some s0 -> lookup Nat.eqb n (alive (place (w1, s))) = Some s0.
Proof.
  intros w w1 s n s0 Hc Ha Hn H. cbn. rewrite Hc, Ha. destruct (Nat.eqb_spec n (count w)); [lia|exact H].
Qed.

Lemma step_frame : forall l c w x w1 n s, fine l w -> step c w x = Ok w1 ->
  lookup Nat.eqb n (alive w) = Some s -> spares l x n -> lookup Nat.eqb n (alive w1) = Some s.
Proof.
  intros l c w x w1 n s F H Hs Sp.
  assert (Hn : n < count w). { rewrite (fine_count _ _ F). apply (fine_alive _ _ F). eauto. }
  destruct x; cbn [step] in H; cbn in Sp.
  - injection H as <-. destruct (base w t p tr st) eqn:E. apply base_facts in E. destruct E as (P1 & P2 & P3 & P4 & P5 & P6 & P7). eapply (old_place w); eauto.
  - destruct (base w t _ tr st) as [w2 s2] eqn:E. injection H as <-. destruct (with_truth w2 s2 _) eqn:E2.
    apply base_facts in E. apply truth_facts in E2. destruct E as (P1 & P2 & P3 & P4 & P5 & P6 & P7). destruct E2 as (Q1 & Q2 & Q3 & Q4 & Q5 & Q6 & Q7). eapply (old_place w); eauto; congruence.
  - injection H as <-. destruct (base w t _ _ st) eqn:E. apply base_facts in E. destruct E as (P1 & P2 & P3 & P4 & P5 & P6 & P7). eapply (old_place w); eauto.
  - destruct (base w t _ tr st) as [w2 s2] eqn:E. cbv zeta in H. injection H as <-. destruct (with_truth w2 _ _) eqn:E2.
    apply base_facts in E. apply truth_facts in E2. destruct E as (P1 & P2 & P3 & P4 & P5 & P6 & P7). destruct E2 as (Q1 & Q2 & Q3 & Q4 & Q5 & Q6 & Q7). eapply (old_place w); eauto; congruence.
  - injection H as <-. destruct (base w t _ _ st) eqn:E. apply base_facts in E. destruct E as (P1 & P2 & P3 & P4 & P5 & P6 & P7). eapply (old_place w); eauto.
  - destruct (look w a) eqn:E; try discriminate. injection H as <-. now apply (old_place w w).
  - destruct (look w a) eqn:E; try discriminate. injection H as <-. cbn [alive lookup].
    destruct (Nat.eqb_spec n (count w)); [lia|]. rewrite (lookup_set_other Nat.eqb Nat.eqb_eq); auto.
  - destruct (look w a) eqn:E; try discriminate. injection H as <-. now apply (old_place w w).
  - destruct (look w a) eqn:E; try discriminate. destruct (look w b) eqn:E2; try discriminate. injection H as <-.
    try unfold put. cbn [alive]. rewrite (lookup_set_other Nat.eqb Nat.eqb_eq); auto.
  - destruct (look w a) eqn:E; try discriminate. injection H as <-.
    try unfold put. cbn [alive]. rewrite (lookup_set_other Nat.eqb Nat.eqb_eq); auto.
  - destruct (look w a) as [s2| | |] eqn:E; try discriminate. cbn [bind] in H. destruct (s_desire s2) as [r|] eqn:D; try discriminate.
    destruct (look w r) eqn:E2; try discriminate. injection H as <-.
    apply look_ok in E. assert (B := fine_bound _ _ F _ _ E). unfold bound in B. rewrite D in B.
    try unfold put. cbn [alive]. rewrite (lookup_set_other Nat.eqb Nat.eqb_eq); auto. congruence.
  - destruct (look w a) eqn:E; try discriminate. injection H as <-.
    try unfold put. cbn [alive]. rewrite (lookup_unset_other Nat.eqb Nat.eqb_eq); auto.
Qed.

Lemma run_frame : forall l2 l w w1 n s, fine l w -> run w l2 = Ok w1 ->
  lookup Nat.eqb n (alive w) = Some s -> untouched l l2 n ->
  lookup Nat.eqb n (alive w1) = Some s /\ grown w w1.
Proof.
  induction l2 as [|[c x] l2 IH]; intros l w w1 n s F H Hs U.
  - injection H as <-. split; [exact Hs|now apply grown_same].
  - cbn in H. destruct (step c w x) as [w2| | |] eqn:E; try discriminate. cbn in H.
    assert (Hs2 : lookup Nat.eqb n (alive w2) = Some s).
    { eapply step_frame; eauto. assert (K := U x (or_introl eq_refl)). destruct x; cbn in *; auto.
      intros C. apply K. now apply comes_more. }
    destruct (IH (l ++ [(c, x)]) w2 w1 n s) as [R G]; auto.
    + eapply fine_step; eauto.
    + intros y Hy. assert (K := U y (or_intror Hy)). now rewrite <- app_assoc.
    + split; [exact R|]. eapply grown_trans; eauto using step_grown.
Qed.

Lemma sentence_kept : forall m l1 c x l2 w, run (start m) (l1 ++ (c, x) :: l2) = Ok w ->
  makes x = true -> untouched (l1 ++ [(c, x)]) l2 (length (makings l1)) ->
  exists s, look w (length (makings l1)) = Ok s /\ as_asked c x w s.
Proof.
  intros m l1 c x l2 w H M U. rewrite run_app in H.
  destruct (run (start m) l1) as [w0| | |] eqn:E0; try discriminate. cbn in H.
  destruct (step c w0 x) as [w1| | |] eqn:E1; try discriminate. cbn in H.
  assert (F0 := fine_run _ _ _ E0). assert (F1 := fine_step _ _ _ _ _ F0 E1).
  destruct (step_asked _ _ _ _ E1 M) as [s [Hs A]].
  rewrite (fine_count _ _ F0) in Hs.
  destruct (run_frame _ _ _ _ _ _ F1 H Hs U) as [R G].
  exists s. split; [now apply look_ok|]. eapply asked_grown; eauto.
Qed.

(* ---- kinds ---- *)

Section Kept.
Variable good : sentence -> Prop.
Variable allowed : op -> Prop.
Hypothesis made_good : forall c w x w1 s, allowed x -> makes x = true ->
  (forall a, x <> Copy a /\ x <> Move a /\ x <> Slice a) ->
  step c w x = Ok w1 -> lookup Nat.eqb (count w) (alive w1) = Some s -> good s.
Hypothesis desire_free : forall s d, good s -> good (Sentence (s_term s) (s_truth s) (s_stamp s) (s_punct s) d).
Hypothesis no_move : forall a, ~ allowed (Move a).
Hypothesis truth_set : forall s a p, good s -> allowed (SetTruth a p) \/ allowed (SetDesire a p) -> good (set_truth s p).

Definition all_good (w : world) : Prop := forall n s, lookup Nat.eqb n (alive w) = Some s -> good s.

Lemma good_old : forall c w x w1 n s, makes x = true -> (forall a, x <> Move a) -> step c w x = Ok w1 -> n <> count w ->
  lookup Nat.eqb n (alive w1) = Some s -> lookup Nat.eqb n (alive w) = Some s.
Proof.
  intros c w x w1 n s M NM H Hn Hs. destruct x; cbn [step] in H; try discriminate.
  - injection H as <-. destruct (base w t p tr st) eqn:E. apply base_facts in E. destruct E as (P1 & P2 & P3 & P4 & P5 & P6 & P7).
    cbn in Hs. rewrite P1, P2 in Hs. now rewrite (proj2 (Nat.eqb_neq _ _) Hn) in Hs.
  - destruct (base w t _ tr st) as [w2 s2] eqn:E. injection H as <-. destruct (with_truth w2 s2 _) eqn:E2.
    apply base_facts in E. apply truth_facts in E2. destruct E as (P1 & P2 & P3 & P4 & P5 & P6 & P7). destruct E2 as (Q1 & Q2 & Q3 & Q4 & Q5 & Q6 & Q7).
    cbn in Hs. rewrite Q1, Q2, P1, P2 in Hs. now rewrite (proj2 (Nat.eqb_neq _ _) Hn) in Hs.
  - injection H as <-. destruct (base w t _ _ st) eqn:E. apply base_facts in E. destruct E as (P1 & P2 & P3 & P4 & P5 & P6 & P7).
    cbn in Hs. rewrite P1, P2 in Hs. now rewrite (proj2 (Nat.eqb_neq _ _) Hn) in Hs.
  - destruct (base w t _ tr st) as [w2 s2] eqn:E. cbv zeta in H. injection H as <-. destruct (with_truth w2 _ _) eqn:E2.
    apply base_facts in E. apply truth_facts in E2. destruct E as (P1 & P2 & P3 & P4 & P5 & P6 & P7). destruct E2 as (Q1 & Q2 & Q3 & Q4 & Q5 & Q6 & Q7).
    cbn in Hs. rewrite Q1, Q2, P1, P2 in Hs. now rewrite (proj2 (Nat.eqb_neq _ _) Hn) in Hs.
  - injection H as <-. destruct (base w t _ _ st) eqn:E. apply base_facts in E. destruct E as (P1 & P2 & P3 & P4 & P5 & P6 & P7).
    cbn in Hs. rewrite P1, P2 in Hs. now rewrite (proj2 (Nat.eqb_neq _ _) Hn) in Hs.
  - destruct (look w a); try discriminate. injection H as <-. cbn in Hs. now rewrite (proj2 (Nat.eqb_neq _ _) Hn) in Hs.
  - now destruct (NM a).
  - destruct (look w a); try discriminate. injection H as <-. cbn in Hs. now rewrite (proj2 (Nat.eqb_neq _ _) Hn) in Hs.
Qed.

Lemma good_put : forall w a s, all_good w -> good s -> all_good (put w a s).
Proof.
  intros w a s G Gs n s1 H. unfold put in H. cbn [alive] in H. destruct (Nat.eq_dec n a) as [->|Hn].
  - rewrite (lookup_set_same Nat.eqb Nat.eqb_eq) in H. now injection H as <-.
  - rewrite (lookup_set_other Nat.eqb Nat.eqb_eq) in H; eauto.
Qed.

Lemma good_step : forall c w x w1, allowed x -> all_good w -> step c w x = Ok w1 -> all_good w1.
Proof.
  intros c w x w1 A G H. destruct (makes x) eqn:M.
  - assert (NM : forall a, x <> Move a). { intros a ->. now apply (no_move a). }
    intros n s Hs. destruct (Nat.eq_dec n (count w)) as [->|Hn].
    2:{ eapply G, good_old; eauto. }
    destruct x; try discriminate; try (eapply made_good; eauto; repeat split; discriminate).
    + cbn [step] in H. destruct (look w a) eqn:E; try discriminate. injection H as <-. cbn in Hs. rewrite Nat.eqb_refl in Hs.
      injection Hs as <-. apply look_ok in E. eauto.
    + now destruct (NM a).
    + cbn [step] in H. destruct (look w a) eqn:E; try discriminate. injection H as <-. cbn in Hs. rewrite Nat.eqb_refl in Hs.
      injection Hs as <-. apply look_ok in E. apply desire_free. eauto.
  - destruct x; cbn [step] in H; try discriminate.
    + destruct (look w a) as [s| | |] eqn:E; try discriminate. destruct (look w b) as [t| | |] eqn:E2; try discriminate.
      cbn [bind] in H. assert (w1 = put w a (Sentence (s_term t) (s_truth t) (s_stamp t) (s_punct t) (s_desire s))) as -> by congruence.
      apply look_ok in E2. apply good_put; auto. apply desire_free. eauto.
    + destruct (look w a) as [s| | |] eqn:E; try discriminate. cbn [bind] in H. assert (w1 = put w a (set_truth s p)) as -> by congruence.
      apply look_ok in E. apply good_put; auto. eapply truth_set; eauto.
    + destruct (look w a) as [s| | |] eqn:E; try discriminate. cbn [bind] in H. destruct (s_desire s) as [r|]; try discriminate.
      destruct (look w r) as [t| | |] eqn:E2; try discriminate. cbn [bind] in H. assert (w1 = put w r (set_truth t p)) as -> by congruence.
      apply look_ok in E2. apply good_put; auto. eapply truth_set; eauto.
    + destruct (look w a) as [s| | |] eqn:E; try discriminate. injection H as <-. intros n t Hs. cbn [alive] in Hs.
      destruct (Nat.eq_dec n a) as [->|Hn].
      * now rewrite (lookup_unset_same Nat.eqb) in Hs.
      * rewrite (lookup_unset_other Nat.eqb Nat.eqb_eq) in Hs; eauto.
Qed.

Lemma good_run : forall l w w1, Forall allowed (map snd l) -> all_good w -> run w l = Ok w1 -> all_good w1.
Proof.
  induction l as [|[c x] l IH]; intros w w1 A G H.
  - now injection H as <-.
  - cbn in A, H. inversion A; subst. destruct (step c w x) as [w2| | |] eqn:E; try discriminate. cbn in H.
    apply (IH w2 w1); auto. exact (good_step c w x w2 H2 G E).
Qed.
End Kept.

Lemma made_kind : forall c w x w1 s, makes x = true -> (forall a, x <> Copy a /\ x <> Move a /\ x <> Slice a) ->
  step c w x = Ok w1 -> lookup Nat.eqb (count w) (alive w1) = Some s ->
  s_stamp s <> None /\
  match x with
  | NewSentence _ p tr _ => s_punct s = p /\ s_truth s = tr
  | _ => carries (s_punct s) = true <-> s_truth s <> None
  end.
Proof.
  intros c w x w1 s M NC H Hs. destruct (step_asked _ _ _ _ H M) as [s' [Hs' A]].
  rewrite Hs' in Hs. injection Hs as ->.
  assert (St : forall st, stamp_asked w1 st (s_stamp s) -> s_stamp s <> None).
  { intros st K. destruct st; cbn in K; [congruence|]. destruct K as (a & b & K & _). congruence. }
  assert (Tr : forall tr v, truth_asked w1 tr v (s_truth s) -> s_truth s <> None).
  { intros tr v K. destruct tr; cbn in K; [congruence|]. destruct K as (a & K & _). congruence. }
  destruct x; try discriminate; cbn in A; try destruct A as (A0 & A1 & A2 & A3);
    try (destruct (NC a) as (N1 & N2 & N3); congruence).
  - split; eauto.
  - split; eauto. rewrite A1. cbn. split; eauto.
  - split; eauto. rewrite A1, A2. cbn. split; congruence.
  - split; eauto. rewrite A1. cbn. split; eauto.
  - split; eauto. rewrite A1, A2. cbn. split; congruence.
Qed.

Lemma kinds_careful : forall m l w, run (start m) l = Ok w -> Forall careful (map snd l) ->
  forall n s, look w n = Ok s -> s_stamp s <> None /\ (carries (s_punct s) = true <-> s_truth s <> None).
Proof.
  intros m l w H A n s Hs. apply look_ok in Hs.
  refine (good_run (fun s => s_stamp s <> None /\ (carries (s_punct s) = true <-> s_truth s <> None)) careful _ _ _ _ l (start m) w A _ H n s Hs).
  - clear. intros c w x w1 s C M NC H Hs. destruct (made_kind _ _ _ _ _ M NC H Hs) as [K1 K2]. split; [exact K1|].
    destruct x; auto. destruct K2 as [-> ->]. exact C.
  - clear. intros s d [K1 K2]. now split.
  - clear. intros a C. exact C.
  - clear. intros s a p K [C|C]; destruct C.
  - intros n' s' K. discriminate.
Qed.

Lemma kinds_replacing : forall m l w, run (start m) l = Ok w -> Forall replacing (map snd l) ->
  forall n s, look w n = Ok s -> s_stamp s <> None /\ (carries (s_punct s) = true -> s_truth s <> None).
Proof.
  intros m l w H A n s Hs. apply look_ok in Hs.
  refine (good_run (fun s => s_stamp s <> None /\ (carries (s_punct s) = true -> s_truth s <> None)) replacing _ _ _ _ l (start m) w A _ H n s Hs).
  - clear. intros c w x w1 s C M NC H Hs. destruct (made_kind _ _ _ _ _ M NC H Hs) as [K1 K2]. split; [exact K1|].
    destruct x; try (now apply K2); auto. destruct K2 as [-> ->]. exact C.
  - clear. intros s d [K1 K2]. now split.
  - clear. intros a C. exact C.
  - clear. intros s a p [K1 K2] C. split; [exact K1|]. cbn. intros _. now destruct C.
  - intros n' s' K. discriminate.
Qed.
