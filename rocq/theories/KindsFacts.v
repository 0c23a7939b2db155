From Coq Require Import ZArith List Bool Lia.
From Verif Require Import Base Float Truth Maps MapsFacts Kinds KindsSpec.
From Verif Require Evidence Actions.
Import ListNotations.
Local Open Scope nat_scope.

Lemma run_app : forall l1 l2 w,
  run w (l1 ++ l2) = bind (run w l1) (fun w => run w l2).
Proof.
  induction l1 as [|[c x] l1 IH]; intros l2 w; [reflexivity|].
  cbn. destruct (step c w x); cbn; auto.
Qed.

Lemma makings_app : forall l1 l2, makings (l1 ++ l2) = makings l1 ++ makings l2.
Proof. intros. unfold makings. now rewrite map_app, filter_app. Qed.

Lemma makings_one : forall c x, makings [(c, x)] = if makes x then [x] else [].
Proof. intros. unfold makings. cbn. now destruct (makes x). Qed.

Lemma nth_makings : forall l l2 n x, nth_error (makings l) n = Some x -> nth_error (makings (l ++ l2)) n = Some x.
Proof.
  intros. rewrite makings_app, nth_error_app1; auto.
  apply nth_error_Some. congruence.
Qed.

Lemma nth_makings_back : forall l l2 n x, n < length (makings l) ->
  nth_error (makings (l ++ l2)) n = Some x -> nth_error (makings l) n = Some x.
Proof. intros. now rewrite makings_app, nth_error_app1 in H0. Qed.

Lemma comes_more : forall l l2 n r, comes_from l n r -> comes_from (l ++ l2) n r.
Proof.
  intros l l2 n r H. induction H.
  - eapply Made, nth_makings; eauto.
  - eapply Copied; eauto using nth_makings.
  - eapply Moved; eauto using nth_makings.
Qed.

Lemma comes_back : forall l l2 n r, comes_from (l ++ l2) n r -> n < length (makings l) -> comes_from l n r.
Proof.
  intros l l2 n r H. induction H; intros Hn.
  - eapply Made, nth_makings_back; eauto.
  - eapply Copied; eauto using nth_makings_back. apply IHcomes_from. lia.
  - eapply Moved; eauto using nth_makings_back. apply IHcomes_from. lia.
Qed.

Lemma comes_bound : forall l n r, comes_from l n r -> n < length (makings l).
Proof. intros l n r H. destruct H; apply nth_error_Some; congruence. Qed.

Lemma comes_least : forall l n r, comes_from l n r -> r <= n.
Proof. intros l n r H. induction H; lia. Qed.

Lemma comes_one : forall l n r, comes_from l n r -> forall r', comes_from l n r' -> r = r'.
Proof.
  intros l n r H. induction H; intros r' H'; inversion H'; subst; try congruence.
  - apply IHcomes_from. replace m with m0; auto. congruence.
  - apply IHcomes_from. replace m with m0; auto. congruence.
Qed.

Definition bound (l : list (config * op)) (n : nat) (s : sentence) : Prop :=
  match s_desire s with
  | Some r => comes_from l n r
  | None => forall r, ~ comes_from l n r
  end.

Record fine (l : list (config * op)) (w : world) : Prop := Fine {
  fine_count : count w = length (makings l);
  fine_alive : forall n, living l n <-> exists s, lookup Nat.eqb n (alive w) = Some s;
  fine_bound : forall n s, lookup Nat.eqb n (alive w) = Some s -> bound l n s;
  fine_deleted : forall n, In (Delete n) (map snd l) -> n < length (makings l)
}.

Lemma fine_start : forall m, fine [] (start m).
Proof.
  intros m. constructor; cbn; auto.
  - intros n. split; [intros [H _]; cbn in H; lia|intros [s H]; discriminate].
  - discriminate.
  - contradiction.
Qed.

Lemma look_ok : forall w a s, look w a = Ok s <-> lookup Nat.eqb a (alive w) = Some s.
Proof. intros. unfold look. destruct (lookup Nat.eqb a (alive w)); split; congruence. Qed.

Lemma bound_more : forall l y n s, n < length (makings l) -> bound l n s -> bound (l ++ [y]) n s.
Proof.
  intros l y n s Hn H. unfold bound in *. destruct (s_desire s).
  - now apply comes_more.
  - intros r Hr. apply (H r). eapply comes_back; eauto.
Qed.

Lemma bound_less : forall l y n s, n < length (makings l) -> bound (l ++ [y]) n s -> bound l n s.
Proof.
  intros l y n s Hn H. unfold bound in *. destruct (s_desire s).
  - eapply comes_back; eauto.
  - intros r Hr. apply (H r). now apply comes_more.
Qed.

(* a sentence is added *)
Lemma fine_place : forall l w c x w1 s,
  fine l w -> makes x = true ->
  count w1 = count w ->
  (forall n, n <> count w -> forall s, lookup Nat.eqb n (alive w1) = Some s ->
     exists s', lookup Nat.eqb n (alive w) = Some s' /\ s_desire s' = s_desire s) ->
  (forall n s, lookup Nat.eqb n (alive w) = Some s -> exists s', lookup Nat.eqb n (alive w1) = Some s') ->
  bound (l ++ [(c, x)]) (count w) s ->
  fine (l ++ [(c, x)]) (place (w1, s)).
Proof.
  intros l w c x w1 s F Hx Hc Hback Hforth Hb.
  assert (Hlen : length (makings (l ++ [(c, x)])) = S (count w)).
  { rewrite makings_app, makings_one, Hx, app_length, (fine_count _ _ F). cbn. lia. }
  constructor; cbn [place count alive].
  - lia.
  - intros n. cbn [lookup]. rewrite Hc. destruct (Nat.eqb_spec n (count w)) as [->|Hn].
    + split; [eauto|]. intros _. split; [lia|].
      rewrite map_app, in_app_iff. intros [H|[H|[]]].
      * apply (fine_deleted _ _ F) in H. rewrite (fine_count _ _ F) in H. lia.
      * cbn in H. subst x. discriminate.
    + split.
      * intros [H1 H2].
        destruct (proj1 (fine_alive _ _ F n)) as [s' Hs'].
        { split; [rewrite <- (fine_count _ _ F); lia|].
          intros H. apply H2. rewrite map_app, in_app_iff. now left. }
        eauto.
      * intros [s' Hs']. destruct (Hback n Hn s' Hs') as [s2 [H2 _]].
        destruct (proj2 (fine_alive _ _ F n)) as [H3 H4]; [eauto|].
        split; [rewrite <- (fine_count _ _ F) in H3; lia|].
        rewrite map_app, in_app_iff. intros [H|[H|[]]]; [auto|].
        cbn in H. subst x. discriminate.
  - intros n s' H. cbn [lookup] in H. rewrite Hc in H. destruct (Nat.eqb_spec n (count w)) as [->|Hn].
    + now injection H as <-.
    + destruct (Hback n Hn s' H) as [s2 [H2 E]].
      assert (n < length (makings l)) by (apply (fine_alive _ _ F); eauto).
      assert (B := bound_more l (c, x) n s2 H0 (fine_bound _ _ F _ _ H2)).
      unfold bound in *. now rewrite <- E.
  - intros n H. rewrite map_app, in_app_iff in H. destruct H as [H|[H|[]]].
    + apply (fine_deleted _ _ F) in H. rewrite (fine_count _ _ F) in Hlen. lia.
    + cbn in H. subst x. discriminate.
Qed.

(* sentences are written *)
Lemma fine_same : forall l w c x w1,
  fine l w -> makes x = false -> (forall a, x <> Delete a) ->
  count w1 = count w ->
  (forall n s, lookup Nat.eqb n (alive w1) = Some s ->
     exists s', lookup Nat.eqb n (alive w) = Some s' /\ s_desire s' = s_desire s) ->
  (forall n s, lookup Nat.eqb n (alive w) = Some s -> exists s', lookup Nat.eqb n (alive w1) = Some s') ->
  fine (l ++ [(c, x)]) w1.
Proof.
  intros l w c x w1 F Hx Hd Hc Hback Hforth.
  assert (Hm : makings (l ++ [(c, x)]) = makings l).
  { now rewrite makings_app, makings_one, Hx, app_nil_r. }
  assert (Hin : forall n, In (Delete n) (map snd (l ++ [(c, x)])) <-> In (Delete n) (map snd l)).
  { intros n. rewrite map_app, in_app_iff. cbn. split; [intros [H|[H|[]]]; [auto|now apply Hd in H]|auto]. }
  constructor.
  - rewrite Hm, Hc. apply F.
  - intros n. unfold living. rewrite Hm, Hin. fold (living l n). rewrite (fine_alive _ _ F n). split; intros [s H].
    + eauto.
    + destruct (Hback n s H) as [s' [H' _]]. eauto.
  - intros n s H. destruct (Hback n s H) as [s2 [H2 E]].
    assert (n < length (makings l)) by (apply (fine_alive _ _ F); eauto).
    assert (B := bound_more l (c, x) n s2 H0 (fine_bound _ _ F _ _ H2)).
    unfold bound in *. now rewrite <- E.
  - intros n H. apply Hin in H. rewrite Hm. now apply (fine_deleted _ _ F).
Qed.

Lemma put_back : forall w a s t, lookup Nat.eqb a (alive w) = Some t -> s_desire t = s_desire s ->
  forall n s1, lookup Nat.eqb n (alive (put w a s)) = Some s1 ->
  exists s', lookup Nat.eqb n (alive w) = Some s' /\ s_desire s' = s_desire s1.
Proof.
  intros w a s t Ht E n s1 H. unfold put in H. cbn [alive] in H. destruct (Nat.eq_dec n a) as [->|Hn].
  - rewrite (lookup_set_same Nat.eqb Nat.eqb_eq) in H. injection H as <-. eauto.
  - rewrite (lookup_set_other Nat.eqb Nat.eqb_eq) in H; eauto.
Qed.

Lemma put_forth : forall w a s n s1, lookup Nat.eqb n (alive w) = Some s1 ->
  exists s', lookup Nat.eqb n (alive (put w a s)) = Some s'.
Proof.
  intros w a s n s1 H. unfold put. cbn [alive]. destruct (Nat.eq_dec n a) as [->|Hn].
  - rewrite (lookup_set_same Nat.eqb Nat.eqb_eq). eauto.
  - rewrite (lookup_set_other Nat.eqb Nat.eqb_eq); eauto.
Qed.

Lemma base_facts : forall w t p tr st w1 s, base w t p tr st = (w1, s) ->
  count w1 = count w /\ alive w1 = alive w /\ s_desire s = None /\ s_term s = t /\ s_punct s = p /\ s_truth s = tr /\ s_stamp s <> None.
Proof.
  intros w t p tr st w1 s H. unfold base in H. destruct st.
  - injection H as <- <-. cbn. repeat split; congruence.
  - unfold new_stamp in H. destruct (Evidence.stamp_bool (memory w) true). injection H as <- <-. cbn. repeat split; congruence.
Qed.

Lemma truth_facts : forall w s v w1 s1, with_truth w s v = (w1, s1) ->
  count w1 = count w /\ alive w1 = alive w /\ s_desire s1 = s_desire s /\ s_term s1 = s_term s /\ s_punct s1 = s_punct s /\ s_truth s1 <> None /\ s_stamp s1 = s_stamp s.
Proof.
  intros w s v w1 s1 H. unfold with_truth in H. destruct (s_truth s) eqn:E.
  - injection H as <- <-. repeat split; congruence.
  - cbn in H. injection H as <- <-. cbn. repeat split; congruence.
Qed.

Lemma nth_new : forall l c x, makes x = true -> nth_error (makings (l ++ [(c, x)])) (length (makings l)) = Some x.
Proof.
  intros l c x Hx. rewrite makings_app, makings_one, Hx, nth_error_app2, Nat.sub_diag; auto.
Qed.

(* a new sentence that is no goal *)
Lemma bound_none : forall l c x s, makes x = true -> s_desire s = None ->
  (forall t tr st, x <> NewGoal t tr st) -> (forall a, x <> Copy a /\ x <> Move a) ->
  bound (l ++ [(c, x)]) (length (makings l)) s.
Proof.
  intros l c x s Hx E Hg Hc. unfold bound. rewrite E. intros r H.
  assert (N := nth_new l c x Hx).
  inversion H; subst; rewrite N in H0; injection H0 as H0.
  - now apply Hg in H0.
  - now apply Hc in H0.
  - now apply Hc in H0.
Qed.

Lemma bound_copy : forall l c x a s s1, makes x = true -> (x = Copy a \/ x = Move a) -> a < length (makings l) ->
  bound l a s -> s_desire s1 = s_desire s ->
  bound (l ++ [(c, x)]) (length (makings l)) s1.
Proof.
  intros l c x a s s1 Hx Ex Ha B E. unfold bound in *. rewrite E.
  assert (N := nth_new l c x Hx).
  destruct (s_desire s) as [r|].
  - destruct Ex; subst x; [eapply Copied|eapply Moved]; eauto using comes_more.
  - intros r H. apply (B r).
    inversion H; subst; rewrite N in H0; injection H0 as H0; subst.
    + destruct Ex; discriminate.
    + destruct Ex as [Ex|Ex]; [injection Ex as ->|discriminate]. eapply comes_back; eauto.
    + destruct Ex as [Ex|Ex]; [discriminate|injection Ex as ->]. eapply comes_back; eauto.
Qed.

Lemma fine_new : forall l w c x w1 s, fine l w -> makes x = true -> count w1 = count w -> alive w1 = alive w ->
  bound (l ++ [(c, x)]) (count w) s -> fine (l ++ [(c, x)]) (place (w1, s)).
Proof.
  intros l w c x w1 s F Hx Hc Ha B. apply (fine_place l w c x w1 s F Hx Hc); auto.
  - intros n _ s' H. rewrite Ha in H. eauto.
  - intros n s' H. rewrite Ha. eauto.
Qed.

Lemma fine_step : forall l w c x w1, fine l w -> step c w x = Ok w1 -> fine (l ++ [(c, x)]) w1.
Proof.
  intros l w c x w1 F H. assert (K := fine_count _ _ F). destruct x; cbn [step] in H.
  - injection H as <-. destruct (base w t p tr st) as [w2 s] eqn:E. apply base_facts in E as (E1 & E2 & E3 & _).
    apply (fine_new l w); auto. rewrite K. apply bound_none; auto; try discriminate; now split.
  - destruct (base w t Actions.Judgement tr st) as [w2 s] eqn:E. apply base_facts in E as (E1 & E2 & E3 & _).
    injection H as <-. destruct (with_truth w2 s _) as [w3 s3] eqn:E4. apply truth_facts in E4 as (T1 & T2 & T3 & _).
    apply (fine_new l w); auto; try congruence. rewrite K. apply bound_none; auto; try discriminate; try congruence; now split.
  - injection H as <-. destruct (base w t _ _ st) as [w2 s] eqn:E. apply base_facts in E as (E1 & E2 & E3 & _).
    apply (fine_new l w); auto. rewrite K. apply bound_none; auto; try discriminate; now split.
  - destruct (base w t Actions.Goal tr st) as [w2 s] eqn:E. apply base_facts in E as (E1 & E2 & E3 & _).
    cbv zeta in H. injection H as <-. destruct (with_truth w2 _ _) as [w3 s3] eqn:E4. apply truth_facts in E4 as (T1 & T2 & T3 & _).
    apply (fine_new l w); auto; try congruence. cbn [s_desire] in T3. unfold bound. rewrite T3, E1, K.
    eapply Made, nth_new; reflexivity.
  - injection H as <-. destruct (base w t _ _ st) as [w2 s] eqn:E. apply base_facts in E as (E1 & E2 & E3 & _).
    apply (fine_new l w); auto. rewrite K. apply bound_none; auto; try discriminate; now split.
  - destruct (look w a) as [s| | |] eqn:E; try discriminate. injection H as <-. apply look_ok in E.
    apply (fine_new l w); auto. rewrite K. eapply bound_copy; eauto.
    + apply (fine_alive _ _ F). eauto.
    + now apply (fine_bound _ _ F).
  - destruct (look w a) as [s| | |] eqn:E; try discriminate. injection H as <-. apply look_ok in E.
    change (fine (l ++ [(c, Move a)]) (place (put w a (Sentence (s_term s) None None (s_punct s) (s_desire s)), s))).
    apply (fine_place l w); auto.
    + intros n _ s1 Hs. eapply put_back; [exact E| |exact Hs]; reflexivity.
    + intros n s1 Hs. eapply put_forth; eauto.
    + rewrite K. eapply bound_copy; eauto.
      * apply (fine_alive _ _ F). eauto.
      * now apply (fine_bound _ _ F).
  - destruct (look w a) as [s| | |] eqn:E; try discriminate. injection H as <-.
    apply (fine_new l w); auto. rewrite K. apply bound_none; auto; try discriminate; now split.
  - destruct (look w a) as [s| | |] eqn:E; try discriminate. destruct (look w b) as [t| | |] eqn:E'; try discriminate.
    injection H as <-. apply look_ok in E.
    apply (fine_same l w); auto; try discriminate.
    + intros n s1 Hs. eapply put_back; [exact E| |exact Hs]; reflexivity.
    + intros n s1 Hs. eapply put_forth; eauto.
  - destruct (look w a) as [s| | |] eqn:E; try discriminate. injection H as <-. apply look_ok in E.
    apply (fine_same l w); auto; try discriminate.
    + intros n s1 Hs. eapply put_back; [exact E| |exact Hs]; reflexivity.
    + intros n s1 Hs. eapply put_forth; eauto.
  - destruct (look w a) as [s| | |] eqn:E; try discriminate. cbn [bind] in H.
    destruct (s_desire s) as [r|]; try discriminate.
    destruct (look w r) as [t| | |] eqn:E'; try discriminate. injection H as <-. apply look_ok in E'.
    apply (fine_same l w); auto; try discriminate.
    + intros n s1 Hs. eapply put_back; [exact E'| |exact Hs]; reflexivity.
    + intros n s1 Hs. eapply put_forth; eauto.
  - destruct (look w a) as [s| | |] eqn:E; try discriminate. injection H as <-. apply look_ok in E.
    assert (Hm : makings (l ++ [(c, Delete a)]) = makings l).
    { now rewrite makings_app, makings_one, app_nil_r. }
    assert (Ha : a < length (makings l)) by (apply (fine_alive _ _ F); eauto).
    constructor; cbn [count alive].
    + now rewrite Hm.
    + intros n. unfold living. rewrite Hm, map_app, in_app_iff. cbn.
      destruct (Nat.eq_dec n a) as [->|Hn].
      * rewrite (lookup_unset_same Nat.eqb). split; [intros [_ H]; exfalso; apply H; auto|intros [? ?]; discriminate].
      * rewrite (lookup_unset_other Nat.eqb Nat.eqb_eq); auto. rewrite <- (fine_alive _ _ F n). unfold living.
        split; intros [H1 H2]; (split; [auto|]); intros H3; apply H2; auto.
        destruct H3 as [H3|[H3|[]]]; auto. congruence.
    + intros n s1 H. destruct (Nat.eq_dec n a) as [->|Hn].
      * now rewrite (lookup_unset_same Nat.eqb) in H.
      * rewrite (lookup_unset_other Nat.eqb Nat.eqb_eq) in H; auto.
        apply bound_more; [apply (fine_alive _ _ F); eauto|now apply (fine_bound _ _ F)].
    + intros n H. rewrite map_app, in_app_iff in H. rewrite Hm. destruct H as [H|[H|[]]].
      * now apply (fine_deleted _ _ F).
      * cbn in H. now injection H as ->.
Qed.

Lemma fine_run : forall m l w, run (start m) l = Ok w -> fine l w.
Proof.
  intros m l. induction l as [|[c x] l IH] using rev_ind; intros w H.
  - injection H as <-. apply fine_start.
  - rewrite run_app in H. destruct (run (start m) l) as [w0| | |] eqn:E; try discriminate.
    cbn in H. destruct (step c w0 x) as [w1| | |] eqn:E1; try discriminate. injection H as <-.
    eapply fine_step; eauto.
Qed.

Lemma desire_exact : forall m l w, run (start m) l = Ok w -> forall n, living l n ->
  (forall r, comes_from l n r ->
     (living l r -> exists p, read_truth w r = Ok p /\ read_desire w n = Ok p) /\
     (~ living l r -> read_desire w n = UB)) /\
  ((forall r, ~ comes_from l n r) -> read_desire w n = UB).
Proof.
  intros m l w H n Hn. apply fine_run in H as F.
  apply (fine_alive _ _ F) in Hn as [s Hs]. assert (B := fine_bound _ _ F _ _ Hs).
  unfold read_desire. rewrite (proj2 (look_ok w n s) Hs). cbn. unfold bound in B.
  destruct (s_desire s) as [r0|].
  - split.
    + intros r Hr. rewrite (comes_one _ _ _ B _ Hr) in *. split.
      * intros Hl. apply (fine_alive _ _ F) in Hl as [s' Hs']. unfold read_truth.
        rewrite (proj2 (look_ok w r s') Hs'). cbn. eauto.
      * intros Hl. unfold read_truth, look. destruct (lookup Nat.eqb r (alive w)) eqn:E; [|reflexivity].
        exfalso. apply Hl, (fine_alive _ _ F). eauto.
    + intros Hno. now apply Hno in B.
  - split; [intros r Hr; now apply B in Hr|reflexivity].
Qed.

Lemma desire_own : forall m l w, run (start m) l = Ok w ->
  forall n t tr st, living l n -> nth_error (makings l) n = Some (NewGoal t tr st) ->
  exists p, read_truth w n = Ok p /\ read_desire w n = Ok p.
Proof.
  intros m l w H n t tr st Hn Hg.
  destruct (desire_exact m l w H n Hn) as [D _].
  destruct (D n (Made l n t tr st Hg)) as [D1 _]. auto.
Qed.
