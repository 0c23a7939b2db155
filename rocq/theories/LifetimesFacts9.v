(* What index lists hold: objects no pointer leads to are left alone, and
   building collects the indices of the components. *)
From Coq Require Import String ZArith List Bool Arith Lia.
From Verif Require Import Base Lifetimes LifetimesSpec LifetimesFacts LifetimesFacts2 LifetimesFacts3 LifetimesFacts4 LifetimesFacts7.
Import ListNotations.

Lemma has_same : forall m n b b', has_body m n b -> has_body m n b' -> b = b'.
Proof. intros m n b b' (s & E & B) (s' & E' & B'). rewrite E in E'. injection E' as <-. congruence. Qed.

Lemma term_at_has : forall m n c f s p t x y z, term_at m n = Ok (c, f, s, p, t, (x, y, z)) -> has_body m n (BTerm c f s p t x y z).
Proof.
  intros m n c f s p t x y z E. unfold term_at in E. step E b Q. destruct b; try discriminate. injection E as <- <- <- <- <- <- <- <-.
  apply body_has. assumption.
Qed.

(* ---- memory grows ---- *)
Lemma each_len : forall f l m m', (forall m n m', f m n = Ok m' -> length m <= length m') -> each f m l = Ok m' -> length m <= length m'.
Proof.
  intros f l. induction l as [|n l IH]; intros m m' F E; simpl in E; [injection E as <-; lia|].
  step E m1 Q. pose proof (F _ _ _ Q). pose proof (IH _ _ F E). lia.
Qed.

Lemma write_len : forall m n b m', write m n b = Ok m' -> length m <= length m'.
Proof. intros m n b m' E. unfold write in E. step E s Q. injection E as <-. rewrite set_nth_length. lia. Qed.

Lemma connect_len : forall m a b m', connect false m a b = Ok m' -> length m <= length m'.
Proof.
  intros m a b m' E. unfold connect in E. step E bd Q. destruct bd as [| |x i s k| |]; try discriminate. step E m1 W. step E m2 D. step E m3 A.
  pose proof (write_len _ _ _ _ W). pose proof (write_len _ _ _ _ E). pose proof (f_len _ _ _ _ (drop_all_firm _ _ _ D)).
  pose proof (f_len _ _ _ _ (acquire_firm _ _ _ A)). lia.
Qed.

Lemma join_len : forall l m v m', join_lists false m v l = Ok m' -> length m <= length m'.
Proof.
  intros l m [[a b] c] m' E. unfold join_lists in E. eapply each_len; [|exact E]. intros m1 n m2 E1. cbv beta in E1. step E1 s Q. step E1 m3 C1. step E1 m4 C2.
  pose proof (connect_len _ _ _ _ C1). pose proof (connect_len _ _ _ _ C2). pose proof (connect_len _ _ _ _ E1). lia.
Qed.

Lemma new_lists_len : forall m m' v, new_lists m = (m', v) -> length m <= length m'.
Proof. intros m m' [[a b] c] E. destruct (new_lists_made _ _ _ _ _ E) as (F & _). exact (f_len _ _ _ _ F). Qed.

Lemma fill_len : forall choose m l m' t, fill false choose m l = Ok (m', t) -> length m <= length m'.
Proof.
  intros choose m l m' t E. unfold fill in E. step E m1 D. injection E as <- _. rewrite app_length. pose proof (f_len _ _ _ _ (drop_all_firm _ _ _ D)). lia.
Qed.

Definition longer (cl : mem -> nat -> res (mem * nat)) : Prop := forall m n m' r, cl m n = Ok (m', r) -> length m <= length m'.

Lemma clones_len : forall cl l m m' rs, longer cl -> clones cl m l = Ok (m', rs) -> length m <= length m'.
Proof.
  intros cl l. induction l as [|n l IH]; intros m m' rs F E; simpl in E; [injection E as <- <-; lia|].
  step E r Q. step E r' Q'. injection E as <- <-. destruct r, r'. simpl fst in *. pose proof (F _ _ _ _ Q). pose proof (IH _ _ _ F Q'). simpl. lia.
Qed.

Lemma copy_variable_len : forall m c f v m' r, copy_variable m c f v = Ok (m', r) -> length m <= length m'.
Proof.
  intros m c f [[x y] z] m' r E. unfold copy_variable in E. step E r1 E1. step E r2 E2. step E r3 E3. injection E as <- _.
  destruct (copy_list_made _ _ _ E1) as (F1 & _). destruct (copy_list_made _ _ _ E2) as (F2 & _). destruct (copy_list_made _ _ _ E3) as (F3 & _).
  pose proof (f_len _ _ _ _ F1). pose proof (f_len _ _ _ _ F2). pose proof (f_len _ _ _ _ F3). rewrite app_length. lia.
Qed.

Lemma statement_copy_len : forall cl m f s p m' r, longer cl -> statement_copy false cl m f s p = Ok (m', r) -> length m <= length m'.
Proof.
  intros cl m f s p m' r C E. unfold statement_copy in E. destruct (new_lists m) as [m1 [[a b] c]] eqn:N. step E r1 E1. step E r2 E2. step E m3 J. step E m4 B.
  injection E as <- _. destruct r1, r2. simpl fst in *. pose proof (C _ _ _ _ E1). pose proof (C _ _ _ _ E2). pose proof (join_len _ _ _ _ J).
  pose proof (f_len _ _ _ _ (build_lists_firm _ _ _ _ B)). pose proof (new_lists_len _ _ _ N). rewrite app_length. simpl in *. lia.
Qed.

Lemma compound_copy_len : forall choose cl m f t m' r, longer cl -> compound_copy false choose cl m f t = Ok (m', r) -> length m <= length m'.
Proof.
  intros choose cl m f t m' r C E. unfold compound_copy in E. destruct (new_lists m) as [m1 [[a b] c]] eqn:N. step E r0 E0. step E l E1. step E m3 J. step E m4 B.
  injection E as <- _. destruct r0 as [m2 t']. simpl fst in *. pose proof (join_len _ _ _ _ J).
  pose proof (f_len _ _ _ _ (build_lists_firm _ _ _ _ B)). pose proof (new_lists_len _ _ _ N). rewrite app_length.
  assert (length m1 <= length m2); [|simpl in *; lia]. destruct (f_var f).
  - step E0 l0 Q. step E0 r1 Q1. destruct r1. simpl in *. pose proof (clones_len _ _ _ _ _ C Q1). pose proof (fill_len _ _ _ _ _ E0). lia.
  - step E0 m5 Q. injection E0 as <- _. exact (f_len _ _ _ _ (acquire_firm _ _ _ Q)).
Qed.

Lemma clone_len : forall choose fuel, longer (clone false choose fuel).
Proof.
  intros choose. induction fuel as [|fuel IH]; intros m n m' r E; [discriminate|]. simpl in E. step E q Q.
  destruct q as [[[[[c f] s] p] t] v]. destruct (f_var f).
  - destruct c; try discriminate.
    + eapply copy_variable_len; exact E.
    + destruct s, p; try discriminate. eapply statement_copy_len; eassumption.
    + destruct s, p, t; try discriminate; eapply compound_copy_len; eassumption.
  - step E m1 A. injection E as <- _. exact (f_len _ _ _ _ (acquire_firm _ _ _ A)).
Qed.

(* ---- objects no pointer leads to ---- *)
Section Avoid.
Variable P : nat -> Prop.

Definition free (l : list nat) : Prop := forall r, In r l -> ~ P r.
Definition avoid (m : mem) : Prop := forall n s, nth_error m n = Some s -> free (refs (s_body s)).
(* What is new from m to m' is not meant. *)
Definition spare (m m' : mem) : Prop := forall k, length m <= k -> k < length m' -> ~ P k.
Definition calm (m m' : mem) : Prop := avoid m' /\ forall q b, P q -> has_body m q b -> has_body m' q b.

Lemma calm_trans : forall a b c, calm a b -> (avoid b -> calm b c) -> calm a c.
Proof. intros a b c [A1 A2] B. destruct (B A1) as [B1 B2]. split; auto. Qed.
Lemma calm_refl : forall m, avoid m -> calm m m.
Proof. intros m A. split; auto. Qed.
Lemma spare_mid : forall a b c d, spare a d -> length a <= length b -> length c <= length d -> spare b c.
Proof. intros a b c d F L1 L2 k K1 K2. apply F; lia. Qed.
Lemma free_incl : forall l l', incl l' l -> free l -> free l'.
Proof. intros l l' I F r J. apply F, I, J. Qed.

Lemma body_free : forall m n b, avoid m -> body_at m n = Ok b -> free (refs b).
Proof. intros m n b A E. apply body_inv in E. destruct E as (s & E & L & <-). eapply A; eassumption. Qed.

Lemma alloc_calm : forall m b, avoid m -> free (refs b) -> calm m (fst (alloc m b)).
Proof.
  intros m b A F. split.
  - intros n s E. simpl in E. destruct (Nat.lt_ge_cases n (length m)) as [Lt|Ge].
    + rewrite nth_error_app1 in E by assumption. eapply A; eassumption.
    + rewrite nth_error_app2 in E by assumption. destruct (n - length m) as [|k]; [|destruct k; discriminate]. injection E as <-. exact F.
  - intros q b' _ B. apply alloc_has. assumption.
Qed.

Lemma set_calm : forall m n s s', avoid m -> nth_error m n = Some s -> free (refs (s_body s')) ->
  (~ P n \/ s_body s' = s_body s) -> calm m (set_nth n s' m).
Proof.
  intros m n s s' A E F C. split.
  - intros k x Ek. destruct (Nat.eq_dec n k) as [->|N].
    + rewrite (set_nth_same _ _ _ _ _ E) in Ek. injection Ek as <-. auto.
    + rewrite set_nth_other in Ek by assumption. eapply A; eassumption.
  - intros q b Pq (x & Ex & Bx). destruct (Nat.eq_dec n q) as [->|N].
    + destruct C as [C|C]; [contradiction|]. rewrite E in Ex. injection Ex as <-. exists s'. split; [eapply set_nth_same; eassumption|congruence].
    + exists x. rewrite set_nth_other by assumption. auto.
Qed.

Lemma acquire_calm : forall m n m', avoid m -> acquire m n = Ok m' -> calm m m'.
Proof.
  intros m n m' A E. unfold acquire in E. step E s Q. injection E as <-. apply look_inv in Q. destruct Q as [E _].
  eapply set_calm; [assumption|eassumption| |right; reflexivity]. simpl. eapply A; eassumption.
Qed.

Lemma acquire_all_calm : forall l m m', avoid m -> acquire_all m l = Ok m' -> calm m m'.
Proof.
  induction l as [|n l IH]; intros m m' A E; simpl in E; [injection E as <-; apply calm_refl; assumption|].
  step E m1 Q. eapply calm_trans; [eapply acquire_calm; eassumption|eauto].
Qed.

Lemma write_calm : forall m n b m', avoid m -> ~ P n -> free (refs b) -> write m n b = Ok m' -> calm m m'.
Proof.
  intros m n b m' A N F E. unfold write in E. step E s Q. injection E as <-. apply look_inv in Q. destruct Q as [E _].
  eapply set_calm; [assumption|eassumption|exact F|left; assumption].
Qed.

Lemma write_avoid : forall m n b m', avoid m -> free (refs b) -> write m n b = Ok m' -> avoid m'.
Proof.
  intros m n b m' A F E. unfold write in E. step E s Q. injection E as <-. apply look_inv in Q. destruct Q as [E L].
  intros k x Ek. destruct (Nat.eq_dec n k) as [->|N].
  - rewrite (set_nth_same _ _ _ _ _ E) in Ek. injection Ek as <-. auto.
  - rewrite set_nth_other in Ek by assumption. eapply A; eassumption.
Qed.

Lemma each_calm : forall f l, (forall m n m', f m n = Ok m' -> length m <= length m') ->
  (forall m n m', In n l -> f m n = Ok m' -> avoid m -> spare m m' -> calm m m') ->
  forall m m', each f m l = Ok m' -> avoid m -> spare m m' -> calm m m'.
Proof.
  intros f l Le. induction l as [|n l IH]; intros F m m' E A Sp; simpl in E; [injection E as <-; apply calm_refl; assumption|].
  step E m1 Q. pose proof (Le _ _ _ Q). pose proof (each_len _ _ _ _ Le E).
  eapply calm_trans; [eapply F; [left; reflexivity|exact Q|exact A|eapply spare_mid; [exact Sp|lia|lia]]|].
  intros A1. apply IH; [intros; eapply F; eauto; right; assumption|assumption|assumption|eapply spare_mid; [exact Sp|lia|lia]].
Qed.

Lemma release_calm : forall fuel m n m', release false fuel m n = Ok m' -> avoid m -> calm m m'.
Proof.
  induction fuel as [|fuel IH]; intros m n m' E A; [discriminate|]. simpl in E. step E s Q. apply look_inv in Q. destruct Q as [En L].
  destruct (s_count s) as [|[|c]] eqn:Cn; [discriminate| |].
  - eapply calm_trans; [eapply (set_calm m n s (dead s)); [assumption|assumption|exact (A n s En)|right; reflexivity]|]. intros A1.
    revert E A1. generalize (rev (refs (s_body s))). generalize (set_nth n (dead s) m). intros m1 l. revert m1. clear -IH.
    induction l as [|k l IHl]; intros m1 E A1; simpl in E; [injection E as <-; apply calm_refl; assumption|].
    step E m2 Q. eapply calm_trans; [eapply IH; eassumption|]. intros A2. apply IHl; assumption.
  - injection E as <-. eapply set_calm; [assumption|eassumption| |right; reflexivity]. simpl. eapply A; eassumption.
Qed.

Lemma drop_all_calm : forall l m m', drop_all false m l = Ok m' -> avoid m -> calm m m'.
Proof.
  induction l as [|n l IH]; intros m m' E A; unfold drop_all in E; simpl in E; [injection E as <-; apply calm_refl; assumption|].
  step E m1 Q. eapply calm_trans; [eapply release_calm; eassumption|]. intros A1. apply IH; assumption.
Qed.

Lemma normalize_calm : forall m n m', normalize m n = Ok m' -> ~ P n -> avoid m -> spare m m' -> calm m m'.
Proof.
  intros m n m' E N A Sp. pose proof E as E0. unfold normalize in E. step E b Q. destruct b as [| |[v|] i s k| |]; try discriminate.
  - injection E as <-. apply calm_refl. assumption.
  - pose proof (body_free _ _ _ A Q) as F. pose proof (alloc_calm m BVector A (fun r (i : In r []) => match i with end)) as C.
    destruct (alloc m BVector) as [m1 v] eqn:Al. simpl fst in *. pose proof (write_len _ _ _ _ E) as Le.
    unfold alloc in Al. injection Al as Em <-. rewrite <- Em in Le. rewrite app_length in Le. simpl in Le.
    eapply calm_trans; [exact C|]. intros A1. eapply write_calm; [exact A1|exact N| |exact E].
    intros r [<-|I]; [apply Sp; lia|apply F; exact I].
Qed.

Lemma normalize_avoid : forall m n m', normalize m n = Ok m' -> avoid m -> spare m m' -> avoid m'.
Proof.
  intros m n m' E A Sp. pose proof E as E0. unfold normalize in E. step E b Q. destruct b as [| |[v|] i s k| |]; try discriminate.
  - injection E as <-. assumption.
  - pose proof (body_free _ _ _ A Q) as F. pose proof (alloc_calm m BVector A (fun r (i : In r []) => match i with end)) as C.
    destruct (alloc m BVector) as [m1 v] eqn:Al. simpl fst in *. pose proof (write_len _ _ _ _ E) as Le.
    unfold alloc in Al. injection Al as Em <-. rewrite <- Em in Le. rewrite app_length in Le. simpl in Le.
    eapply write_avoid; [exact (proj1 C)| |exact E].
    intros r [<-|I]; [apply Sp; lia|apply F; exact I].
Qed.

Lemma free_index : forall x i s k j, free (refs (BIndex x i s k)) -> free j -> free (refs (BIndex x (i ++ j) s k)).
Proof. intros x i s k j F J r I. simpl in I. rewrite !in_app_iff in I. destruct I as [I|[[I|I]|I]]; [| |apply J; assumption|]; apply F; simpl; rewrite !in_app_iff; auto. Qed.

Lemma build_calm : forall fuel m n m', build false fuel m n = Ok m' -> ~ P n -> avoid m -> spare m m' -> calm m m'.
Proof.
  induction fuel as [|fuel IH]; intros m n m' E N A Sp; [discriminate|]. simpl in E. step E b Q.
  destruct b as [| |x i s [|]| |]; try discriminate; [injection E as <-; apply calm_refl; assumption|]. pose proof (body_free _ _ _ A Q) as Fb.
  step E m1 W1. step E m2 D. step E m6 Lp. step E bn Q6. destruct bn as [| |x6 j6 t6 k6| |]; try discriminate. step E m7 W7.
  pose proof (write_len _ _ _ _ W1) as L1. pose proof (f_len _ _ _ _ (drop_all_firm _ _ _ D)) as L2. pose proof (write_len _ _ _ _ W7) as L7.
  pose proof (f_len _ _ _ _ (normalize_firm _ _ _ E)) as L8.
  match type of Lp with each ?f _ _ = _ => set (g := f) in * end.
  assert (Lg : forall m n m', g m n = Ok m' -> length m <= length m').
  { intros a k c Ek. unfold g in Ek. step Ek m4 B4. step Ek bs Qs. destruct bs; try discriminate. step Ek m5 A5. step Ek bn Qn. destruct bn; try discriminate.
    pose proof (f_len _ _ _ _ (build_firm _ _ _ _ B4)). pose proof (f_len _ _ _ _ (acquire_all_firm _ _ _ A5)). pose proof (write_len _ _ _ _ Ek). lia. }
  pose proof (each_len _ _ _ _ Lg Lp) as L6.
  eapply calm_trans; [eapply (write_calm m n); [exact A|exact N| |exact W1]|].
  { intros r I. apply Fb. simpl in *. rewrite !in_app_iff in *. destruct s; simpl in *; tauto. }
  intros A1. eapply calm_trans; [eapply drop_all_calm; eassumption|]. intros A2. eapply calm_trans; [eapply (each_calm g); [exact Lg| |exact Lp|exact A2|]|].
  - intros a k c Ik Ek Aa Sa. unfold g in Ek. step Ek m4 B4. step Ek bs Qs. destruct bs as [| |xs is ss ks| |]; try discriminate. step Ek m5 A5. step Ek bn Qn.
    destruct bn as [| |xn jn tn kn| |]; try discriminate.
    pose proof (f_len _ _ _ _ (build_firm _ _ _ _ B4)). pose proof (f_len _ _ _ _ (acquire_all_firm _ _ _ A5)). pose proof (write_len _ _ _ _ Ek).
    eapply calm_trans; [eapply IH; [exact B4| |exact Aa|]|].
    + apply Fb. simpl. rewrite !in_app_iff. auto.
    + eapply spare_mid; [exact Sa|lia|lia].
    + intros A4. pose proof (body_free _ _ _ A4 Qs) as Fs. eapply calm_trans; [eapply acquire_all_calm; eassumption|]. intros A5'.
      eapply write_calm; [exact A5'|exact N| |exact Ek]. apply free_index; [exact (body_free _ _ _ A5' Qn)|].
      intros r I. apply Fs. simpl. rewrite !in_app_iff. auto.
  - eapply spare_mid; [exact Sp|lia|lia].
  - intros A6. pose proof (body_free _ _ _ A6 Q6) as F6. eapply calm_trans; [exact (write_calm _ _ _ _ A6 N (F6 : free (refs (BIndex x6 j6 t6 true))) W7)|]. intros A7.
    eapply normalize_calm; [exact E|exact N|exact A7|eapply spare_mid; [exact Sp|lia|lia]].
Qed.

Lemma connect_calm : forall m a b m', connect false m a b = Ok m' -> ~ P a -> ~ P b -> avoid m -> calm m m'.
Proof.
  intros m a b m' E Na Nb A. unfold connect in E. step E bd Q. destruct bd as [| |x i s k| |]; try discriminate. step E m1 W. step E m2 D. step E m3 Aq.
  pose proof (body_free _ _ _ A Q) as F. eapply calm_trans; [eapply write_calm; [exact A|exact Na| |exact W]|].
  { intros r I. apply F. simpl in *. rewrite !in_app_iff in *. tauto. }
  intros A1. eapply calm_trans; [eapply drop_all_calm; eassumption|]. intros A2. eapply calm_trans; [eapply acquire_calm; eassumption|]. intros A3.
  eapply write_calm; [exact A3|exact Na| |exact E]. intros r I. simpl in I. rewrite !in_app_iff in I. destruct I as [I|[I|[<-|[]]]]; [| |exact Nb]; apply F; simpl; rewrite !in_app_iff; auto.
Qed.

Lemma connect_avoid : forall m a b m', connect false m a b = Ok m' -> ~ P b -> avoid m -> avoid m'.
Proof.
  intros m a b m' E Nb A. unfold connect in E. step E bd Q. destruct bd as [| |x i s k| |]; try discriminate. step E m1 W. step E m2 D. step E m3 Aq.
  pose proof (body_free _ _ _ A Q) as F. assert (A1 : avoid m1).
  { eapply write_avoid; [exact A| |exact W]. intros r I. apply F. simpl in *. rewrite !in_app_iff in *. tauto. }
  pose proof (proj1 (drop_all_calm _ _ _ D A1)) as A2. pose proof (proj1 (acquire_calm _ _ _ A2 Aq)) as A3.
  eapply write_avoid; [exact A3| |exact E]. intros r I. simpl in I. rewrite !in_app_iff in I. destruct I as [I|[I|[<-|[]]]]; [| |exact Nb]; apply F; simpl; rewrite !in_app_iff; auto.
Qed.

Lemma list_at_free : forall m t v, avoid m -> list_at m t = Ok v -> ~ P v.
Proof.
  intros m t v A E. unfold list_at, term_at in E. destruct (body_at m t) as [b| | |] eqn:Q; try discriminate. simpl in E. pose proof (body_free _ _ _ A Q) as F.
  destruct b as [c f a b l x y z| | | |]; try discriminate. simpl in E. injection E as <-. apply F. simpl. rewrite !in_app_iff. simpl. auto.
Qed.

Definition free3 (v : nat * nat * nat) : Prop := let '(a, b, c) := v in ~ P a /\ ~ P b /\ ~ P c.

Lemma join_calm : forall l m v m', join_lists false m v l = Ok m' -> free3 v -> avoid m -> calm m m'.
Proof.
  induction l as [|t l IH]; intros m [[a b] c] m' E V A; unfold join_lists in E; simpl in E; [injection E as <-; apply calm_refl; assumption|].
  step E m1 Q. step Q son Ls. step Q m2 C1. step Q m3 C2. destruct V as (Va & Vb & Vc). pose proof (list_at_free _ _ _ A Ls) as Ns.
  eapply calm_trans; [eapply connect_calm; [exact C1|exact Va|exact Ns|exact A]|]. intros A2.
  eapply calm_trans; [eapply connect_calm; [exact C2|exact Vb|exact Ns|exact A2]|]. intros A3.
  eapply calm_trans; [eapply connect_calm; [exact Q|exact Vc|exact Ns|exact A3]|]. intros A4.
  apply (IH m1 (a, b, c) m'); [exact E|simpl; auto|assumption].
Qed.

Lemma build_one_calm : forall m h n m', build_one false m h n = Ok m' -> ~ P n -> avoid m -> spare m m' -> calm m m'.
Proof.
  intros m h n m' E N A Sp. unfold build_one in E. destruct h; [eapply build_calm; eassumption|]. step E b Q. destruct b as [| |x i s k| |]; try discriminate.
  pose proof (body_free _ _ _ A Q) as F. exact (write_calm _ _ _ _ A N (F : free (refs (BIndex x i s true))) E).
Qed.

Lemma build_lists_calm : forall m v f m', build_lists false m v f = Ok m' -> free3 v -> avoid m -> spare m m' -> calm m m'.
Proof.
  intros m [[a b] c] f m' E (Va & Vb & Vc) A Sp. simpl in E. step E m1 E1. step E m2 E2.
  pose proof (f_len _ _ _ _ (build_one_firm _ _ _ _ E1)). pose proof (f_len _ _ _ _ (build_one_firm _ _ _ _ E2)). pose proof (f_len _ _ _ _ (build_one_firm _ _ _ _ E)).
  eapply calm_trans; [eapply build_one_calm; [exact E1|exact Va|exact A|eapply spare_mid; [exact Sp|lia|lia]]|]. intros A1.
  eapply calm_trans; [eapply build_one_calm; [exact E2|exact Vb|exact A1|eapply spare_mid; [exact Sp|lia|lia]]|]. intros A2.
  eapply build_one_calm; [exact E|exact Vc|exact A2|eapply spare_mid; [exact Sp|lia|lia]].
Qed.

Lemma new_lists_calm : forall m m' v, new_lists m = (m', v) -> avoid m -> calm m m'.
Proof.
  intros m m' v E A. unfold new_lists, new_list in E. assert (F : free (refs (BIndex None [] [] false))) by (intros r []).
  pose proof (alloc_calm m _ A F) as C1. destruct (alloc m (BIndex None [] [] false)) as [m1 a1]. simpl fst in C1.
  pose proof (alloc_calm m1 _ (proj1 C1) F) as C2. destruct (alloc m1 (BIndex None [] [] false)) as [m2 a2]. simpl fst in C2.
  pose proof (alloc_calm m2 _ (proj1 C2) F) as C3. destruct (alloc m2 (BIndex None [] [] false)) as [m3 a3]. simpl fst in C3.
  injection E as <- _. eapply calm_trans; [exact C1|]. intros _. eapply calm_trans; [exact C2|]. intros _. exact C3.
Qed.

Lemma new_lists_free : forall m m' v m2, new_lists m = (m', v) -> length m' <= length m2 -> spare m m2 -> free3 v.
Proof.
  intros m m' [[a b] c] m2 E Le Sp. destruct (new_lists_made _ _ _ _ _ E) as (_ & -> & -> & -> & L & _). simpl. repeat split; apply Sp; lia.
Qed.

Lemma new_ints_calm : forall k m m' l, new_ints m k = (m', l) -> avoid m -> calm m m' /\ forall r, In r l -> length m <= r < length m'.
Proof.
  induction k as [|k IH]; intros m m' l E A; simpl in E.
  - injection E as <- <-. split; [apply calm_refl; assumption|intros r []].
  - pose proof (alloc_calm m BInt A (fun r (i : In r []) => match i with end)) as C. simpl fst in C.
    destruct (new_ints (m ++ [Slot 1 true false BInt]) k) as [m2 l2] eqn:E2. injection E as <- <-. change (has_buffer BInt) with false in C.
    destruct (IH _ _ _ E2 (proj1 C)) as [C2 R]. pose proof (f_len _ _ _ _ (new_ints_firm _ _ _ _ E2)) as Le. rewrite app_length in *. simpl in *.
    split; [eapply calm_trans; [exact C|intros _; exact C2]|]. intros r [<-|I]; [lia|]. apply R in I. lia.
Qed.

Lemma copy_list_calm : forall m n r, copy_list m n = Ok r -> avoid m -> spare m (fst r) -> calm m (fst r).
Proof.
  intros m n r E A Sp. unfold copy_list in E. step E b Q. destruct b as [| |x i s k| |]; try discriminate.
  assert (W : forall m1 x', calm m m1 -> length m <= length m1 -> (forall v, In v (opt x') -> length m <= v < length m1) ->
     (let '(m2, ints') := new_ints m1 (length i) in Ok (alloc m2 (BIndex x' ints' [] false))) = Ok r -> calm m (fst r)).
  { intros m1 x' C1 L1 X1 E'. destruct (new_ints m1 (length i)) as [m2 l] eqn:E2.
    destruct (new_ints_calm _ _ _ _ E2 (proj1 C1)) as [C2 R2]. pose proof (f_len _ _ _ _ (new_ints_firm _ _ _ _ E2)) as L2.
    assert (Lr : length (fst r) = S (length m2)) by (injection E' as <-; simpl; rewrite app_length; simpl; lia).
    assert (F : free (refs (BIndex x' l [] false))).
    { intros v I. simpl in I. rewrite app_nil_r, in_app_iff in I. destruct I as [I|I]; [apply X1 in I|apply R2 in I]; apply Sp; lia. }
    pose proof (alloc_calm m2 _ (proj1 C2) F) as C3. injection E' as <-. eapply calm_trans; [exact C1|]. intros _. eapply calm_trans; [exact C2|]. intros _. exact C3. }
  destruct x as [v|].
  - apply (W (fst (alloc m BVector)) (Some (length m))); [apply alloc_calm; [assumption|intros q []]| | |exact E]; simpl; rewrite app_length; simpl; [lia|].
    intros q [<-|[]]. lia.
  - apply (W m None); [apply calm_refl; assumption|lia|intros q []|exact E].
Qed.

Lemma copy_variable_calm : forall m c f v m' r, copy_variable m c f v = Ok (m', r) -> avoid m -> spare m m' -> calm m m'.
Proof.
  intros m c f [[x y] z] m' r E A Sp. unfold copy_variable in E. step E r1 E1. step E r2 E2. step E r3 E3.
  destruct (copy_list_made _ _ _ E1) as (F1 & L1 & M1). destruct (copy_list_made _ _ _ E2) as (F2 & L2 & M2). destruct (copy_list_made _ _ _ E3) as (F3 & L3 & M3).
  pose proof (f_len _ _ _ _ F1). pose proof (f_len _ _ _ _ F2). pose proof (f_len _ _ _ _ F3).
  pose proof (alloc_calm (fst r3) (BTerm c f None None None (snd r1) (snd r2) (snd r3))) as C4.
  assert (L : length m' = S (length (fst r3))) by (injection E as <- _; rewrite app_length; simpl; lia).
  replace m' with (fst (alloc (fst r3) (BTerm c f None None None (snd r1) (snd r2) (snd r3)))) by (injection E; intros; subst; reflexivity).
  eapply calm_trans; [apply (copy_list_calm _ _ _ E1 A); eapply spare_mid; [exact Sp|lia|lia]|]. intros A1.
  eapply calm_trans; [apply (copy_list_calm _ _ _ E2 A1); eapply spare_mid; [exact Sp|lia|lia]|]. intros A2.
  eapply calm_trans; [apply (copy_list_calm _ _ _ E3 A2); eapply spare_mid; [exact Sp|lia|lia]|]. intros A3.
  apply C4; [exact A3|]. intros q [<-|[<-|[<-|[]]]]; apply Sp; lia.
Qed.

Variable choose : mem -> list nat -> list nat.

Lemma fill_calm : forall m l m' t, fill false choose m l = Ok (m', t) -> free l -> avoid m -> calm m m'.
Proof.
  intros m l m' t E F A. unfold fill in E. step E m1 D. pose proof (drop_all_calm _ _ _ D A) as C.
  pose proof (alloc_calm m1 (BTerms (picked (choose m l) l)) (proj1 C) (fun r I => F r (picked_in _ _ _ I))) as C1.
  replace m' with (fst (alloc m1 (BTerms (picked (choose m l) l)))) by (injection E; intros; subst; reflexivity). eapply calm_trans; [exact C|]. intros _. exact C1.
Qed.

(* A function that gives a pointer. *)
Definition calms (cl : mem -> nat -> res (mem * nat)) : Prop :=
  forall m n m' r, cl m n = Ok (m', r) -> ~ P n -> avoid m -> spare m m' -> calm m m' /\ ~ P r.

Lemma clones_calm : forall cl, longer cl -> calms cl -> forall l m m' rs, clones cl m l = Ok (m', rs) -> free l -> avoid m -> spare m m' -> calm m m' /\ free rs.
Proof.
  intros cl Lo C. induction l as [|n l IH]; intros m m' rs E F A Sp; simpl in E.
  - injection E as <- <-. split; [apply calm_refl; assumption|intros r []].
  - step E r1 E1. step E r2 E2. injection E as <- <-. destruct r1 as [m1 r1], r2 as [m2 r2]. simpl fst in *. simpl snd in *.
    pose proof (Lo _ _ _ _ E1). pose proof (clones_len _ _ _ _ _ Lo E2).
    destruct (C _ _ _ _ E1 (F n (or_introl eq_refl)) A) as [C1 N1]; [eapply spare_mid; [exact Sp|lia|lia]|].
    destruct (IH _ _ _ E2 (fun q I => F q (or_intror I)) (proj1 C1)) as [C2 N2]; [eapply spare_mid; [exact Sp|lia|lia]|].
    split; [eapply calm_trans; [exact C1|intros _; exact C2]|]. intros q [<-|I]; auto.
Qed.

Lemma term_free : forall m n c f s p t x y z, avoid m -> term_at m n = Ok (c, f, s, p, t, (x, y, z)) -> free (refs (BTerm c f s p t x y z)).
Proof.
  intros m n c f s p t x y z A E. unfold term_at in E. destruct (body_at m n) as [b| | |] eqn:Q; try discriminate. simpl in E. pose proof (body_free _ _ _ A Q) as F.
  destruct b; try discriminate. injection E as <- <- <- <- <- <- <- <-. exact F.
Qed.

Lemma terms_free : forall m t l, avoid m -> terms_at m t = Ok l -> free l.
Proof.
  intros m t l A E. unfold terms_at in E. destruct (body_at m t) as [b| | |] eqn:Q; try discriminate. simpl in E. pose proof (body_free _ _ _ A Q) as F.
  destruct b; try discriminate. injection E as <-. exact F.
Qed.

Lemma statement_copy_calm : forall cl m f s p m' r, longer cl -> calms cl -> statement_copy false cl m f s p = Ok (m', r) ->
  ~ P s -> ~ P p -> avoid m -> spare m m' -> calm m m' /\ ~ P r.
Proof.
  intros cl m f s p m' r Lo C E Ns Np A Sp. unfold statement_copy in E. destruct (new_lists m) as [m1 [[a b] c]] eqn:N. step E r1 E1. step E r2 E2. step E m4 J. step E m5 B.
  destruct r1 as [m2 s'], r2 as [m3 p']. simpl fst in *. simpl snd in *. pose proof (Lo _ _ _ _ E1). pose proof (Lo _ _ _ _ E2). pose proof (join_len _ _ _ _ J).
  pose proof (f_len _ _ _ _ (build_lists_firm _ _ _ _ B)). pose proof (new_lists_len _ _ _ N).
  assert (L : length m' = S (length m5)) by (injection E as <- _; rewrite app_length; simpl; lia).
  assert (Er : r = length m5) by (injection E as _ <-; reflexivity).
  pose proof (new_lists_free _ _ _ m' N ltac:(lia) Sp) as V. pose proof (new_lists_calm _ _ _ N A) as C0.
  destruct (C _ _ _ _ E1 Ns (proj1 C0)) as [C1 N1]; [eapply spare_mid; [exact Sp|lia|lia]|].
  destruct (C _ _ _ _ E2 Np (proj1 C1)) as [C2 N2]; [eapply spare_mid; [exact Sp|lia|lia]|].
  pose proof (join_calm _ _ _ _ J V (proj1 C2)) as C3.
  assert (C4 : calm m4 m5) by (apply (build_lists_calm _ _ _ _ B V (proj1 C3)); eapply spare_mid; [exact Sp|lia|lia]).
  assert (C5 : calm m5 m').
  { replace m' with (fst (alloc m5 (BTerm CStatement f (Some s') (Some p') None a b c))) by (injection E; intros; subst; reflexivity). apply alloc_calm; [exact (proj1 C4)|].
    destruct V as (Va & Vb & Vc). intros q [<-|[<-|[<-|[<-|[<-|[]]]]]]; assumption. }
  split; [|rewrite Er; apply Sp; lia]. eapply calm_trans; [exact C0|intros _]. eapply calm_trans; [exact C1|intros _].
  eapply calm_trans; [exact C2|intros _]. eapply calm_trans; [exact C3|intros _]. eapply calm_trans; [exact C4|intros _]. exact C5.
Qed.

Lemma compound_copy_calm : forall cl m f t m' r, longer cl -> calms cl -> compound_copy false choose cl m f t = Ok (m', r) ->
  ~ P t -> avoid m -> spare m m' -> calm m m' /\ ~ P r.
Proof.
  intros cl m f t m' r Lo C E Nt A Sp. unfold compound_copy in E. destruct (new_lists m) as [m1 [[a b] c]] eqn:N. step E r0 E0. step E l E1. step E m4 J. step E m5 B.
  destruct r0 as [m3 t']. simpl fst in *. simpl snd in *. pose proof (join_len _ _ _ _ J).
  pose proof (f_len _ _ _ _ (build_lists_firm _ _ _ _ B)). pose proof (new_lists_len _ _ _ N).
  assert (L : length m' = S (length m5)) by (injection E as <- _; rewrite app_length; simpl; lia).
  assert (Er : r = length m5) by (injection E as _ <-; reflexivity). pose proof (new_lists_calm _ _ _ N A) as C0.
  assert (L13 : length m1 <= length m3 /\ (f_var f = true -> t' < length m3)).
  { destruct (f_var f).
    - step E0 l0 Q. step E0 r1 Q1. destruct r1 as [m2 l2]. simpl in *. pose proof (clones_len _ _ _ _ _ Lo Q1). pose proof (fill_len _ _ _ _ _ E0). split; [lia|].
      intros _. unfold fill in E0. step E0 m6 D. injection E0 as <- <-. rewrite app_length. simpl. lia.
    - step E0 m6 Q. injection E0 as <- _. split; [exact (f_len _ _ _ _ (acquire_firm _ _ _ Q))|discriminate]. }
  destruct L13 as [L13 L13'].
  pose proof (new_lists_free _ _ _ m' N ltac:(lia) Sp) as V.
  assert (C13 : calm m1 m3 /\ ~ P t').
  { destruct (f_var f).
    - step E0 l0 Q. step E0 r1 Q1. destruct r1 as [m2 l2]. simpl fst in *. simpl snd in *. pose proof (clones_len _ _ _ _ _ Lo Q1). pose proof (fill_len _ _ _ _ _ E0).
      destruct (clones_calm cl Lo C _ _ _ _ Q1 (terms_free _ _ _ (proj1 C0) Q) (proj1 C0)) as [C1 F1]; [eapply spare_mid; [exact Sp|lia|lia]|].
      split; [eapply calm_trans; [exact C1|]; intros A2; exact (fill_calm _ _ _ _ E0 F1 A2)|].
      apply Sp; [|pose proof (L13' eq_refl); lia]. unfold fill in E0. step E0 m6 D. injection E0 as _ <-.
      pose proof (f_len _ _ _ _ (drop_all_firm _ _ _ D)). lia.
    - step E0 m6 Q. injection E0 as <- <-. split; [eapply acquire_calm; [exact (proj1 C0)|exact Q]|exact Nt]. }
  destruct C13 as [C1 Nt'].
  pose proof (join_calm _ _ _ _ J V (proj1 C1)) as C3.
  assert (C4 : calm m4 m5) by (apply (build_lists_calm _ _ _ _ B V (proj1 C3)); eapply spare_mid; [exact Sp|lia|lia]).
  assert (C5 : calm m5 m').
  { replace m' with (fst (alloc m5 (BTerm CCompound f None None (Some t') a b c))) by (injection E; intros; subst; reflexivity). apply alloc_calm; [exact (proj1 C4)|].
    destruct V as (Va & Vb & Vc). intros q [<-|[<-|[<-|[<-|[]]]]]; assumption. }
  split; [|rewrite Er; apply Sp; lia]. eapply calm_trans; [exact C0|intros _]. eapply calm_trans; [exact C1|intros _].
  eapply calm_trans; [exact C3|intros _]. eapply calm_trans; [exact C4|intros _]. exact C5.
Qed.

Lemma clone_calms : forall fuel, calms (clone false choose fuel).
Proof.
  induction fuel as [|fuel IH]; intros m n m' r E Nn A Sp; [discriminate|]. simpl in E. step E q Q.
  destruct q as [[[[[c f] s] p] t] [[x y] z]]. pose proof (term_free _ _ _ _ _ _ _ _ _ _ A Q) as F. destruct (f_var f).
  - destruct c; try discriminate.
    + split; [eapply copy_variable_calm; eassumption|]. unfold copy_variable in E. step E r1 E1. step E r2 E2. step E r3 E3.
      destruct (copy_list_made _ _ _ E1) as (F1 & L1 & M1). destruct (copy_list_made _ _ _ E2) as (F2 & L2 & M2). destruct (copy_list_made _ _ _ E3) as (F3 & L3 & M3).
      pose proof (f_len _ _ _ _ F1). pose proof (f_len _ _ _ _ F2). pose proof (f_len _ _ _ _ F3). injection E as <- <-. apply Sp; [lia|rewrite app_length; simpl; lia].
    + destruct s as [s|], p as [p|]; try discriminate. eapply statement_copy_calm; try eassumption; [apply clone_len| |]; apply F; simpl; auto.
    + destruct t as [t|]; [|destruct s, p; discriminate].
      assert (E' : compound_copy false choose (clone false choose fuel) m f t = Ok (m', r)) by (destruct s, p; exact E).
      eapply compound_copy_calm; try eassumption; [apply clone_len|]; apply F; simpl; rewrite !in_app_iff; simpl; auto.
  - step E m1 Q1. injection E as <- <-. split; [eapply acquire_calm; eassumption|assumption].
Qed.
End Avoid.
