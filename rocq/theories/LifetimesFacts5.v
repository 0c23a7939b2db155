(* What every operation leaves alone, and when the letter of the standard is
   broken. *)
From Coq Require Import String ZArith List Bool Arith Lia.
From Verif Require Import Base Lifetimes LifetimesSpec LifetimesFacts LifetimesFacts2.
Import ListNotations.

(* Memory grows; terms keep their class, the dead stay dead, and a string
   buffer is as the class says. *)
Definition sound_slot (s : slot) : Prop := s_buffer s = has_buffer (s_body s).
Definition class_of (b : body) : option tclass := match b with BTerm c _ _ _ _ _ _ _ => Some c | _ => None end.

Record later (m m' : mem) : Prop := {
  l_len : length m <= length m';
  l_old : forall n s, nth_error m n = Some s -> exists s', nth_error m' n = Some s'
     /\ kind_of (s_body s') = kind_of (s_body s)
     /\ class_of (s_body s') = class_of (s_body s) /\ (s_live s = false -> s_live s' = false)
     /\ (sound_slot s -> sound_slot s');
  l_new : forall n s, length m <= n -> nth_error m' n = Some s -> sound_slot s
}.

Lemma later_refl : forall m, later m m.
Proof.
  intros m. constructor; [lia| |].
  - intros n s E. exists s. auto.
  - intros n s L E. assert (n < length m) by (apply nth_error_Some; congruence). lia.
Qed.

Lemma later_trans : forall a b c, later a b -> later b c -> later a c.
Proof.
  intros a b c [A1 A2 A3] [B1 B2 B3]. constructor; [lia| |].
  - intros n s E. destruct (A2 n s E) as (s1 & E1 & K1 & C1 & D1 & S1). destruct (B2 n s1 E1) as (s2 & E2 & K2 & C2 & D2 & S2).
    exists s2. split; [assumption|]. split; [congruence|]. split; [congruence|]. auto.
  - intros n s L E. destruct (nth_error b n) as [s1|] eqn:E1.
    + destruct (B2 n s1 E1) as (s2 & E2 & _ & _ & _ & S2). rewrite E in E2. injection E2 as <-. eauto.
    + apply nth_error_None in E1. eauto.
Qed.

Definition lost (m m' : mem) : Prop := exists n, derived m' n /\ ended m m' n.

Lemma derived_class : forall m n, derived m n <-> exists s c, nth_error m n = Some s /\ class_of (s_body s) = Some c /\ c <> CPlain.
Proof.
  intros m n. split.
  - intros [(s & c & f & a & b & t & x & y & z & E & B) N]. exists s, c. split; [assumption|]. rewrite B. split; [reflexivity|].
    intros ->. apply N. repeat eexists; eassumption.
  - intros (s & c & E & B & N). destruct (s_body s) eqn:Q; try discriminate. injection B as ->. split; [repeat eexists; eassumption|].
    intros (s' & f' & a & b & t & x & y & z & E' & B'). rewrite E in E'. injection E' as <-. congruence.
Qed.

Lemma lost_later : forall a b c, lost a b -> later b c -> lost a c.
Proof.
  intros a b c (n & D & E1 & s & E2 & L) T. apply derived_class in D. destruct D as (s' & k & F1 & F2 & F3).
  rewrite E2 in F1. injection F1 as <-. destruct (l_old _ _ T n s E2) as (s2 & G1 & _ & G2 & G3 & _).
  exists n. split.
  - apply derived_class. exists s2, k. split; [assumption|]. split; [congruence|assumption].
  - split; [assumption|]. exists s2. auto.
Qed.

Lemma later_lost : forall a b c, later a b -> lost b c -> lost a c.
Proof.
  intros a b c T (n & D & E1 & E2). exists n. split; [assumption|]. split; [|assumption].
  intros s E. destruct (l_old _ _ T n s E) as (s2 & G1 & _ & _ & G3 & _). destruct (s_live s) eqn:L; [reflexivity|].
  specialize (G3 eq_refl). rewrite (E1 s2 G1) in G3. discriminate.
Qed.

Lemma lost_split : forall a b c, later a b -> later b c -> lost a c -> lost a b \/ lost b c.
Proof.
  intros a b c T1 T2 (n & D & E1 & s & E2 & L). destruct (nth_error b n) as [s1|] eqn:Eb.
  - destruct (s_live s1) eqn:L1.
    + right. exists n. split; [assumption|]. split; [|eauto]. intros s' E'. rewrite Eb in E'. congruence.
    + left. exists n. split.
      * apply derived_class in D. destruct D as (s' & k & F1 & F2 & F3). rewrite E2 in F1. injection F1 as <-.
        destruct (l_old _ _ T2 n s1 Eb) as (s2 & G1 & _ & G2 & _). rewrite E2 in G1. injection G1 as <-.
        apply derived_class. exists s1, k. split; [assumption|]. split; [congruence|assumption].
      * split; [assumption|]. exists s1. auto.
  - right. exists n. split; [assumption|]. split; [|eauto]. intros s' E'. congruence.
Qed.

(* An operation by the letter (xt) and as compilers do it (xf). *)
Definition agrees {A : Type} (to : A -> mem) (m : mem) (xt xf : res A) : Prop :=
  forall a, xf = Ok a -> later m (to a) /\ ((xt = xf /\ ~ lost m (to a)) \/ (xt = UB /\ lost m (to a))).

Definition here (m : mem) : mem := m.

Lemma not_lost_refl : forall m, ~ lost m m.
Proof. intros m (n & _ & E1 & s & E2 & L). rewrite (E1 s E2) in L. discriminate. Qed.

Lemma agrees_ok : forall (A : Type) (to : A -> mem) a, agrees to (to a) (Ok a) (Ok a).
Proof. intros A to a x E. injection E as <-. split; [apply later_refl|]. left. split; [reflexivity|apply not_lost_refl]. Qed.

Lemma agrees_bad : forall (A : Type) (to : A -> mem) m x y, (forall a, y <> Ok a) -> agrees to m x y.
Proof. intros A to m x y N a E. destruct (N a E). Qed.

Lemma agrees_bind : forall (A B : Type) (ta : A -> mem) (tb : B -> mem) m xt xf ft ff,
  agrees ta m xt xf -> (forall a, xf = Ok a -> agrees tb (ta a) (ft a) (ff a)) ->
  agrees tb m (bind xt ft) (bind xf ff).
Proof.
  intros A B ta tb m xt xf ft ff X F b E. destruct xf as [a| | |]; try discriminate. simpl in E.
  destruct (X a eq_refl) as [T1 [[Q1 N1]|[Q1 N1]]]; destruct (F a eq_refl b E) as [T2 [[Q2 N2]|[Q2 N2]]];
    (split; [eapply later_trans; eassumption|]); rewrite Q1; simpl.
  - left. split; [assumption|]. intros L. destruct (lost_split _ _ _ T1 T2 L); auto.
  - right. split; [assumption|]. eapply later_lost; eassumption.
  - right. split; [reflexivity|]. eapply lost_later; eassumption.
  - right. split; [reflexivity|]. eapply lost_later; eassumption.
Qed.

(* Reading changes nothing. *)
Lemma agrees_read : forall (A B : Type) (tb : B -> mem) m (x : res A) ft ff,
  (forall a, x = Ok a -> agrees tb m (ft a) (ff a)) -> agrees tb m (bind x ft) (bind x ff).
Proof. intros A B tb m x ft ff F b E. destruct x as [a| | |]; try discriminate. apply (F a eq_refl b E). Qed.

(* One and the same operation that ends no object. *)
Definition harmless (m m' : mem) : Prop :=
  later m m' /\ forall n s, nth_error m' n = Some s -> s_live s = false -> exists s0, nth_error m n = Some s0 /\ s_live s0 = false.

Lemma agrees_harmless : forall (A : Type) (to : A -> mem) m x, (forall a, x = Ok a -> harmless m (to a)) -> agrees to m x x.
Proof.
  intros A to m x F a E. destruct (F a E) as [T D]. split; [assumption|]. left. split; [reflexivity|].
  intros (n & _ & E1 & s & E2 & L). destruct (D n s E2 L) as (s0 & E0 & L0). rewrite (E1 s0 E0) in L0. discriminate.
Qed.

Lemma harmless_trans : forall a b c, harmless a b -> harmless b c -> harmless a c.
Proof.
  intros a b c [A1 A2] [B1 B2]. split; [eapply later_trans; eassumption|]. intros n s E L.
  destruct (B2 n s E L) as (s0 & E0 & L0). eauto.
Qed.

Lemma harmless_refl : forall m, harmless m m.
Proof. intros m. split; [apply later_refl|]. intros n s E L. eauto. Qed.

Lemma harmless_set : forall m n s s', nth_error m n = Some s -> kind_of (s_body s') = kind_of (s_body s) ->
  class_of (s_body s') = class_of (s_body s) -> s_live s = true -> s_live s' = true -> s_buffer s' = s_buffer s ->
  harmless m (set_nth n s' m).
Proof.
  intros m n s s' E K C L L' B. split; [constructor|].
  - rewrite set_nth_length. lia.
  - intros k x Ek. destruct (Nat.eq_dec n k) as [->|N].
    + rewrite E in Ek. injection Ek as <-. exists s'. split; [eapply set_nth_same; eassumption|]. split; [assumption|]. split; [assumption|].
      split; [congruence|]. unfold sound_slot, has_buffer. intros Q. rewrite B, Q. destruct (s_body s), (s_body s'); simpl in *; try discriminate; try reflexivity.
      injection C as ->. reflexivity.
    + exists x. split; [rewrite set_nth_other by assumption; assumption|]. auto.
  - intros k x Lk Ek. assert (k < length (set_nth n s' m)) by (apply nth_error_Some; congruence). rewrite set_nth_length in *. lia.
  - intros k x Ek Lx. destruct (Nat.eq_dec n k) as [->|N].
    + rewrite (set_nth_same _ _ _ _ _ E) in Ek. injection Ek as <-. congruence.
    + rewrite set_nth_other in Ek by assumption. eauto.
Qed.

Lemma harmless_alloc : forall m b, harmless m (fst (alloc m b)).
Proof.
  intros m b. simpl. split; [constructor|].
  - rewrite app_length. lia.
  - intros n s E. exists s. split; [rewrite nth_error_app1; [assumption|apply nth_error_Some; congruence]|]. auto.
  - intros n s L E. rewrite nth_error_app2 in E by assumption. destruct (n - length m) as [|[|d]]; simpl in E; try discriminate.
    injection E as <-. reflexivity.
  - intros n s E L. destruct (Nat.lt_ge_cases n (length m)) as [Q|Q].
    + rewrite nth_error_app1 in E by assumption. eauto.
    + rewrite nth_error_app2 in E by assumption. destruct (n - length m) as [|[|d]]; simpl in E; try discriminate.
      injection E as <-. discriminate.
Qed.

Lemma acquire_harmless : forall m n m', acquire m n = Ok m' -> harmless m m'.
Proof.
  intros m n m' E. unfold acquire in E. destruct (look m n) as [s| | |] eqn:L; try discriminate. simpl in E. injection E as <-.
  apply look_inv in L. destruct L as [L1 L2]. eapply harmless_set; try eassumption; reflexivity.
Qed.

Lemma acquire_all_harmless : forall l m m', acquire_all m l = Ok m' -> harmless m m'.
Proof.
  induction l as [|n l IH]; intros m m' E; simpl in E.
  - injection E as <-. apply harmless_refl.
  - destruct (acquire m n) as [m1| | |] eqn:A; try discriminate. eapply harmless_trans; [eapply acquire_harmless; eassumption|eauto].
Qed.

Lemma write_harmless : forall m n b m' s, nth_error m n = Some s -> kind_of (s_body s) = KIndex -> kind_of b = KIndex ->
  write m n b = Ok m' -> harmless m m'.
Proof.
  intros m n b m' s E0 K K' E. unfold write in E. destruct (look m n) as [s1| | |] eqn:L; try discriminate. simpl in E. injection E as <-.
  apply look_inv in L. destruct L as [L1 L2]. rewrite E0 in L1. injection L1 as <-. eapply harmless_set; try eassumption; try reflexivity.
  - simpl. congruence.
  - simpl. destruct (s_body s), b; simpl in *; try discriminate. reflexivity.
Qed.

Lemma later_kind : forall k m m' n, later m m' -> is_kind k m n -> is_kind k m' n.
Proof. intros k m m' n T (s & E & K). destruct (l_old _ _ T n s E) as (s' & E' & Q & _). exists s'. split; [assumption|congruence]. Qed.

Lemma index_at : forall m n x i s k, body_at m n = Ok (BIndex x i s k) -> is_kind KIndex m n.
Proof. intros m n x i s k E. apply body_inv in E. destruct E as (y & E & _ & B). exists y. rewrite B. auto. Qed.

Lemma write_agrees : forall m n b, is_kind KIndex m n -> kind_of b = KIndex -> agrees here m (write m n b) (write m n b).
Proof.
  intros m n b (s & E & K) Kb. apply agrees_harmless. intros m' W. exact (write_harmless _ _ _ _ _ E K Kb W).
Qed.

(* ---- releasing ---- *)
Lemma release_agrees : forall fuel m n, agrees here m (release true fuel m n) (release false fuel m n).
Proof.
  induction fuel as [|fuel IH]; intros m n; [apply agrees_bad; discriminate|].
  simpl. apply agrees_read. intros s L. apply look_inv in L. destruct L as [E L].
  destruct (s_count s) as [|[|c]] eqn:C.
  - apply agrees_bad. discriminate.
  - set (m1 := set_nth n (dead s) m).
    assert (T1 : later m m1).
    { constructor.
      - unfold m1. rewrite set_nth_length. lia.
      - intros k x Ek. destruct (Nat.eq_dec n k) as [->|N].
        + rewrite E in Ek. injection Ek as <-. exists (dead s). split; [eapply set_nth_same; eassumption|]. split; [reflexivity|]. split; [reflexivity|].
          split; [congruence|]. unfold sound_slot, dead. simpl. destruct (s_body s) as [[] f a b t x y z| | | |]; simpl; auto.
        + exists x. split; [unfold m1; rewrite set_nth_other by assumption; assumption|]. auto.
      - intros k x Lk Ek. assert (k < length m1) by (apply nth_error_Some; congruence). unfold m1 in *. rewrite set_nth_length in *. lia. }
    assert (W : forall l m, agrees here m (each (release true fuel) m l) (each (release false fuel) m l)).
    { induction l as [|k l IHl]; intros m'.
      - apply (agrees_ok mem here).
      - simpl. apply (agrees_bind _ _ here here); [apply IH|]. intros a _. apply IHl. }
    intros m' E'. destruct (W (rev (refs (s_body s))) m1 m' E') as [T2 D2]. split; [eapply later_trans; eassumption|].
    destruct (deleted_as_made (s_body s)) eqn:Dm; simpl.
    + assert (N1 : ~ lost m m1).
      { intros (k & Dk & E1 & x & E2 & Lx). unfold m1 in E2. destruct (Nat.eq_dec n k) as [->|N].
        - apply derived_class in Dk. destruct Dk as (y & c & Y1 & Y2 & Y3). unfold m1 in Y1. rewrite (set_nth_same _ _ _ _ _ E) in Y1. injection Y1 as <-.
          simpl in Y2. destruct (s_body s) as [[] f a b t x1 y1 z1| | | |]; simpl in *; try discriminate; congruence.
        - rewrite set_nth_other in E2 by assumption. rewrite (E1 x E2) in Lx. discriminate. }
      destruct D2 as [[Q N2]|[Q N2]].
      * left. split; [assumption|]. intros Lo. destruct (lost_split _ _ _ T1 T2 Lo); auto.
      * right. split; [assumption|]. eapply later_lost; eassumption.
    + right. split; [reflexivity|]. eapply lost_later; [|exact T2]. exists n. split.
      * apply derived_class. exists (dead s). unfold m1. rewrite (set_nth_same _ _ _ _ _ E).
        simpl. destruct (s_body s) as [c f a b t x y z| | | |]; simpl in Dm; try discriminate. exists c. simpl. split; [reflexivity|]. split; [reflexivity|].
        destruct c; congruence.
      * split; [intros x Ex; congruence|]. exists (dead s). split; [eapply set_nth_same; eassumption|reflexivity].
  - apply agrees_harmless. intros m' E'. injection E' as <-. eapply harmless_set; try eassumption; reflexivity.
Qed.

Lemma drop_agrees : forall m n, agrees here m (drop true m n) (drop false m n).
Proof. intros. apply release_agrees. Qed.

Lemma each_agrees : forall ft ff l m, (forall m n, agrees here m (ft m n) (ff m n)) -> agrees here m (each ft m l) (each ff m l).
Proof.
  intros ft ff l. induction l as [|n l IH]; intros m F; [apply (agrees_ok mem here)|].
  simpl. apply (agrees_bind _ _ here here); [apply F|]. intros a _. apply IH. assumption.
Qed.

Lemma drop_all_agrees : forall l m, agrees here m (drop_all true m l) (drop_all false m l).
Proof. intros l m. apply each_agrees. apply drop_agrees. Qed.

(* ---- lists ---- *)
Lemma normalize_agrees : forall m n, agrees here m (normalize m n) (normalize m n).
Proof.
  intros m n. unfold normalize. apply agrees_read. intros b Eb. destruct b as [| |[v|] i s k| |]; try (apply agrees_bad; discriminate).
  - apply (agrees_ok mem here).
  - pose proof (harmless_alloc m BVector) as Ha. destruct (alloc m BVector) as [m1 v]. simpl fst in Ha.
    apply agrees_harmless. intros m' W. apply (harmless_trans m m1); [assumption|].
    destruct (later_kind KIndex _ _ n (proj1 Ha) (index_at _ _ _ _ _ _ Eb)) as (s0 & E0 & K0).
    exact (write_harmless _ _ (BIndex (Some v) i s k) _ _ E0 K0 eq_refl W).
Qed.

Lemma connect_agrees : forall m a b, agrees here m (connect true m a b) (connect false m a b).
Proof.
  intros m a b. unfold connect. apply agrees_read. intros bd Eb. destruct bd as [| |x i s k| |]; try (apply agrees_bad; discriminate).
  pose proof (index_at _ _ _ _ _ _ Eb) as K. clear Eb.
  apply (agrees_bind _ _ here here); [apply write_agrees; [assumption|reflexivity]|]. intros m1 E1. unfold here.
  assert (T1 : later m m1) by (destruct K as (y & Y1 & Y2); exact (proj1 (write_harmless _ _ (BIndex None i s false) _ _ Y1 Y2 eq_refl E1))).
  apply (agrees_bind _ _ here here); [apply drop_all_agrees|]. intros m2 E2. unfold here.
  assert (T2 : later m1 m2) by (apply (drop_all_agrees (opt x) m1 m2 E2)).
  apply (agrees_bind _ _ here here); [apply agrees_harmless; intros; eapply acquire_harmless; eassumption|]. intros m3 E3. unfold here.
  assert (T3 : later m2 m3) by (apply acquire_harmless in E3; apply E3).
  apply write_agrees; [|reflexivity]. eapply later_kind; [exact T3|]. eapply later_kind; [exact T2|]. eapply later_kind; eassumption.
Qed.

Lemma build_agrees : forall fuel m n, agrees here m (build true fuel m n) (build false fuel m n).
Proof.
  induction fuel as [|fuel IH]; intros m n; [apply agrees_bad; discriminate|].
  simpl. apply agrees_read. intros b Eb. destruct b as [| |x i s [|]| |]; try (apply agrees_bad; discriminate); [apply (agrees_ok mem here)|].
  pose proof (index_at _ _ _ _ _ _ Eb) as K.
  apply (agrees_bind _ _ here here); [apply write_agrees; [assumption|reflexivity]|]. intros m1 E1.
  apply (agrees_bind _ _ here here); [apply drop_all_agrees|]. intros m2 E2.
  apply (agrees_bind _ _ here here).
  - apply each_agrees. intros m3 son. apply (agrees_bind _ _ here here); [apply IH|]. intros m4 _. unfold here.
    apply agrees_read. intros bs _. destruct bs as [| |xs is ss ks| |]; try (apply agrees_bad; discriminate).
    apply (agrees_bind _ _ here here); [apply agrees_harmless; intros; eapply acquire_all_harmless; eassumption|]. intros m5 _. unfold here.
    apply agrees_read. intros bn En. destruct bn as [| |xn jn tn kn| |]; try (apply agrees_bad; discriminate).
    apply write_agrees; [eapply index_at; eassumption|reflexivity].
  - intros m6 _. unfold here. apply agrees_read. intros bn En. destruct bn as [| |xn jn tn kn| |]; try (apply agrees_bad; discriminate).
    apply (agrees_bind _ _ here here); [apply write_agrees; [eapply index_at; eassumption|reflexivity]|]. intros m7 _. apply normalize_agrees.
Qed.

Lemma build_one_agrees : forall m h n, agrees here m (build_one true m h n) (build_one false m h n).
Proof.
  intros m h n. unfold build_one. destruct h; [apply build_agrees|]. apply agrees_read. intros b Eb.
  destruct b as [| |x i s k| |]; try (apply agrees_bad; discriminate). apply write_agrees; [eapply index_at; eassumption|reflexivity].
Qed.

Lemma build_lists_agrees : forall m v f, agrees here m (build_lists true m v f) (build_lists false m v f).
Proof.
  intros m [[a b] c] f. simpl. apply (agrees_bind _ _ here here); [apply build_one_agrees|]. intros m1 _.
  apply (agrees_bind _ _ here here); [apply build_one_agrees|]. intros m2 _. apply build_one_agrees.
Qed.

Lemma hash_lists_agrees : forall m v, agrees here m (hash_lists m v) (hash_lists m v).
Proof.
  intros m [[a b] c]. simpl. apply (agrees_bind _ _ here here); [apply normalize_agrees|]. intros m1 _.
  apply (agrees_bind _ _ here here); [apply normalize_agrees|]. intros m2 _. apply normalize_agrees.
Qed.

Lemma join_lists_agrees : forall m v l, agrees here m (join_lists true m v l) (join_lists false m v l).
Proof.
  intros m [[a b] c] l. unfold join_lists. apply each_agrees. intros m1 t. apply agrees_read. intros son _.
  apply (agrees_bind _ _ here here); [apply connect_agrees|]. intros m2 _.
  apply (agrees_bind _ _ here here); [apply connect_agrees|]. intros m3 _. apply connect_agrees.
Qed.

Lemma new_lists_harmless : forall m m' v, new_lists m = (m', v) -> harmless m m'.
Proof.
  intros m m' v E. unfold new_lists, new_list in E.
  pose proof (harmless_alloc m (BIndex None [] [] false)) as H1. destruct (alloc m (BIndex None [] [] false)) as [m1 a]. simpl fst in H1.
  pose proof (harmless_alloc m1 (BIndex None [] [] false)) as H2. destruct (alloc m1 (BIndex None [] [] false)) as [m2 b]. simpl fst in H2.
  pose proof (harmless_alloc m2 (BIndex None [] [] false)) as H3. destruct (alloc m2 (BIndex None [] [] false)) as [m3 c]. simpl fst in H3.
  injection E as <- _. eapply harmless_trans; [exact H1|]. eapply harmless_trans; eassumption.
Qed.

Lemma new_ints_harmless : forall k m m' l, new_ints m k = (m', l) -> harmless m m'.
Proof.
  induction k as [|k IH]; intros m m' l E; simpl in E.
  - injection E as <- _. apply harmless_refl.
  - destruct (new_ints (m ++ [Slot 1 true false BInt]) k) as [m2 l2] eqn:E2. injection E as <- _.
    eapply harmless_trans; [exact (harmless_alloc m BInt)|eapply IH; eassumption].
Qed.

Lemma copy_list_harmless : forall m n r, copy_list m n = Ok r -> harmless m (fst r).
Proof.
  intros m n r E. unfold copy_list in E. destruct (body_at m n) as [b| | |]; try discriminate. simpl in E.
  destruct b as [| |x i s k| |]; try discriminate.
  destruct x.
  - simpl in E. destruct (new_ints (m ++ [Slot 1 true false BVector]) (length i)) as [m2 l] eqn:E2. injection E as <-.
    eapply harmless_trans; [exact (harmless_alloc m BVector)|].
    eapply harmless_trans; [eapply new_ints_harmless; eassumption|apply harmless_alloc].
  - destruct (new_ints m (length i)) as [m2 l] eqn:E2. injection E as <-.
    eapply harmless_trans; [eapply new_ints_harmless; eassumption|apply harmless_alloc].
Qed.

Lemma copy_list_agrees : forall m n, agrees fst m (copy_list m n) (copy_list m n).
Proof. intros m n. apply agrees_harmless. apply copy_list_harmless. Qed.

Lemma alloc_agrees : forall m b, agrees fst m (Ok (alloc m b)) (Ok (alloc m b)).
Proof. intros m b. apply agrees_harmless. intros a E. injection E as <-. apply harmless_alloc. Qed.

Lemma copy_variable_agrees : forall m c f v, agrees fst m (copy_variable m c f v) (copy_variable m c f v).
Proof.
  intros m c f [[a b] d]. unfold copy_variable. apply (agrees_bind _ _ fst fst); [apply copy_list_agrees|]. intros r1 _.
  apply (agrees_bind _ _ fst fst); [apply copy_list_agrees|]. intros r2 _.
  apply (agrees_bind _ _ fst fst); [apply copy_list_agrees|]. intros r3 _. apply alloc_agrees.
Qed.

(* First an operation that ends nothing. *)
Lemma agrees_after : forall (A : Type) (to : A -> mem) m m1 xt xf, harmless m m1 -> agrees to m1 xt xf -> agrees to m xt xf.
Proof.
  intros A to m m1 xt xf Ha F a E. destruct (F a E) as [T D]. destruct Ha as [T1 D1].
  assert (N : ~ lost m m1).
  { intros (n & _ & E1 & s & E2 & L). destruct (D1 n s E2 L) as (s0 & E0 & L0). rewrite (E1 s0 E0) in L0. discriminate. }
  split; [eapply later_trans; eassumption|]. destruct D as [[Q NL]|[Q NL]].
  - left. split; [assumption|]. intros Lo. destruct (lost_split _ _ _ T1 T Lo); auto.
  - right. split; [assumption|]. eapply later_lost; eassumption.
Qed.

Lemma acquired_agrees : forall m n, agrees fst m (bind (acquire m n) (fun m1 => Ok (m1, n))) (bind (acquire m n) (fun m1 => Ok (m1, n))).
Proof.
  intros m n. apply (agrees_bind _ _ here fst); [apply agrees_harmless; intros; eapply acquire_harmless; eassumption|].
  intros m1 _. apply (agrees_ok _ fst (m1, n)).
Qed.

Section Choosing.
Variable choose : mem -> list nat -> list nat.

Lemma fill_agrees : forall m l, agrees fst m (fill true choose m l) (fill false choose m l).
Proof.
  intros m l. unfold fill. apply (agrees_bind _ _ here fst); [apply drop_all_agrees|]. intros m1 _. apply alloc_agrees.
Qed.

Lemma clones_agrees : forall ct cf l m, (forall m n, agrees fst m (ct m n) (cf m n)) -> agrees fst m (clones ct m l) (clones cf m l).
Proof.
  intros ct cf l. induction l as [|n l IH]; intros m F; simpl; [apply (agrees_ok _ fst (m, []))|].
  apply (agrees_bind _ _ fst fst); [apply F|]. intros r _. apply (agrees_bind _ _ fst fst); [apply IH; assumption|].
  intros r' _. apply (agrees_ok _ fst (fst r', snd r :: snd r')).
Qed.

Lemma statement_copy_agrees : forall ct cf m f s p, (forall m n, agrees fst m (ct m n) (cf m n)) ->
  agrees fst m (statement_copy true ct m f s p) (statement_copy false cf m f s p).
Proof.
  intros ct cf m f s p F. unfold statement_copy. destruct (new_lists m) as [m0 [[a b] d]] eqn:E.
  apply (agrees_after _ _ m m0); [eapply new_lists_harmless; eassumption|].
  apply (agrees_bind _ _ fst fst); [apply F|]. intros r1 _. apply (agrees_bind _ _ fst fst); [apply F|]. intros r2 _.
  apply (agrees_bind _ _ here fst); [apply join_lists_agrees|]. intros m3 _.
  apply (agrees_bind _ _ here fst); [apply build_lists_agrees|]. intros m4 _. apply alloc_agrees.
Qed.

Lemma compound_copy_agrees : forall ct cf m f t, (forall m n, agrees fst m (ct m n) (cf m n)) ->
  agrees fst m (compound_copy true choose ct m f t) (compound_copy false choose cf m f t).
Proof.
  intros ct cf m f t F. unfold compound_copy. destruct (new_lists m) as [m0 [[a b] d]] eqn:E.
  apply (agrees_after _ _ m m0); [eapply new_lists_harmless; eassumption|].
  apply (agrees_bind _ _ fst fst).
  - destruct (f_var f); [|apply acquired_agrees]. apply agrees_read. intros l _.
    apply (agrees_bind _ _ fst fst); [apply clones_agrees; assumption|]. intros r _. apply fill_agrees.
  - intros r _. apply agrees_read. intros l _.
    apply (agrees_bind _ _ here fst); [apply join_lists_agrees|]. intros m3 _.
    apply (agrees_bind _ _ here fst); [apply build_lists_agrees|]. intros m4 _. apply alloc_agrees.
Qed.

Lemma clone_agrees : forall fuel m n, agrees fst m (clone true choose fuel m n) (clone false choose fuel m n).
Proof.
  induction fuel as [|fuel IH]; intros m n; [apply agrees_bad; discriminate|].
  simpl. apply agrees_read. intros [[[[[c f] s] p] t] v] _. destruct (f_var f); [|apply acquired_agrees].
  destruct c; try (apply agrees_bad; discriminate).
  - apply copy_variable_agrees.
  - destruct s; [|apply agrees_bad; discriminate]. destruct p; [|apply agrees_bad; discriminate]. apply statement_copy_agrees. assumption.
  - destruct t; [|destruct s, p; apply agrees_bad; discriminate].
    destruct s, p; apply compound_copy_agrees; assumption.
Qed.

Lemma clone_of_agrees : forall m n, agrees fst m (clone_of true choose m n) (clone_of false choose m n).
Proof. intros. apply clone_agrees. Qed.

Lemma part_agrees : forall i m n, agrees fst m (part true choose i m n) (part false choose i m n).
Proof. intros [] m n; [apply acquired_agrees|apply clone_of_agrees]. Qed.

Lemma statement_agrees : forall m s p i, agrees fst m (statement true choose m s p i) (statement false choose m s p i).
Proof.
  intros m s p i. unfold statement. destruct (new_lists m) as [m0 [[a b] d]] eqn:E.
  apply (agrees_after _ _ m m0); [eapply new_lists_harmless; eassumption|].
  apply (agrees_bind _ _ fst fst); [apply part_agrees|]. intros r1 _. apply (agrees_bind _ _ fst fst); [apply part_agrees|]. intros r2 _.
  apply (agrees_bind _ _ here fst); [apply hash_lists_agrees|]. intros m3 _. apply agrees_read. intros f _.
  apply (agrees_bind _ _ here fst); [apply join_lists_agrees|]. intros m4 _.
  apply (agrees_bind _ _ here fst); [apply build_lists_agrees|]. intros m5 _. apply alloc_agrees.
Qed.

Lemma compound_agrees : forall m t i, agrees fst m (compound true choose m t i) (compound false choose m t i).
Proof.
  intros m t i. unfold compound. destruct (new_lists m) as [m0 [[a b] d]] eqn:E.
  apply (agrees_after _ _ m m0); [eapply new_lists_harmless; eassumption|].
  apply (agrees_bind _ _ fst fst).
  - destruct i; [apply acquired_agrees|]. apply agrees_read. intros l _.
    apply (agrees_bind _ _ fst fst); [apply clones_agrees; intros; apply clone_of_agrees|]. intros r _. apply fill_agrees.
  - intros r _. apply agrees_read. intros l _.
    apply (agrees_bind _ _ here fst); [apply hash_lists_agrees|]. intros m3 _. apply agrees_read. intros f _.
    apply (agrees_bind _ _ here fst); [apply join_lists_agrees|]. intros m4 _.
    apply (agrees_bind _ _ here fst); [apply build_lists_agrees|]. intros m5 _. apply alloc_agrees.
Qed.

Lemma duplicate_agrees : forall m n d, agrees fst m (duplicate true choose m n d) (duplicate false choose m n d).
Proof.
  intros m n d. unfold duplicate. apply agrees_read. intros [[[[[c f] s] p] t] [[vi vd] vq]] _. destruct d.
  - destruct c; try (apply agrees_bad; discriminate).
    + apply copy_variable_agrees.
    + destruct s; [|apply agrees_bad; discriminate]. destruct p; [|apply agrees_bad; discriminate]. apply statement_copy_agrees. apply clone_of_agrees.
    + destruct t; [|destruct s, p; apply agrees_bad; discriminate]. destruct s, p; apply compound_copy_agrees; apply clone_of_agrees.
  - destruct (new_lists m) as [m0 [[a b] e]] eqn:E.
    apply (agrees_after _ _ m m0); [eapply new_lists_harmless; eassumption|].
    apply (agrees_bind _ _ here fst); [apply agrees_harmless; intros; eapply acquire_all_harmless; eassumption|]. intros m1 _.
    apply (agrees_bind _ _ here fst); [apply drop_all_agrees|]. intros m2 _. apply alloc_agrees.
Qed.

Lemma variable_agrees : forall m k name i, agrees fst m (variable m k name i) (variable m k name i).
Proof.
  intros m k name i. unfold variable. destruct (new_lists m) as [m0 [[a b] d]] eqn:E.
  apply (agrees_after _ _ m m0); [eapply new_lists_harmless; eassumption|].
  set (f := match k with Independent => _ | Dependent => _ | Query => _ end).
  pose proof (harmless_alloc m0 (BTerm (CVariable name) f None None None a b d)) as H1.
  destruct (alloc m0 (BTerm (CVariable name) f None None None a b d)) as [m2 t] eqn:E2. simpl fst in H1.
  apply (agrees_after _ _ m0 m2); [assumption|]. destruct i; [|apply (agrees_ok _ fst (m2, t))].
  pose proof (harmless_alloc m2 BInt) as H2. destruct (alloc m2 BInt) as [m3 y]. simpl fst in H2.
  apply (agrees_after _ _ m2 m3); [assumption|].
  apply (agrees_bind _ _ here fst); [|intros m4 _; apply (agrees_ok _ fst (m4, t))].
  apply write_agrees; [|reflexivity].
  eapply later_kind; [apply H2|]. eapply later_kind; [apply H1|].
  unfold new_lists, new_list, alloc in E. injection E as <- <- <- <-.
  assert (Q : forall j, j < 3 -> is_kind KIndex (((m ++ [Slot 1 true false (BIndex None [] [] false)]) ++ [Slot 1 true false (BIndex None [] [] false)])
     ++ [Slot 1 true false (BIndex None [] [] false)]) (length m + j)).
  { intros j Lj. rewrite <- !app_assoc. simpl app. eexists. rewrite nth_error_app2 by lia.
    replace (length m + j - length m) with j by lia. destruct j as [|[|[|j]]]; [..|lia]; split; reflexivity. }
  rewrite !app_length. simpl length. destruct k.
  - specialize (Q 0). rewrite Nat.add_0_r in Q. apply Q. lia.
  - apply Q. lia.
  - replace (length m + 1 + 1) with (length m + 2) by lia. apply Q. lia.
Qed.

Lemma simple_harmless : forall m c, harmless m (fst (simple m c)).
Proof.
  intros m c. unfold simple. destruct (new_lists m) as [m0 [[a b] d]] eqn:E.
  eapply harmless_trans; [eapply new_lists_harmless; eassumption|apply harmless_alloc].
Qed.

Lemma act_agrees : forall m held a, agrees fst m (act true choose m held a) (act false choose m held a).
Proof.
  intros m held a.
  assert (Keep : forall xt xf, agrees (@fst mem nat) m xt xf ->
     agrees (@fst mem (list nat)) m (bind xt (fun x => Ok (fst x, snd x :: held))) (bind xf (fun x => Ok (fst x, snd x :: held)))).
  { intros xt xf F. apply (agrees_bind _ _ fst fst); [assumption|]. intros r _. apply (agrees_ok _ fst (fst r, snd r :: held)). }
  destruct a; unfold act.
  - apply Keep. apply agrees_harmless. intros r E. injection E as <-. apply simple_harmless.
  - apply Keep. apply variable_agrees.
  - apply Keep. apply (agrees_bind _ _ here fst); [apply agrees_harmless; intros; eapply acquire_all_harmless; eassumption|].
    intros m1 _. apply fill_agrees.
  - apply Keep. apply statement_agrees.
  - apply Keep. apply compound_agrees.
  - apply Keep. apply clone_of_agrees.
  - apply Keep. apply duplicate_agrees.
  - apply Keep. apply acquired_agrees.
  - apply Keep. apply acquired_agrees.
  - apply (agrees_bind _ _ here fst); [apply drop_agrees|]. intros m1 _. apply (agrees_ok _ fst (m1, remove_one n held)).
Qed.
End Choosing.
