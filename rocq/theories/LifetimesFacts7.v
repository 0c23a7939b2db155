(* What the operations make. *)
From Coq Require Import String ZArith List Bool Arith Lia.
From Verif Require Import Base Lifetimes LifetimesSpec LifetimesFacts LifetimesFacts2 LifetimesFacts3 LifetimesFacts4.
Import ListNotations.

(* What a list keeps: its components; its indices once it is built, or if it
   has no components. *)
Definition list_kept (b b' : body) : Prop :=
  match b with
  | BIndex x i su k => exists x' i' k', b' = BIndex x' i' su k' /\ (k = true \/ su = [] -> i' = i)
      /\ (k = true -> k' = true /\ (x <> None -> x' = x))
  | _ => True
  end.

Lemma list_kept_refl : forall b, list_kept b b.
Proof. intros b. destruct b as [| |x i su k| |]; simpl; auto. exists x, i, k. auto. Qed.

Lemma list_kept_trans : forall a b c, list_kept a b -> list_kept b c -> list_kept a c.
Proof.
  intros a b c A B. destruct a as [| |x i su k| |]; simpl in *; auto. destruct A as (x1 & i1 & k1 & -> & P1 & Q1).
  destruct B as (x2 & i2 & k2 & -> & P2 & Q2). exists x2, i2, k2. split; [reflexivity|]. split.
  - intros [K|K].
    + rewrite P2 by (left; apply Q1; assumption). auto.
    + rewrite P2 by auto. auto.
  - intros K. destruct (Q1 K) as [K1 X1]. destruct (Q2 K1) as [K2 X2]. split; [assumption|]. intros N. rewrite X2; auto. rewrite X1; auto.
Qed.

(* Terms stay as they are; lists outside of L keep their components, and lists
   outside of W what list_kept says. *)
Record firm2 (L W : list nat) (m m' : mem) : Prop := {
  f_len : length m <= length m';
  f_slot : forall n s, nth_error m n = Some s -> exists s', nth_error m' n = Some s'
    /\ kind_of (s_body s') = kind_of (s_body s)
    /\ match s_body s with BTerm _ _ _ _ _ _ _ _ | BTerms _ => s_body s' = s_body s | _ => True end
    /\ (~ In n L -> succs (s_body s') = succs (s_body s))
    /\ (~ In n W -> list_kept (s_body s) (s_body s'))
}.
Notation firm L := (firm2 L L).

Lemma firm_refl2 : forall L W m, firm2 L W m m.
Proof.
  intros L W m. split; [lia|]. intros n s E. exists s. pose proof (list_kept_refl (s_body s)). destruct (s_body s); auto.
Qed.
Lemma firm_refl : forall L m, firm L m m.
Proof. intros L m. apply firm_refl2. Qed.

Lemma firm_trans2 : forall L W a b c, firm2 L W a b -> firm2 L W b c -> firm2 L W a c.
Proof.
  intros L W a b c [A1 A2] [B1 B2]. split; [lia|]. intros n s E. destruct (A2 n s E) as (s1 & E1 & K1 & T1 & S1 & W1).
  destruct (B2 n s1 E1) as (s2 & E2 & K2 & T2 & S2 & W2). exists s2. split; [assumption|]. split; [congruence|]. split; [|split].
  - destruct (s_body s); auto; rewrite T1 in T2; congruence.
  - intros N. rewrite S2, S1 by assumption. reflexivity.
  - intros N. eapply list_kept_trans; auto.
Qed.
Lemma firm_trans : forall L a b c, firm L a b -> firm L b c -> firm L a c.
Proof. intros L. apply firm_trans2. Qed.

Lemma firm_incl2 : forall L W L' W' m m', incl L L' -> incl W W' -> firm2 L W m m' -> firm2 L' W' m m'.
Proof.
  intros L W L' W' m m' I J [A B]. split; [assumption|]. intros n s E. destruct (B n s E) as (s' & E' & K & T & S & V).
  exists s'. split; [assumption|]. split; [assumption|]. split; [assumption|]. split.
  - intros N. apply S. intros Q. apply N, I, Q.
  - intros N. apply V. intros Q. apply N, J, Q.
Qed.
Lemma firm_incl : forall L L' m m', incl L L' -> firm L m m' -> firm L' m m'.
Proof. intros L L' m m' I. apply firm_incl2; assumption. Qed.

(* Changes to new objects only. *)
Lemma firm_new : forall L a b c, firm [] a b -> firm L b c -> (forall n, In n L -> length a <= n) -> firm [] a c.
Proof.
  intros L a b c [A1 A2] [B1 B2] N. split; [lia|]. intros n s E. destruct (A2 n s E) as (s1 & E1 & K1 & T1 & S1 & W1).
  destruct (B2 n s1 E1) as (s2 & E2 & K2 & T2 & S2 & W2). exists s2. split; [assumption|]. split; [congruence|].
  assert (NL : ~ In n L) by (intros Q; apply N in Q; assert (n < length a) by (apply nth_error_Some; congruence); lia).
  split; [|split].
  - destruct (s_body s); auto; rewrite T1 in T2; congruence.
  - intros _. rewrite S2, S1; auto.
  - intros _. eapply list_kept_trans; auto.
Qed.

Lemma firm_body : forall L W m m' n b, firm2 L W m m' -> kind_of b = KTerm \/ kind_of b = KTerms -> has_body m n b -> has_body m' n b.
Proof.
  intros L W m m' n b F K (s & E & B). destruct (f_slot _ _ _ _ F n s E) as (s' & E' & _ & T & _). exists s'. split; [assumption|].
  rewrite B in T. destruct b; try (destruct K; discriminate); assumption.
Qed.

Lemma firm_kind : forall k L W m m' n, firm2 L W m m' -> is_kind k m n -> is_kind k m' n.
Proof. intros k L W m m' n F (s & E & K). destruct (f_slot _ _ _ _ F n s E) as (s' & E' & Q & _). exists s'. split; [assumption|congruence]. Qed.

(* The components of a list. *)
Definition su_at (m : mem) (k : nat) (l : list nat) : Prop := exists x i b, has_body m k (BIndex x i l b).

Lemma firm_su : forall L W m m' k l, firm2 L W m m' -> ~ In k L -> su_at m k l -> su_at m' k l.
Proof.
  intros L W m m' k l F N (x & i & b & s & E & B). destruct (f_slot _ _ _ _ F k s E) as (s' & E' & K & _ & S & _).
  specialize (S N). rewrite B in K, S. destruct (s_body s') as [| |x' i' su' b'| |] eqn:B'; try discriminate.
  simpl in S. subst su'. exists x', i', b', s'. auto.
Qed.

Lemma alloc_firm : forall m b, firm [] m (fst (alloc m b)).
Proof.
  intros m b. simpl. split; [rewrite app_length; lia|]. intros n s E. exists s.
  split; [rewrite nth_error_app1; [assumption|apply nth_error_Some; congruence]|].
  pose proof (list_kept_refl (s_body s)). destruct (s_body s); auto.
Qed.

Lemma alloc_body : forall m b, has_body (fst (alloc m b)) (length m) b.
Proof. intros m b. simpl. eexists. rewrite nth_error_app2, Nat.sub_diag by lia. split; reflexivity. Qed.

Lemma set_firm : forall L W m n s s', nth_error m n = Some s -> kind_of (s_body s') = kind_of (s_body s) ->
  (s_body s' = s_body s \/ (kind_of (s_body s) = KIndex /\ (In n L \/ succs (s_body s') = succs (s_body s))
                            /\ (In n W \/ list_kept (s_body s) (s_body s')))) ->
  firm2 L W m (set_nth n s' m).
Proof.
  intros L W m n s s' E K T. split; [rewrite set_nth_length; lia|]. intros k x Ek. destruct (Nat.eq_dec n k) as [->|N].
  - rewrite E in Ek. injection Ek as <-. exists s'. split; [eapply set_nth_same; eassumption|]. split; [assumption|].
    destruct T as [T|(T1 & T2 & T3)].
    + rewrite T. pose proof (list_kept_refl (s_body s)). destruct (s_body s); auto.
    + split; [destruct (s_body s); try discriminate; exact I|]. split; intros Q; [destruct T2|destruct T3]; try contradiction; assumption.
  - exists x. split; [rewrite set_nth_other by assumption; assumption|]. pose proof (list_kept_refl (s_body x)). destruct (s_body x); auto.
Qed.

Lemma acquire_firm : forall m n m', acquire m n = Ok m' -> firm [] m m'.
Proof.
  intros m n m' E. unfold acquire in E. destruct (look m n) as [s| | |] eqn:L; try discriminate. simpl in E. injection E as <-.
  apply look_inv in L. destruct L as [L1 L2]. eapply set_firm; [eassumption|reflexivity|]. left. reflexivity.
Qed.

Lemma acquire_all_firm : forall l m m', acquire_all m l = Ok m' -> firm [] m m'.
Proof.
  induction l as [|n l IH]; intros m m' E; simpl in E.
  - injection E as <-. apply firm_refl.
  - destruct (acquire m n) as [m1| | |] eqn:A; try discriminate. eapply firm_trans; [eapply acquire_firm; eassumption|eauto].
Qed.

Lemma write_firm : forall L W m n b b' m', has_body m n b -> kind_of b = KIndex -> kind_of b' = KIndex ->
  (In n L \/ succs b' = succs b) -> (In n W \/ list_kept b b') -> write m n b' = Ok m' -> firm2 L W m m'.
Proof.
  intros L W m n b b' m' (s & E0 & B) K K' Su Ls E. unfold write in E. destruct (look m n) as [s1| | |] eqn:Lk; try discriminate.
  simpl in E. injection E as <-. apply look_inv in Lk. destruct Lk as [L1 L2]. rewrite E0 in L1. injection L1 as <-.
  eapply set_firm; [eassumption|simpl; congruence|]. right. rewrite B. auto.
Qed.

Lemma write_body : forall m n b m', write m n b = Ok m' -> has_body m' n b.
Proof.
  intros m n b m' E. unfold write in E. destruct (look m n) as [s| | |] eqn:Lk; try discriminate. simpl in E. injection E as <-.
  apply look_inv in Lk. destruct Lk as [L1 _]. eexists. split; [eapply set_nth_same; eassumption|reflexivity].
Qed.

Lemma each_firm : forall L f, (forall m n m', f m n = Ok m' -> firm L m m') -> forall l m m', each f m l = Ok m' -> firm L m m'.
Proof.
  intros L f F. induction l as [|n l IH]; intros m m' E; simpl in E.
  - injection E as <-. apply firm_refl.
  - destruct (f m n) as [m1| | |] eqn:Q; try discriminate. eapply firm_trans; [eapply F; eassumption|eauto].
Qed.

Lemma release_firm : forall fuel m n m', release false fuel m n = Ok m' -> firm [] m m'.
Proof.
  induction fuel as [|fuel IH]; intros m n m' E; [discriminate|]. simpl in E.
  destruct (look m n) as [s| | |] eqn:Lk; try discriminate. simpl in E. apply look_inv in Lk. destruct Lk as [L1 L2].
  destruct (s_count s) as [|[|c]]; [discriminate| |].
  - eapply firm_trans; [|eapply (each_firm [] (release false fuel)); [exact IH|exact E]].
    eapply set_firm; [eassumption|reflexivity|]. left. reflexivity.
  - injection E as <-. eapply set_firm; [eassumption|reflexivity|]. left. reflexivity.
Qed.

Lemma drop_all_firm : forall l m m', drop_all false m l = Ok m' -> firm [] m m'.
Proof. intros l m m' E. eapply each_firm; [|exact E]. intros a n b Q. eapply release_firm. exact Q. Qed.

Ltac step E x Q := match type of E with
  | bind ?y _ = Ok _ => destruct y as [x| | |] eqn:Q; [cbn [bind] in E|discriminate E..]
  end.

Lemma body_has : forall m n b, body_at m n = Ok b -> has_body m n b.
Proof. intros m n b E. apply body_inv in E. destruct E as (s & A & _ & B). exists s. auto. Qed.

Lemma su_of : forall m n x i su k, has_body m n (BIndex x i su k) -> su_at m n su.
Proof. intros m n x i su k B. exists x, i, k. assumption. Qed.

Lemma su_kind : forall m n l, su_at m n l -> is_kind KIndex m n.
Proof. intros m n l (x & i & b & s & E & B). exists s. rewrite B. auto. Qed.

Lemma each_firm2 : forall L W f, (forall m n m', f m n = Ok m' -> firm2 L W m m') -> forall l m m', each f m l = Ok m' -> firm2 L W m m'.
Proof.
  intros L W f F. induction l as [|n l IH]; intros m m' E; simpl in E.
  - injection E as <-. apply firm_refl2.
  - destruct (f m n) as [m1| | |] eqn:Q; try discriminate. eapply firm_trans2; [eapply F; eassumption|eauto].
Qed.

Lemma alloc_has : forall m b n b', has_body m n b' -> has_body (fst (alloc m b)) n b'.
Proof.
  intros m b n b' (s & E & B). exists s. split; [|assumption]. simpl. rewrite nth_error_app1; [assumption|apply nth_error_Some; congruence].
Qed.

Lemma normalize_firm : forall m n m', normalize m n = Ok m' -> firm [] m m'.
Proof.
  intros m n m' E. unfold normalize in E. step E b Q. apply body_has in Q. destruct b as [| |[v|] i s k| |]; try discriminate.
  - injection E as <-. apply firm_refl.
  - pose proof (alloc_firm m BVector) as F. pose proof (alloc_has m BVector _ _ Q) as Q1. destruct (alloc m BVector) as [m1 v]. simpl fst in *.
    eapply firm_trans; [exact F|]. eapply write_firm; [exact Q1| | | | |exact E]; [reflexivity..|right; reflexivity|]. right.
    exists (Some v), i, k. split; [reflexivity|]. split; [reflexivity|]. intros K. split; [exact K|]. congruence.
Qed.

Lemma connect_firm : forall m a b m' l, connect false m a b = Ok m' -> su_at m a l -> firm [a] m m' /\ su_at m' a (l ++ [b]).
Proof.
  intros m a b m' l E Su. unfold connect in E. step E bd Q. apply body_has in Q. destruct bd as [| |x i s k| |]; try discriminate.
  assert (s = l). { destruct Su as (x' & i' & k' & s1 & E1 & B1). destruct Q as (s2 & E2 & B2). rewrite E1 in E2. injection E2 as <-. congruence. }
  subst s. step E m1 W1. step E m2 D. step E m3 A.
  assert (F1 : firm2 [] [a] m m1).
  { eapply write_firm; [exact Q| | | | |exact W1]; [reflexivity..|right; reflexivity|left; left; reflexivity]. }
  pose proof (drop_all_firm _ _ _ D) as F2. pose proof (acquire_firm _ _ _ A) as F3.
  assert (F : firm2 [] [a] m m3).
  { eapply firm_trans2; [exact F1|]. eapply firm_incl2; [| |exact (firm_trans _ _ _ _ F2 F3)]; intros z []. }
  pose proof (firm_su _ _ _ _ _ _ F (fun q => q) Su) as (x3 & i3 & k3 & B3).
  split; [|exists None, i, false; eapply write_body; exact E].
  eapply firm_trans2; [eapply firm_incl2; [| |exact F]; [intros z []|intros z I; exact I]|].
  eapply write_firm; [exact B3| | | | |exact E]; [reflexivity..|left; left; reflexivity|left; left; reflexivity].
Qed.

Lemma write_su : forall W m n x i su k x' i' k' m', has_body m n (BIndex x i su k) -> (In n W \/ list_kept (BIndex x i su k) (BIndex x' i' su k')) ->
  write m n (BIndex x' i' su k') = Ok m' -> firm2 [] W m m'.
Proof. intros W m n x i su k x' i' k' m' B I E. eapply write_firm; [exact B| | | | |exact E]; [reflexivity..|right; reflexivity|exact I]. Qed.

Lemma firm_fix : forall n m m' x i su k, firm2 [] [n] m m' -> has_body m n (BIndex x i su k) ->
  (forall x' i' k', has_body m' n (BIndex x' i' su k') -> list_kept (BIndex x i su k) (BIndex x' i' su k')) -> firm [] m m'.
Proof.
  intros n m m' x i su k F B Fx. destruct (firm_su _ _ _ _ _ _ F (fun q => q) (su_of _ _ _ _ _ _ B)) as (x' & i' & k' & B').
  specialize (Fx _ _ _ B'). destruct F as [A1 A2]. split; [assumption|]. intros q s E. destruct (A2 q s E) as (s' & E' & K & T & S1 & S2).
  exists s'. split; [assumption|]. split; [assumption|]. split; [assumption|]. split; [assumption|]. intros _.
  destruct (Nat.eq_dec q n) as [->|N].
  - destruct B as (s1 & E1 & B1), B' as (s2 & E2 & B2). rewrite E in E1. rewrite E' in E2. injection E1 as <-. injection E2 as <-.
    rewrite B1, B2. exact Fx.
  - apply S2. intros [Q|[]]. congruence.
Qed.

Lemma build_firm : forall fuel m n m', build false fuel m n = Ok m' -> firm [] m m'.
Proof.
  induction fuel as [|fuel IH]; intros m n m' E; [discriminate|]. simpl in E. step E b Q. apply body_has in Q.
  destruct b as [| |x i s [|]| |]; try discriminate; [injection E as <-; apply firm_refl|].
  step E m1 W1. step E m2 D. step E m6 Lp. step E bn Q6. apply body_has in Q6. destruct bn as [| |x6 j6 t6 k6| |]; try discriminate.
  step E m7 W7.
  assert (F1 : firm2 [] [n] m m1) by (eapply write_su; [exact Q|left; left; reflexivity|exact W1]).
  assert (F2 : firm2 [] [n] m1 m2) by (eapply firm_incl2; [| |exact (drop_all_firm _ _ _ D)]; intros z []).
  assert (F6 : firm2 [] [n] m2 m6).
  { eapply each_firm2; [|exact Lp]. intros m3 son m4 E4. simpl in E4. step E4 m5 B5. step E4 bs Qs. destruct bs as [| |xs is ss ks| |]; try discriminate.
    step E4 m5' A5. step E4 bn Qn. apply body_has in Qn. destruct bn as [| |xn jn tn kn| |]; try discriminate.
    eapply firm_trans2; [eapply firm_incl2; [| |exact (firm_trans _ _ _ _ (IH _ _ _ B5) (acquire_all_firm _ _ _ A5))]; intros z []|].
    eapply write_su; [exact Qn|left; left; reflexivity|exact E4]. }
  assert (F7 : firm2 [] [n] m6 m7) by (eapply write_su; [exact Q6|left; left; reflexivity|exact W7]).
  pose proof (normalize_firm _ _ _ E) as F8. apply (firm_incl2 _ _ [] [n]) in F8; [|intros z []|intros z []].
  eapply (firm_fix n); [eapply firm_trans2; [exact F1|]; eapply firm_trans2; [exact F2|]; eapply firm_trans2; [exact F6|]; eapply firm_trans2; eassumption|exact Q|].
  intros x' i' k' B'. exists x', i', k'. split; [reflexivity|]. split; [|discriminate]. intros [K| ->]; [discriminate|].
  simpl in D, Lp, W1. unfold drop_all in D. simpl in D. injection D as <-. injection Lp as <-.
  pose proof (write_body _ _ _ _ W1) as B1. destruct B1 as (s1 & E1 & B1), Q6 as (s2 & E2 & B2). rewrite E1 in E2. injection E2 as <-.
  rewrite B1 in B2. injection B2 as <- <- <- <-. pose proof (write_body _ _ _ _ W7) as B7.
  unfold normalize in E. step E b7 Q7. apply body_has in Q7. destruct B7 as (s3 & E3 & B3), Q7 as (s4 & E4 & B4). rewrite E3 in E4. injection E4 as <-.
  rewrite B3 in B4. subst b7. destruct x as [v|].
  - injection E as <-. destruct B' as (s5 & E5 & B5). rewrite E3 in E5. injection E5 as <-. rewrite B3 in B5. congruence.
  - destruct (alloc m7 BVector) as [m8 v]. pose proof (write_body _ _ _ _ E) as (s6 & E6 & B6). destruct B' as (s5 & E5 & B5).
    rewrite E6 in E5. injection E5 as <-. rewrite B6 in B5. congruence.
Qed.

Lemma build_one_firm : forall m h n m', build_one false m h n = Ok m' -> firm [] m m'.
Proof.
  intros m h n m' E. unfold build_one in E. destruct h; [eapply build_firm; exact E|]. step E b Q. apply body_has in Q.
  destruct b as [| |x i s k| |]; try discriminate.
  eapply write_su; [exact Q| |exact E]. right. exists x, i, true. split; [reflexivity|]. split; [reflexivity|]. auto.
Qed.

Lemma build_lists_firm : forall m v f m', build_lists false m v f = Ok m' -> firm [] m m'.
Proof.
  intros m [[a b] c] f m' E. simpl in E. step E m1 E1. step E m2 E2.
  eapply firm_trans; [eapply build_one_firm; exact E1|]. eapply firm_trans; [eapply build_one_firm; exact E2|eapply build_one_firm; exact E].
Qed.

Lemma hash_lists_firm : forall m v m', hash_lists m v = Ok m' -> firm [] m m'.
Proof.
  intros m [[a b] c] m' E. simpl in E. step E m1 E1. step E m2 E2.
  eapply firm_trans; [eapply normalize_firm; exact E1|]. eapply firm_trans; [eapply normalize_firm; exact E2|eapply normalize_firm; exact E].
Qed.

Lemma ilist_firm : forall L W m m' t v, firm2 L W m m' -> ilist m t v -> ilist m' t v.
Proof.
  intros L W m m' t v F (c & f & a & b & l & y & z & B). exists c, f, a, b, l, y, z. eapply firm_body; [exact F| |exact B]. left. reflexivity.
Qed.

Lemma list_at_ilist : forall m t v, list_at m t = Ok v -> ilist m t v.
Proof.
  intros m t v E. unfold list_at, term_at in E. destruct (body_at m t) as [b| | |] eqn:Q; try discriminate. simpl in E.
  destruct b as [c f a b l x y z| | | |]; try discriminate. simpl in E. injection E as <-.
  exists c, f, a, b, l, y, z. apply body_has. assumption.
Qed.

Lemma join_lists_firm : forall parts m a b c m' l, NoDup [a; b; c] -> join_lists false m (a, b, c) parts = Ok m' ->
  (forall k, In k [a; b; c] -> su_at m k l) ->
  firm [a; b; c] m m' /\ exists sons, Forall2 (ilist m') parts sons /\ forall k, In k [a; b; c] -> su_at m' k (l ++ sons).
Proof.
  induction parts as [|t parts IH]; intros m a b c m' l ND E Su.
  - simpl in E. injection E as <-. split; [apply firm_refl|]. exists []. split; [constructor|]. intros k I. rewrite app_nil_r. auto.
  - simpl in E. unfold join_lists in E. simpl in E. step E m1 E1. step E1 son Ls. step E1 m2 C1. step E1 m3 C2.
    assert (Nab : a <> b) by (inversion ND as [|? ? N1 N2]; intros ->; apply N1; left; reflexivity).
    assert (Nac : a <> c) by (inversion ND as [|? ? N1 N2]; intros ->; apply N1; right; left; reflexivity).
    assert (Nbc : b <> c) by (inversion ND as [|? ? _ N1]; inversion N1 as [|? ? N2 N3]; intros ->; apply N2; left; reflexivity).
    destruct (connect_firm _ _ _ _ _ C1 (Su a (or_introl eq_refl))) as [F1 Sa].
    assert (Sb : su_at m2 b l) by (eapply firm_su; [exact F1| |apply Su; simpl; auto]; simpl; intuition congruence).
    assert (Sc : su_at m2 c l) by (eapply firm_su; [exact F1| |apply Su; simpl; auto]; simpl; intuition congruence).
    destruct (connect_firm _ _ _ _ _ C2 Sb) as [F2 Sb'].
    assert (Sa' : su_at m3 a (l ++ [son])) by (eapply firm_su; [exact F2| |exact Sa]; simpl; intuition congruence).
    assert (Sc' : su_at m3 c l) by (eapply firm_su; [exact F2| |exact Sc]; simpl; intuition congruence).
    destruct (connect_firm _ _ _ _ _ E1 Sc') as [F3 Sc''].
    assert (F : firm [a; b; c] m m1).
    { eapply firm_trans; [eapply firm_incl; [|exact F1]; intros z [<-|[]]; simpl; auto|].
      eapply firm_trans; [eapply firm_incl; [|exact F2]; intros z [<-|[]]; simpl; auto|].
      eapply firm_incl; [|exact F3]; intros z [<-|[]]; simpl; auto. }
    destruct (IH m1 a b c m' (l ++ [son]) ND E) as (F' & sons & Fa & Sn).
    { intros k [<-|[<-|[<-|[]]]]; [| |assumption].
      - eapply firm_su; [exact F3| |exact Sa']; simpl; intuition congruence.
      - eapply firm_su; [exact F3| |exact Sb']; simpl; intuition congruence. }
    split; [eapply firm_trans; eassumption|]. exists (son :: sons). split.
    + constructor; [|assumption]. eapply ilist_firm; [exact F'|]. eapply ilist_firm; [exact F|]. apply list_at_ilist. assumption.
    + intros k I. specialize (Sn k I). rewrite <- app_assoc in Sn. exact Sn.
Qed.

Lemma new_lists_made : forall m m' a b c, new_lists m = (m', (a, b, c)) -> firm [] m m' /\ a = length m /\ b = S (length m) /\ c = S (S (length m))
  /\ length m' = S (S (S (length m))) /\ (forall k, In k [a; b; c] -> su_at m' k []).
Proof.
  intros m m' a b c E. pose proof (new_lists_body m m' a b c E) as B. unfold new_lists, new_list in E.
  pose proof (alloc_firm m (BIndex None [] [] false)) as F1. destruct (alloc m (BIndex None [] [] false)) as [m1 a1] eqn:E1.
  pose proof (alloc_firm m1 (BIndex None [] [] false)) as F2. destruct (alloc m1 (BIndex None [] [] false)) as [m2 b1] eqn:E2.
  pose proof (alloc_firm m2 (BIndex None [] [] false)) as F3. destruct (alloc m2 (BIndex None [] [] false)) as [m3 c1] eqn:E3.
  simpl fst in *. injection E as <- <- <- <-. split; [eapply firm_trans; [exact F1|]; eapply firm_trans; eassumption|].
  assert (Sn : forall k, In k [a1; b1; c1] -> su_at m3 k []).
  { intros k I. specialize (B k I). exists None, [], false. eexists. split; [exact B|reflexivity]. }
  split; [|split; [|split; [|split; [|exact Sn]]]]; clear B Sn;
    unfold alloc in E1, E2, E3; injection E1 as <- <-; injection E2 as <- <-; injection E3 as <- <-; rewrite ?app_length; simpl; lia.
Qed.

Lemma new_ints_firm : forall k m m' l, new_ints m k = (m', l) -> firm [] m m'.
Proof.
  induction k as [|k IH]; intros m m' l E; simpl in E.
  - injection E as <- _. apply firm_refl.
  - destruct (new_ints (m ++ [Slot 1 true false BInt]) k) as [m2 l2] eqn:E2. injection E as <- _.
    eapply firm_trans; [exact (alloc_firm m BInt)|eapply IH; eassumption].
Qed.

Lemma copy_list_made : forall m n r, copy_list m n = Ok r -> firm [] m (fst r) /\ length m <= snd r /\ S (snd r) = length (fst r).
Proof.
  intros m n r E. unfold copy_list in E. step E b Q. destruct b as [| |x i s k| |]; try discriminate.
  assert (W : forall m1 x', firm [] m m1 -> (let '(m2, ints') := new_ints m1 (length i) in Ok (alloc m2 (BIndex x' ints' [] false))) = Ok r ->
     firm [] m (fst r) /\ length m <= snd r /\ S (snd r) = length (fst r)).
  { intros m1 x' F1 E'. destruct (new_ints m1 (length i)) as [m2 l] eqn:E2. injection E' as <-.
    pose proof (new_ints_firm _ _ _ _ E2) as F2. pose proof (firm_trans _ _ _ _ F1 F2) as F12.
    split; [eapply firm_trans; [exact F12|apply alloc_firm]|]. simpl. rewrite app_length. simpl. destruct F12. lia. }
  destruct x; [apply (W _ _ (alloc_firm m BVector) E)|apply (W _ _ (firm_refl [] m) E)].
Qed.

Lemma copy_variable_made : forall m name f v m' r, copy_variable m (CVariable name) f v = Ok (m', r) ->
  firm [] m m' /\ exists x y z, has_body m' r (BTerm (CVariable name) f None None None x y z) /\ new m [x; y; z; r].
Proof.
  intros m name f [[a b] c] m' r E. unfold copy_variable in E. step E r1 E1. step E r2 E2. step E r3 E3. injection E as <- <-.
  destruct (copy_list_made _ _ _ E1) as (F1 & L1 & N1). destruct (copy_list_made _ _ _ E2) as (F2 & L2 & N2).
  destruct (copy_list_made _ _ _ E3) as (F3 & L3 & N3).
  pose proof (f_len _ _ _ _ F1). pose proof (f_len _ _ _ _ F2). pose proof (f_len _ _ _ _ F3).
  split; [eapply firm_trans; [exact F1|]; eapply firm_trans; [exact F2|]; eapply firm_trans; [exact F3|]; exact (alloc_firm (fst r3) (BTerm (CVariable name) f None None None (snd r1) (snd r2) (snd r3)))|].
  exists (snd r1), (snd r2), (snd r3).
  split; [exact (alloc_body (fst r3) (BTerm (CVariable name) f None None None (snd r1) (snd r2) (snd r3)))|]. split.
  - repeat constructor; simpl; intuition lia.
  - intros n [<-|[<-|[<-|[<-|[]]]]]; lia.
Qed.

