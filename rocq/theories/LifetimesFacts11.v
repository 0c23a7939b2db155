(* Copies. *)
From Coq Require Import String ZArith List Bool Arith Lia.
From Verif Require Import Base Lifetimes LifetimesSpec LifetimesFacts LifetimesFacts2 LifetimesFacts3 LifetimesFacts4 LifetimesFacts7 LifetimesFacts9 LifetimesFacts10.
Import ListNotations.

(* ---- copies stay copies ---- *)
Definition above (k : nat) (l : list nat) : Prop := NoDup l /\ forall n, In n l -> k <= n.

(* As copied, with everything new at k or above. *)
Inductive cop (k : nat) (m m' : mem) : nat -> nat -> Prop :=
  | cop_shared : forall n c f a b l x y z,
      has_body m n (BTerm c f a b l x y z) -> f_var f = false -> cop k m m' n n
  | cop_variable : forall n r name f x y z x' y' z',
      has_body m n (BTerm (CVariable name) f None None None x y z) -> f_var f = true ->
      has_body m' r (BTerm (CVariable name) f None None None x' y' z') -> above k [x'; y'; z'; r] ->
      sizes m m' [x; y; z] [x'; y'; z'] -> cop k m m' n r
  | cop_statement : forall n r f s p s' p' x y z x' y' z',
      has_body m n (BTerm CStatement f (Some s) (Some p) None x y z) -> f_var f = true ->
      has_body m' r (BTerm CStatement f (Some s') (Some p') None x' y' z') -> above k [x'; y'; z'; r] ->
      lists_of m' f x' y' z' [s'; p'] ->
      cop k m m' s s' -> cop k m m' p p' -> cop k m m' n r
  | cop_compound : forall n r f t t' l l' pick x y z x' y' z',
      has_body m n (BTerm CCompound f None None (Some t) x y z) -> f_var f = true -> has_body m t (BTerms l) ->
      has_body m' r (BTerm CCompound f None None (Some t') x' y' z') -> above k [x'; y'; z'; t'; r] ->
      has_body m' t' (BTerms (picked pick l')) -> NoDup pick -> (forall i, In i pick -> i < length l') ->
      lists_of m' f x' y' z' (picked pick l') ->
      Forall2 (cop k m m') l l' -> cop k m m' n r.

Lemma cop_copied : forall m m' n r, cop (length m) m m' n r -> copied m m' n r.
Proof.
  intros m m'. fix IH 3. intros n r C. destruct C.
  - eapply copied_shared; eassumption.
  - eapply copied_variable; eassumption.
  - eapply copied_statement; try eassumption; apply IH; assumption.
  - eapply copied_compound; try eassumption. clear -IH H8. induction H8; constructor; [apply IH; assumption|assumption].
Qed.

Lemma joined_firm : forall L m m' lists parts, firm L m m' -> (forall k, In k lists -> ~ In k L) -> joined m lists parts -> joined m' lists parts.
Proof.
  intros L m m' lists parts F N (sons & A & B). exists sons. split.
  - clear B. induction A as [|t v l l' H1 A IH]; constructor; [eapply ilist_firm; eassumption|assumption].
  - intros k I. destruct (B k I) as (x & i & b & Hb). eapply (firm_su L L m m'); [exact F|apply N; assumption|]. exists x, i, b. assumption.
Qed.

Lemma sizes_firm : forall L m m1 m2 l l', firm L m1 m2 -> (forall q, In q l' -> ~ In q L) -> sizes m m1 l l' -> sizes m m2 l l'.
Proof.
  intros L m m1 m2 l l' F N Z. induction Z as [|x x' l l' H Z IH]; constructor.
  - eapply size_firm; [exact F|apply N; left; reflexivity|exact H].
  - apply IH. intros q I. apply N. right. assumption.
Qed.

Lemma lists_firm : forall L m m' f x y z parts, firm L m m' -> (forall k, In k [x; y; z] -> ~ In k L) -> (forall q, In q L -> unbuilt m q) ->
  lists_of m f x y z parts -> lists_of m' f x y z parts.
Proof.
  intros L m m' f x y z parts F N U (A & B & C & D). split; [eapply joined_firm; eassumption|].
  split; [|split]; (eapply collected_firm; [exact F|apply N; simpl; auto|exact U|assumption]).
Qed.

Lemma cop_firm : forall L k k' m0 m m', firm L m m' -> (forall q, In q L -> q < k) -> (forall q, In q L -> unbuilt m q) -> k' <= k ->
  forall n r, cop k m0 m n r -> cop k' m0 m' n r.
Proof.
  intros L k k' m0 m m' F Lo U Le. fix IH 3. intros n r C.
  assert (Bd : forall n b, kind_of b = KTerm \/ kind_of b = KTerms -> has_body m n b -> has_body m' n b) by (intros; eapply firm_body; eassumption).
  assert (Ab : forall l, above k l -> above k' l) by (intros l [P Q]; split; [assumption|]; intros q I; apply Q in I; lia).
  assert (Jn : forall l f x y z parts, above k l -> incl [x; y; z] l -> lists_of m f x y z parts -> lists_of m' f x y z parts).
  { intros l f x y z parts [_ P] I J. eapply lists_firm; [exact F| |exact U|exact J]. intros q Iq IL. apply I, P in Iq. apply Lo in IL. lia. }
  destruct C.
  - eapply cop_shared; eassumption.
  - eapply cop_variable; eauto. eapply sizes_firm; [exact F| |eassumption].
    match goal with H : above k [x'; y'; z'; r] |- _ => destruct H as [_ P] end. intros q Iq IL. apply Lo in IL.
    assert (k <= q) by (apply P; simpl in *; tauto). lia.
  - eapply cop_statement; eauto. eapply Jn; [eassumption| |assumption]. intros q I. simpl in *. tauto.
  - eapply cop_compound; try eassumption; try (apply Bd; [simpl; auto|eassumption]).
    + apply Ab. assumption.
    + eapply Jn; [eassumption| |assumption]. intros q I. simpl in *. tauto.
    + clear -IH H8. induction H8; constructor; [apply IH; assumption|assumption].
Qed.

Lemma cop_on : forall k k' m0 m m' n r, firm [] m m' -> k' <= k -> cop k m0 m n r -> cop k' m0 m' n r.
Proof. intros k k' m0 m m' n r F Le C. eapply cop_firm; [exact F|intros q []|intros q []|exact Le|exact C]. Qed.

(* Reading the original in a later memory. *)
Lemma new_firm : forall L m0 m1 l, firm L m0 m1 -> new m1 l -> new m0 l.
Proof. intros L m0 m1 l F [A B]. split; [assumption|]. intros n I. apply B in I. pose proof (f_len _ _ _ _ F). lia. Qed.

Lemma body_back : forall L m0 m1 n b, firm L m0 m1 -> alive m0 n -> is_kind KTerm m0 n \/ is_kind KTerms m0 n ->
  has_body m1 n b -> has_body m0 n b.
Proof.
  intros L0 m0 m1 n b F (s & E & L) K (s1 & E1 & B1). destruct (f_slot _ _ _ _ F n s E) as (s' & E' & Kd & T & _).
  rewrite E1 in E'. injection E' as <-.
  exists s. split; [assumption|]. assert (Q : kind_of (s_body s) = KTerm \/ kind_of (s_body s) = KTerms).
  { destruct K as [(y & Y & Z)|(y & Y & Z)]; rewrite E in Y; injection Y as <-; auto. }
  destruct (s_body s); try (destruct Q; discriminate); congruence.
Qed.

Section Copies.
Variables (m0 : mem) (X0 H0 : list nat).
Hypothesis G : good m0 X0 H0.

Lemma sub_part : forall n c f a b t x y z, alive m0 n -> has_body m0 n (BTerm c f a b t x y z) ->
  (forall q, In q (opt a ++ opt b) -> alive m0 q /\ is_kind KTerm m0 q)
  /\ (forall q, In q (opt t) -> alive m0 q /\ is_kind KTerms m0 q) /\ right_class c f a b t.
Proof.
  intros n c f a b t x y z (s & E & L) (s1 & E1 & B1). rewrite E in E1. injection E1 as <-.
  pose proof (g_ty _ _ _ G n s E L) as T. rewrite B1 in T. destruct T as (T1 & T2 & _ & T4).
  split; [|split; [|assumption]]; intros q I;
    (split; [apply (pointed_alive m0 X0 H0 n q G); exists s; split; [assumption|]; split; [assumption|];
             rewrite B1; simpl; rewrite !in_app_iff in *; tauto|auto]).
Qed.

Lemma sub_element : forall t l, alive m0 t -> has_body m0 t (BTerms l) -> forall q, In q l -> alive m0 q /\ is_kind KTerm m0 q.
Proof.
  intros t l (s1 & E1 & L1) (s & E & B). rewrite E in E1. injection E1 as <-. apply (terms_elements m0 X0 H0 t s l G E L1 B).
Qed.

Variable choose : mem -> list nat -> list nat.
Hypothesis proper : proper_choice choose.

Lemma alive_lt : forall m n, firm [] m0 m -> alive m0 n -> n < length m.
Proof. intros m n F (s & E & _). pose proof (f_len _ _ _ _ F). assert (n < length m0) by (apply nth_error_Some; congruence). lia. Qed.

Definition copies (cl : mem -> nat -> res (mem * nat)) : Prop :=
  forall m n m' r, firm [] m0 m -> shut m -> alive m0 n -> is_kind KTerm m0 n -> cl m n = Ok (m', r) ->
    firm [] m m' /\ cop (length m) m0 m' n r.

Lemma clones_copies : forall cl, copies cl -> tame cl -> forall l m m' rs, firm [] m0 m -> shut m -> (forall n, In n l -> alive m0 n /\ is_kind KTerm m0 n) ->
  clones cl m l = Ok (m', rs) -> firm [] m m' /\ Forall2 (cop (length m) m0 m') l rs.
Proof.
  intros cl C T. induction l as [|n l IH]; intros m m' rs F Sh A E; simpl in E.
  - injection E as <- <-. split; [apply firm_refl|constructor].
  - step E r1 E1. step E r2 E2. injection E as <- <-. destruct r1 as [m1 r1], r2 as [m2 r2]. simpl fst in *. simpl snd in *.
    destruct (A n (or_introl eq_refl)) as [A1 A2]. destruct (C _ _ _ _ F Sh A1 A2 E1) as [F1 C1].
    destruct (tame_shut _ _ _ _ _ T Sh (alive_lt _ _ F A1) E1) as [Sh1 _].
    destruct (IH _ _ _ (firm_trans _ _ _ _ F F1) Sh1 (fun q I => A q (or_intror I)) E2) as [F2 C2].
    split; [eapply firm_trans; eassumption|]. constructor; [eapply cop_on; [exact F2|apply Nat.le_refl|exact C1]|].
    clear -C2 F1. pose proof (f_len _ _ _ _ F1). induction C2; constructor; [|assumption].
    eapply cop_on; [apply (firm_refl [])|eassumption|eassumption].
Qed.

Lemma fill_made : forall m l m' t, fill false choose m l = Ok (m', t) -> firm [] m m' /\ length m <= t /\ S t = length m' /\
  exists pick, NoDup pick /\ (forall i, In i pick -> i < length l) /\ has_body m' t (BTerms (picked pick l)).
Proof.
  intros m l m' t E. unfold fill in E. step E m1 D. pose proof (drop_all_firm _ _ _ D) as F.
  pose proof (alloc_firm m1 (BTerms (picked (choose m l) l))) as F1. pose proof (alloc_body m1 (BTerms (picked (choose m l) l))) as B1.
  injection E as <- <-. split; [eapply firm_trans; [exact F|exact F1]|]. split; [exact (f_len _ _ _ _ F)|].
  split; [rewrite app_length; simpl; lia|]. exists (choose m l). destruct (proper m l) as [P1 P2]. auto.
Qed.

(* The end of a constructor: the lists are joined to the parts and built. *)
Lemma finish_made : forall m m1 m2 m3 m4 a b c parts f d s p t, new_lists m = (m1, (a, b, c)) -> firm [] m1 m2 -> all_unbuilt m2 a b c ->
  join_lists false m2 (a, b, c) parts = Ok m3 -> build_lists false m3 (a, b, c) f = Ok m4 ->
  let m5 := fst (alloc m4 (BTerm d f s p t a b c)) in
  firm [] m m5 /\ firm [a; b; c] m2 m5 /\ has_body m5 (length m4) (BTerm d f s p t a b c) /\ new m [a; b; c; length m4]
  /\ lists_of m5 f a b c parts /\ length m2 <= length m4.
Proof.
  intros m m1 m2 m3 m4 a b c parts f d s p t N F2 (Ua & Ub & Uc) J Bl m5. destruct (new_lists_made _ _ _ _ _ N) as (F1 & Ea & Eb & Ec & L1 & Su).
  assert (ND : NoDup [a; b; c]) by (repeat constructor; simpl; intuition lia).
  destruct (join_lists_firm parts m2 a b c m3 [] ND J) as (F3 & sons & Fa & Sn).
  { intros k I. eapply firm_su; [exact F2|intros []|]. auto. }
  pose proof (build_lists_firm _ _ _ _ Bl) as F4. pose proof (alloc_firm m4 (BTerm d f s p t a b c)) as F5. fold m5 in F5.
  pose proof (firm_trans _ _ _ _ F4 F5) as F45.
  assert (F35 : firm [a; b; c] m2 m5) by (eapply firm_trans; [exact F3|eapply firm_incl; [|exact F45]; intros z []]).
  split; [|split; [exact F35|split; [apply alloc_body|split; [|split]]]].
  - eapply firm_new; [eapply firm_trans; [exact F1|exact F2]|exact F35|]. intros n [<-|[<-|[<-|[]]]]; lia.
  - pose proof (f_len _ _ _ _ F2). pose proof (f_len _ _ _ _ F3). pose proof (f_len _ _ _ _ F4). split.
    + repeat constructor; simpl; intuition lia.
    + intros n [<-|[<-|[<-|[<-|[]]]]]; lia.
  - assert (U3 : all_unbuilt m3 a b c) by (split; [|split]; (eapply join_unbuilt; [|exact J]; assumption)).
    destruct (build_lists_collect _ _ _ _ _ _ ND U3 Bl) as (Ca & Cb & Cc).
    eapply (lists_firm [] m4 m5); [exact F5|intros k _ []|intros q []|]. split; [|auto].
    eapply joined_firm; [exact F4|intros k _ []|]. exists sons. split; [exact Fa|]. intros k I. destruct (Sn k I) as (x & i & q & B). eauto.
  - pose proof (f_len _ _ _ _ F3). pose proof (f_len _ _ _ _ F4). lia.
Qed.

Lemma copy_shared : forall m n c f a b t x y z k, firm [] m0 m -> alive m0 n -> is_kind KTerm m0 n ->
  has_body m n (BTerm c f a b t x y z) -> f_var f = false -> forall m', cop k m0 m' n n.
Proof. intros. eapply cop_shared; [|eassumption]. eapply body_back; eauto. Qed.

Lemma pairs_unbuilt : forall cl m1 n m2 r a b c, tame cl -> all_unbuilt m1 a b c -> n < a -> n < b -> n < c -> cl m1 n = Ok (m2, r) -> all_unbuilt m2 a b c.
Proof. intros cl m1 n m2 r a b c T (Ua & Ub & Uc) La Lb Lc E. split; [|split]; (eapply tame_unbuilt; [exact T|eassumption| |exact E]; lia). Qed.

Lemma statement_copy_made : forall cl m f s p m' r, copies cl -> tame cl -> firm [] m0 m -> shut m -> alive m0 s -> is_kind KTerm m0 s -> alive m0 p ->
  is_kind KTerm m0 p -> statement_copy false cl m f s p = Ok (m', r) -> firm [] m m' /\
  exists s' p' x y z, has_body m' r (BTerm CStatement f (Some s') (Some p') None x y z) /\ above (length m) [x; y; z; r]
    /\ lists_of m' f x y z [s'; p'] /\ cop (length m) m0 m' s s' /\ cop (length m) m0 m' p p'.
Proof.
  intros cl m f s p m' r C T F Sh As Ks Ap Kp E. unfold statement_copy in E. destruct (new_lists m) as [m1 [[a b] c]] eqn:N.
  destruct (new_lists_made _ _ _ _ _ N) as (F1 & Ea & Eb & Ec & L1 & _). destruct (new_lists_unbuilt _ _ _ _ _ Sh N) as [U1 Sh1].
  pose proof (alive_lt _ _ F As) as Ls. pose proof (alive_lt _ _ F Ap) as Lp.
  step E r1 E1. step E r2 E2. destruct r1 as [m2 s'], r2 as [m3 p']. simpl fst in *. simpl snd in *. step E m4 J. step E m5 Bl.
  destruct (C _ _ _ _ (firm_trans _ _ _ _ F F1) Sh1 As Ks E1) as [F2 C1].
  assert (Ls1 : s < length m1) by lia. destruct (tame_shut _ _ _ _ _ T Sh1 Ls1 E1) as [Sh2 _].
  destruct (C _ _ _ _ (firm_trans _ _ _ _ (firm_trans _ _ _ _ F F1) F2) Sh2 Ap Kp E2) as [F3 C2].
  pose proof (pairs_unbuilt cl m1 s m2 s' a b c T U1 ltac:(lia) ltac:(lia) ltac:(lia) E1) as U2.
  pose proof (pairs_unbuilt cl m2 p m3 p' a b c T U2 ltac:(lia) ltac:(lia) ltac:(lia) E2) as U3.
  destruct (finish_made m m1 m3 m4 m5 a b c [s'; p'] f CStatement (Some s') (Some p') None N (firm_trans _ _ _ _ F2 F3) U3 J Bl) as (Q1 & Q2 & Q3 & Q4 & Q5 & _).
  pose proof (f_len _ _ _ _ F2). injection E as <- <-. split; [exact Q1|]. exists s', p', a, b, c. split; [exact Q3|]. split; [exact Q4|]. split; [exact Q5|].
  assert (K : forall x y, cop (length m1) m0 m3 x y -> cop (length m) m0 (fst (alloc m5 (BTerm CStatement f (Some s') (Some p') None a b c))) x y).
  { intros x y D. eapply cop_firm; [exact Q2| | | |exact D].
    - intros q [<-|[<-|[<-|[]]]]; lia.
    - destruct U3 as (Ua & Ub & Uc). intros q [<-|[<-|[<-|[]]]]; assumption.
    - lia. }
  split; apply K; [eapply cop_on; [exact F3|apply Nat.le_refl|exact C1]|eapply cop_on; [apply (firm_refl [])| |exact C2]; lia].
Qed.

Lemma compound_copy_made : forall cl m f t l m' r, copies cl -> tame cl -> firm [] m0 m -> shut m -> alive m0 t -> has_body m0 t (BTerms l) ->
  f_var f = true -> compound_copy false choose cl m f t = Ok (m', r) -> firm [] m m' /\
  exists t' l' pick x y z, has_body m' r (BTerm CCompound f None None (Some t') x y z) /\ above (length m) [x; y; z; t'; r]
    /\ has_body m' t' (BTerms (picked pick l')) /\ NoDup pick /\ (forall i, In i pick -> i < length l')
    /\ lists_of m' f x y z (picked pick l') /\ Forall2 (cop (length m) m0 m') l l'.
Proof.
  intros cl m f t l m' r C T F Sh At Bt Fv E. unfold compound_copy in E. destruct (new_lists m) as [m1 [[a b] c]] eqn:N.
  destruct (new_lists_made _ _ _ _ _ N) as (F1 & Ea & Eb & Ec & L1 & _). destruct (new_lists_unbuilt _ _ _ _ _ Sh N) as [U1 Sh1]. rewrite Fv in E.
  step E r0 E0. step E0 l1 E1. step E0 r1 E2. destruct r0 as [m3 t'], r1 as [m2 l']. simpl fst in *. simpl snd in *.
  step E l3 E3. step E m4 J. step E m5 Bl.
  assert (l1 = l).
  { unfold terms_at in E1. step E1 bd Q. destruct bd; try discriminate. injection E1 as <-. apply body_has in Q.
    pose proof (firm_body _ _ _ _ t (BTerms l) (firm_trans _ _ _ _ F F1) (or_intror eq_refl) Bt) as B1.
    destruct Q as (s1 & X1 & Y1), B1 as (s2 & X2 & Y2). rewrite X1 in X2. injection X2 as <-. congruence. }
  subst l1. assert (Ll : forall q, In q l -> q < length m) by (intros q I; apply alive_lt; [assumption|]; exact (proj1 (sub_element t l At Bt q I))).
  destruct (clones_copies cl C T l m1 m2 l' (firm_trans _ _ _ _ F F1) Sh1 (sub_element t l At Bt) E2) as [F2 C2].
  destruct (fill_made _ _ _ _ E0) as (F3 & T1 & T2 & pick & P1 & P2 & P3).
  assert (U3 : all_unbuilt m3 a b c).
  { assert (K : forall k, unbuilt m1 k -> length m <= k -> unbuilt m3 k).
    { intros k U Lk. assert (Nk : ~ In k l) by (intros I; apply Ll in I; lia). destruct (clones_unbuilt cl l m1 m2 l' k T U Nk E2) as [U2 N2].
      eapply fill_unbuilt; eassumption. }
    destruct U1 as (Ua & Ub & Uc). split; [|split]; (apply K; [assumption|lia]). }
  assert (l3 = picked pick l').
  { unfold terms_at in E3. step E3 bd Q. destruct bd; try discriminate. injection E3 as <-. apply body_has in Q.
    destruct Q as (s1 & X1 & Y1), P3 as (s2 & X2 & Y2). rewrite X1 in X2. injection X2 as <-. congruence. }
  subst l3. destruct (finish_made m m1 m3 m4 m5 a b c (picked pick l') f CCompound None None (Some t') N (firm_trans _ _ _ _ F2 F3) U3 J Bl) as (Q1 & Q2 & Q3 & Q4 & Q5 & Q6).
  pose proof (f_len _ _ _ _ F2). injection E as <- <-. split; [exact Q1|]. exists t', l', pick, a, b, c.
  split; [exact Q3|]. split; [|split; [eapply firm_body; [exact Q2|right; reflexivity|exact P3]|]].
  - split; [repeat constructor; simpl; intuition lia|]. intros n [<-|[<-|[<-|[<-|[<-|[]]]]]]; lia.
  - split; [exact P1|]. split; [exact P2|]. split; [exact Q5|].
    assert (K : forall x y, cop (length m1) m0 m2 x y -> cop (length m) m0 (fst (alloc m5 (BTerm CCompound f None None (Some t') a b c))) x y).
    { intros x y D. eapply cop_firm; [exact Q2| | | |eapply cop_on; [exact F3|apply Nat.le_refl|exact D]].
      - intros q [<-|[<-|[<-|[]]]]; lia.
      - destruct U3 as (Ua & Ub & Uc). intros q [<-|[<-|[<-|[]]]]; assumption.
      - lia. }
    clear -K C2. induction C2; constructor; [apply K; assumption|assumption].
Qed.

Lemma clone_copies : forall fuel, copies (clone false choose fuel).
Proof.
  induction fuel as [|fuel IH]; intros m n m' r F Sh A K E; [discriminate|]. simpl in E. step E q Q.
  destruct q as [[[[[c f] s] p] t] [[x y] z]]. apply term_at_has in Q.
  pose proof (body_back _ _ _ _ _ F A (or_introl K) Q) as B. destruct (sub_part _ _ _ _ _ _ _ _ _ A B) as (S1 & S2 & R).
  destruct (f_var f) eqn:Fv.
  - destruct c as [| | |name| |]; try discriminate.
    + destruct R as (-> & -> & ->). destruct (copy_variable_sizes _ _ _ _ _ _ _ _ _ F E) as (F1 & x' & y' & z' & B1 & N1 & Z1).
      split; [exact F1|]. eapply cop_variable; eauto.
    + destruct R as (R1 & R2 & ->). destruct s as [s|]; [|congruence]. destruct p as [p|]; [|congruence].
      destruct (S1 s (or_introl eq_refl)) as [As Ks]. destruct (S1 p (or_intror (or_introl eq_refl))) as [Ap Kp].
      destruct (statement_copy_made _ _ _ _ _ _ _ IH (clone_tame _ _) F Sh As Ks Ap Kp E) as (F1 & s' & p' & x' & y' & z' & D1 & D2 & D3 & D4 & D5).
      split; [exact F1|]. eapply cop_statement; eauto.
    + destruct R as (-> & -> & R3). destruct t as [t|]; [|congruence]. destruct (S2 t (or_introl eq_refl)) as [At Kt].
      assert (Bt : exists l, has_body m0 t (BTerms l)).
      { destruct Kt as (sl & El & Kl). destruct (s_body sl) as [|l| | |] eqn:Bl; try discriminate. exists l, sl. auto. }
      destruct Bt as [l Bt]. destruct (compound_copy_made _ _ _ _ _ _ _ IH (clone_tame _ _) F Sh At Bt Fv E) as (F1 & t' & l' & pick & x' & y' & z' & D1 & D2 & D3 & D4 & D5 & D6 & D7).
      split; [exact F1|]. eapply cop_compound; eauto.
  - step E m1 Q1. injection E as <- <-. split; [eapply acquire_firm; eassumption|]. eapply cop_shared; eassumption.
Qed.
End Copies.
