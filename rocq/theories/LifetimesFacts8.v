(* What every action makes. *)
From Coq Require Import String ZArith List Bool Arith Lia.
From Verif Require Import Base Lifetimes LifetimesSpec LifetimesFacts LifetimesFacts2 LifetimesFacts3 LifetimesFacts4 LifetimesFacts7 LifetimesFacts9 LifetimesFacts10 LifetimesFacts11.
Import ListNotations.

Lemma terms_at_has : forall m t l, terms_at m t = Ok l -> has_body m t (BTerms l).
Proof. intros m t l E. unfold terms_at in E. step E b Q. destruct b; try discriminate. injection E as <-. apply body_has. assumption. Qed.

Lemma flags_at_has : forall m n f, flags_at m n = Ok f -> exists c a b l x y z, has_body m n (BTerm c f a b l x y z).
Proof.
  intros m n f E. unfold flags_at in E. step E q Q. destruct q as [[[[[c f'] s] p] t] [[x y] z]]. injection E as <-.
  apply term_at_has in Q. exists c, s, p, t, x, y, z. assumption.
Qed.

Lemma any_of_cons : forall m g n f l, (exists c a b t x y z, has_body m n (BTerm c f a b t x y z)) ->
  (any_of m g (n :: l) <-> g f = true \/ any_of m g l).
Proof.
  intros m g n f l (c & a & b & t & x & y & z & B). split.
  - intros (n' & c' & f' & a' & b' & t' & x' & y' & z' & [<-|I] & B' & Q).
    + left. pose proof (has_same _ _ _ _ B B') as X. injection X as -> -> -> -> -> -> -> ->. assumption.
    + right. exists n', c', f', a', b', t', x', y', z'. auto.
  - intros [Q|(n' & c' & f' & a' & b' & t' & x' & y' & z' & I & B' & Q)].
    + exists n, c, f, a, b, t, x, y, z. split; [left; reflexivity|auto].
    + exists n', c', f', a', b', t', x', y', z'. split; [right; assumption|auto].
Qed.

Lemma any_flags_of : forall l m f, any_flags m l = Ok f -> flags_of m l f.
Proof.
  induction l as [|n l IH]; intros m f E; simpl in E.
  - injection E as <-. unfold flags_of. simpl. repeat split; try discriminate;
      intros (n' & c' & f' & a' & b' & t' & x' & y' & z' & [] & _).
  - step E f1 E1. step E f2 E2. injection E as <-. apply IH in E2. destruct E2 as (A1 & A2 & A3 & A4).
    apply flags_at_has in E1. unfold flags_of. simpl. rewrite !orb_true_iff.
    rewrite (any_of_cons m f_var n f1 l E1), (any_of_cons m f_ivar n f1 l E1), (any_of_cons m f_dvar n f1 l E1), (any_of_cons m f_qvar n f1 l E1).
    tauto.
Qed.

Lemma flags_of_firm : forall L m m' l f, firm L m m' -> (forall n, In n l -> exists b, has_body m n b) -> flags_of m l f -> flags_of m' l f.
Proof.
  intros L m m' l f F Ex (A1 & A2 & A3 & A4).
  assert (P : forall g, any_of m g l <-> any_of m' g l).
  { intros g. split; intros (n' & c' & f' & a' & b' & t' & x' & y' & z' & I & B & Q); exists n', c', f', a', b', t', x', y', z'; (split; [assumption|]; split; [|assumption]).
    - eapply firm_body; [exact F|left; reflexivity|exact B].
    - destruct (Ex n' I) as (b & Bn). destruct Bn as (s & E & Bs). destruct B as (s1 & E1 & B1).
      destruct (f_slot _ _ _ _ F n' s E) as (s2 & E2 & K & T & _). rewrite E1 in E2. injection E2 as <-.
      exists s. split; [assumption|]. rewrite B1 in K. destruct (s_body s); try discriminate. congruence. }
  unfold flags_of. rewrite <- !P. auto.
Qed.

Lemma any_flags_parts : forall l m f, any_flags m l = Ok f -> forall n, In n l -> exists b, has_body m n b.
Proof.
  induction l as [|q l IH]; intros m f E n I; [destruct I|]. simpl in E. step E f1 E1. step E f2 E2. destruct I as [<-|I]; [|eauto].
  apply flags_at_has in E1. destruct E1 as (c & a & b & t & x & y & z & B). eauto.
Qed.

Section Makes.
Variable choose : mem -> list nat -> list nat.
Hypothesis proper : proper_choice choose.

(* The parts of a new term: copied pointers or clones. *)
Lemma part_made : forall m0 H0 i m n m' r, good m0 [] H0 -> firm [] m0 m -> shut m -> alive m0 n -> is_kind KTerm m0 n -> part false choose i m n = Ok (m', r) ->
  firm [] m m' /\ if i then r = n else cop (length m) m0 m' n r.
Proof.
  intros m0 H0 i m n m' r G F Sh A K E. unfold part in E. destruct i.
  - step E m1 Q. injection E as <- <-. split; [eapply acquire_firm; eassumption|reflexivity].
  - exact (clone_copies m0 [] H0 G choose proper _ m n m' r F Sh A K E).
Qed.

Lemma statement_made : forall m H s p i m' r, good m [] H -> shut m -> alive m s -> is_kind KTerm m s -> alive m p -> is_kind KTerm m p ->
  statement false choose m s p i = Ok (m', r) -> firm [] m m' /\ makes m m' (MakeStatement s p i) r.
Proof.
  intros m H s p i m' r G Sh As Ks Ap Kp E. unfold statement in E. destruct (new_lists m) as [m1 [[a b] c]] eqn:N.
  destruct (new_lists_made _ _ _ _ _ N) as (F1 & Ea & Eb & Ec & L1 & _). destruct (new_lists_unbuilt _ _ _ _ _ Sh N) as [U1 Sh1].
  pose proof (alive_lt m m s (firm_refl _ _) As) as Ls. pose proof (alive_lt m m p (firm_refl _ _) Ap) as Lp.
  step E r1 E1. step E r2 E2. destruct r1 as [m2 s'], r2 as [m3 p']. simpl fst in *. simpl snd in *. step E m4 Hs. step E f Fl. step E m5 J. step E m6 Bl.
  destruct (part_made m H i _ _ _ _ G F1 Sh1 As Ks E1) as [F2 C1].
  assert (Ls1 : s < length m1) by lia. destruct (tame_shut _ _ _ _ _ (part_tame choose i) Sh1 Ls1 E1) as [Sh2 _].
  destruct (part_made m H i _ _ _ _ G (firm_trans _ _ _ _ F1 F2) Sh2 Ap Kp E2) as [F3 C2].
  pose proof (hash_lists_firm _ _ _ Hs) as F4. pose proof (firm_trans _ _ _ _ F3 F4) as F34.
  pose proof (pairs_unbuilt _ m1 s m2 s' a b c (part_tame choose i) U1 ltac:(lia) ltac:(lia) ltac:(lia) E1) as U2.
  pose proof (pairs_unbuilt _ m2 p m3 p' a b c (part_tame choose i) U2 ltac:(lia) ltac:(lia) ltac:(lia) E2) as U3.
  assert (U4 : all_unbuilt m4 a b c) by (destruct U3 as (Ua & Ub & Uc); split; [|split]; (eapply hash_unbuilt; [|exact Hs]; assumption)).
  destruct (finish_made m m1 m4 m5 m6 a b c [s'; p'] f CStatement (Some s') (Some p') None N (firm_trans _ _ _ _ F2 F34) U4 J Bl) as (Q1 & Q2 & Q3 & Q4 & Q5 & _).
  pose proof (f_len _ _ _ _ F2). injection E as <- <-. split; [exact Q1|]. exists f, s', p', a, b, c. split; [exact Q3|]. split; [exact Q4|].
  split; [|split; [|exact Q5]].
  - destruct i; simpl; [congruence|].
    assert (K : forall x y, cop (length m1) m m4 x y -> copied m (fst (alloc m6 (BTerm CStatement f (Some s') (Some p') None a b c))) x y).
    { intros x y D. apply cop_copied. eapply cop_firm; [exact Q2| | | |exact D].
      - intros q [<-|[<-|[<-|[]]]]; lia.
      - destruct U4 as (Ua & Ub & Uc). intros q [<-|[<-|[<-|[]]]]; assumption.
      - lia. }
    constructor; [|constructor; [|constructor]]; apply K; [eapply cop_on; [exact F34|apply Nat.le_refl|exact C1]|eapply cop_on; [exact F4| |exact C2]; lia].
  - eapply flags_of_firm; [exact Q2|exact (any_flags_parts _ _ _ Fl)|exact (any_flags_of _ _ _ Fl)].
Qed.

(* The Terms of a new compound. *)
Lemma terms_made : forall m0 H0 (same : bool) m t m' t', good m0 [] H0 -> firm [] m0 m -> shut m -> alive m0 t -> is_kind KTerms m0 t ->
  (if same then bind (acquire m t) (fun m1 => Ok (m1, t))
   else bind (terms_at m t) (fun l => bind (clones (clone_of false choose) m l) (fun r => fill false choose (fst r) (snd r)))) = Ok (m', t') ->
  firm [] m m' /\ (if same then t' = t else length m <= t' /\ t' < length m' /\ exists l l' pick, has_body m0 t (BTerms l) /\ Forall2 (cop (length m) m0 m') l l'
    /\ NoDup pick /\ (forall i, In i pick -> i < length l') /\ has_body m' t' (BTerms (picked pick l'))).
Proof.
  intros m0 H0 same m t m' t' G F Sh At Kt E. destruct same.
  - step E m1 Q. injection E as <- <-. split; [eapply acquire_firm; eassumption|reflexivity].
  - step E l E1. apply terms_at_has in E1. step E r E2. destruct r as [m2 l']. simpl fst in *. simpl snd in *.
    pose proof (body_back _ _ _ _ _ F At (or_intror Kt) E1) as Bt.
    destruct (clones_copies m0 _ (fun m n => clone_copies m0 [] H0 G choose proper (S (length m)) m n) (clone_of_tame choose) l m m2 l' F Sh (sub_element m0 [] H0 G t l At Bt) E2) as [F2 C2].
    destruct (fill_made choose proper _ _ _ _ E) as (F3 & T1 & T2 & pick & P1 & P2 & P3). pose proof (f_len _ _ _ _ F2).
    split; [eapply firm_trans; eassumption|]. split; [lia|]. split; [lia|]. exists l, l', pick. split; [exact Bt|]. split; [|auto].
    clear -C2 F3. induction C2; constructor; [|assumption]. eapply cop_on; [exact F3|apply Nat.le_refl|assumption].
Qed.

Lemma terms_of_end : forall (same : bool) (L : list nat) (m0 m m' m'' : mem) (t t' : nat), firm L m' m'' -> (forall q, In q L -> q < length m) ->
  (forall q, In q L -> unbuilt m' q) -> length m0 <= length m ->
  (if same then t' = t else length m <= t' /\ t' < length m' /\ exists l l' pick, has_body m0 t (BTerms l) /\ Forall2 (cop (length m) m0 m') l l'
    /\ NoDup pick /\ (forall i, In i pick -> i < length l') /\ has_body m' t' (BTerms (picked pick l'))) ->
  terms_of same m0 m'' t t'.
Proof.
  intros same L m0 m m' m'' t t' F Lo Un Le C. destruct same; [exact C|].
  destruct C as (T1 & T2 & l & l' & pick & B & C & P1 & P2 & P3). exists l, l', pick. split; [exact B|]. split; [|split; [exact P1|split; [exact P2|split]]].
  - clear -C F Lo Un Le. induction C; constructor; [|assumption]. apply cop_copied. eapply cop_firm; [exact F|exact Lo|exact Un|exact Le|assumption].
  - eapply firm_body; [exact F|right; reflexivity|exact P3].
  - split; [repeat constructor; simpl; tauto|]. intros n [<-|[]]. lia.
Qed.

Lemma terms_unbuilt : forall (same : bool) m t m' t' k, unbuilt m k ->
  (if same then bind (acquire m t) (fun m1 => Ok (m1, t))
   else bind (terms_at m t) (fun l => bind (clones (clone_of false choose) m l) (fun r => fill false choose (fst r) (snd r)))) = Ok (m', t') ->
  unbuilt m' k.
Proof.
  intros same m t m' t' k U E. destruct same.
  - step E m1 Q. injection E as <- <-. eapply acquire_unbuilt; eassumption.
  - step E l E1. step E r E2. destruct r as [m2 l']. simpl fst in *. simpl snd in *. pose proof (terms_free _ _ _ _ (proj1 U) E1) as Fr.
    assert (Nk : ~ In k l) by (intros I; exact (Fr k I eq_refl)). destruct (clones_unbuilt _ _ _ _ _ k (clone_of_tame choose) U Nk E2) as [U2 N2].
    eapply fill_unbuilt; eassumption.
Qed.

Lemma terms_unbuilt3 : forall (same : bool) m t m' t' a b c, all_unbuilt m a b c ->
  (if same then bind (acquire m t) (fun m1 => Ok (m1, t))
   else bind (terms_at m t) (fun l => bind (clones (clone_of false choose) m l) (fun r => fill false choose (fst r) (snd r)))) = Ok (m', t') ->
  all_unbuilt m' a b c.
Proof. intros same m t m' t' a b c (Ua & Ub & Uc) E. split; [|split]; (eapply terms_unbuilt; [|exact E]; assumption). Qed.

Lemma compound_made : forall m H t i m' r, good m [] H -> shut m -> alive m t -> is_kind KTerms m t ->
  compound false choose m t i = Ok (m', r) -> firm [] m m' /\ makes m m' (MakeCompound t i) r.
Proof.
  intros m H t i m' r G Sh At Kt E. unfold compound in E. destruct (new_lists m) as [m1 [[a b] c]] eqn:N.
  destruct (new_lists_made _ _ _ _ _ N) as (F1 & Ea & Eb & Ec & L1 & _). destruct (new_lists_unbuilt _ _ _ _ _ Sh N) as [U1 Sh1].
  step E r0 E0. destruct r0 as [m3 t']. simpl fst in *. simpl snd in *. step E l E3. apply terms_at_has in E3. step E m4 Hs. step E f Fl. step E m5 J. step E m6 Bl.
  destruct (terms_made m H i m1 t m3 t' G F1 Sh1 At Kt E0) as [F2 C]. pose proof (terms_unbuilt3 i m1 t m3 t' a b c U1 E0) as U3.
  pose proof (hash_lists_firm _ _ _ Hs) as F4. pose proof (firm_trans _ _ _ _ F2 F4) as F24.
  assert (U4 : all_unbuilt m4 a b c) by (destruct U3 as (Ua & Ub & Uc); split; [|split]; (eapply hash_unbuilt; [|exact Hs]; assumption)).
  destruct (finish_made m m1 m4 m5 m6 a b c l f CCompound None None (Some t') N F24 U4 J Bl) as (Q1 & Q2 & Q3 & Q4 & Q5 & _).
  injection E as <- <-. split; [exact Q1|]. exists f, t', l, a, b, c. split; [exact Q3|]. split; [exact Q4|].
  assert (F34 : firm [a; b; c] m3 (fst (alloc m6 (BTerm CCompound f None None (Some t') a b c)))).
  { eapply firm_trans; [eapply firm_incl; [|exact F4]; intros z []|exact Q2]. }
  split; [|split; [|split; [|exact Q5]]].
  - eapply terms_of_end; [exact F34| | | |exact C].
    + intros q [<-|[<-|[<-|[]]]]; lia.
    + destruct U3 as (Ua & Ub & Uc). intros q [<-|[<-|[<-|[]]]]; assumption.
    + lia.
  - eapply firm_body; [exact F34|right; reflexivity|exact E3].
  - eapply flags_of_firm; [exact Q2|exact (any_flags_parts _ _ _ Fl)|exact (any_flags_of _ _ _ Fl)].
Qed.

Lemma simple_made : forall m c m' r, simple m c = (m', r) -> firm [] m m' /\ makes m m' (MakeSimple c) r.
Proof.
  intros m c m' r E. unfold simple in E. destruct (new_lists m) as [m1 [[a b] d]] eqn:N.
  destruct (new_lists_made _ _ _ _ _ N) as (F1 & Ea & Eb & Ec & L1 & _).
  pose proof (alloc_firm m1 (BTerm c (Flags false false false false) None None None a b d)) as F2.
  pose proof (alloc_body m1 (BTerm c (Flags false false false false) None None None a b d)) as B2.
  injection E as <- <-. split; [exact (firm_trans _ _ _ _ F1 F2)|]. exists a, b, d. split; [exact B2|]. split.
  - split; [repeat constructor; simpl; intuition lia|]. intros n [<-|[<-|[<-|[<-|[]]]]]; lia.
  - intros k I. exists []. split; [|reflexivity]. pose proof (new_lists_body _ _ _ _ _ N k I) as B. eexists.
    split; [rewrite nth_error_app1; [exact B|apply nth_error_Some; congruence]|reflexivity].
Qed.

Lemma variable_made : forall m k name i m' r, variable m k name i = Ok (m', r) -> firm [] m m' /\ makes m m' (MakeVariable k name i) r.
Proof.
  intros m k name i m' r E. unfold variable in E. destruct (new_lists m) as [m1 [[a b] c]] eqn:N.
  destruct (new_lists_made _ _ _ _ _ N) as (F1 & Ea & Eb & Ec & L1 & Su).
  change (match k with Independent => Flags true true false false | Dependent => Flags true false true false | Query => Flags true false false true end)
    with (flags_of_kind k) in E.
  pose proof (alloc_firm m1 (BTerm (CVariable name) (flags_of_kind k) None None None a b c)) as F2.
  pose proof (alloc_body m1 (BTerm (CVariable name) (flags_of_kind k) None None None a b c)) as B2.
  destruct (alloc m1 (BTerm (CVariable name) (flags_of_kind k) None None None a b c)) as [m2 t] eqn:At. simpl fst in *.
  assert (t = length m1 /\ length m2 = S (length m1) /\ forall q, q < length m1 -> nth_error m2 q = nth_error m1 q) as (-> & L2 & Old).
  { unfold alloc in At. injection At as <- <-. split; [reflexivity|]. split; [rewrite app_length; simpl; lia|].
    intros q Q. apply nth_error_app1. assumption. }
  assert (Fr : forall q, In q [a; b; c] -> fresh_list m2 q 0).
  { intros q I. exists []. split; [|reflexivity]. pose proof (new_lists_body _ _ _ _ _ N q I) as Bq. eexists.
    split; [rewrite Old; [exact Bq|]|reflexivity]. destruct I as [<-|[<-|[<-|[]]]]; lia. }
  assert (Nw : new m [a; b; c; length m1]).
  { split; [repeat constructor; simpl; intuition lia|]. intros n [<-|[<-|[<-|[<-|[]]]]]; lia. }
  destruct i.
  - set (l := match k with Independent => a | Dependent => b | Query => c end) in *.
    pose proof (alloc_firm m2 BInt) as F3. destruct (alloc m2 BInt) as [m3 j] eqn:Aj. simpl fst in *. step E m4 W. injection E as <- <-.
    assert (Old3 : forall q, q < length m2 -> nth_error m3 q = nth_error m2 q).
    { unfold alloc in Aj. injection Aj as <- _. intros q Q. apply nth_error_app1. assumption. }
    assert (Il : In l [a; b; c]) by (unfold l; destruct k; simpl; auto).
    assert (Ll : l < length m2) by (destruct Il as [<-|[<-|[<-|[]]]]; lia).
    assert (F4 : firm [l] m3 m4).
    { assert (Sl : su_at m3 l []).
      { eapply firm_su; [exact F3|intros []|]. eapply firm_su; [exact F2|intros []|]. auto. }
      destruct Sl as (xl & il & kl & Bl). eapply write_firm; [exact Bl| | | | |exact W]; [reflexivity..|left; left; reflexivity|left; left; reflexivity]. }
    assert (F : firm [] m m4).
    { eapply firm_new; [exact (firm_trans _ _ _ _ (firm_trans _ _ _ _ F1 F2) F3)|exact F4|]. intros q [<-|[]]. destruct Il as [<-|[<-|[<-|[]]]]; lia. }
    assert (Fo : forall q, In q [a; b; c] -> q <> l -> fresh_list m4 q 0).
    { intros q I Ne. destruct (Fr q I) as (i & (s & Es & Bs) & Li). exists i. split; [|exact Li]. exists s. split; [|exact Bs].
      unfold write in W. destruct (look m3 l) as [sl| | |]; try discriminate. simpl in W. injection W as <-.
      rewrite set_nth_other by congruence. rewrite Old3; [assumption|]. apply nth_error_Some. congruence. }
    assert (Fl : fresh_list m4 l 1) by (exists [j]; split; [eapply write_body; exact W|reflexivity]).
    split; [exact F|]. exists a, b, c. split; [eapply firm_body; [exact F4|left; reflexivity|]; eapply firm_body; [exact F3|left; reflexivity|exact B2]|].
    split; [exact Nw|]. unfold l in *. destruct k; (split; [|split]);
      first [exact Fl|apply Fo; [simpl; auto|lia]].
  - injection E as <- <-. split; [exact (firm_trans _ _ _ _ F1 F2)|]. exists a, b, c. split; [exact B2|]. split; [exact Nw|].
    destruct k; (split; [|split]); apply Fr; simpl; auto.
Qed.

Lemma duplicate_made : forall m H n d m' r, good m [] H -> shut m -> alive m n -> is_kind KTerm m n ->
  duplicate false choose m n d = Ok (m', r) -> firm [] m m' /\ makes m m' (Duplicate n d) r.
Proof.
  intros m H n d m' r G Sh A K E. unfold duplicate in E. step E q Q. destruct q as [[[[[c f] s] p] t] [[x y] z]]. apply term_at_has in Q.
  destruct (sub_part m [] H G _ _ _ _ _ _ _ _ _ A Q) as (S1 & S2 & R). destruct d.
  - destruct c as [| | |name| |]; try (destruct s, p, t; discriminate).
    + destruct R as (-> & -> & ->). destruct (copy_variable_sizes _ _ _ _ _ _ _ _ _ (firm_refl _ _) E) as (F1 & x' & y' & z' & B1 & N1 & Z1).
      split; [exact F1|]. left. exists name, f, x, y, z, x', y', z'. auto.
    + destruct R as (R1 & R2 & ->). destruct s as [s|]; [|congruence]. destruct p as [p|]; [|congruence].
      destruct (S1 s (or_introl eq_refl)) as [As Ks]. destruct (S1 p (or_intror (or_introl eq_refl))) as [Ap Kp].
      destruct (statement_copy_made m _ _ _ _ _ _ _ (fun m1 n1 => clone_copies m [] H G choose proper (S (length m1)) m1 n1) (clone_of_tame choose) (firm_refl _ _) Sh As Ks Ap Kp E)
        as (F1 & s' & p' & x' & y' & z' & D1 & D2 & D3 & D4 & D5).
      split; [exact F1|]. right; left. exists f, s, p, s', p', x, y, z, x', y', z'. split; [exact Q|]. split; [exact D1|]. split; [exact D2|].
      split; [|exact D3]. constructor; [|constructor; [|constructor]]; apply cop_copied; assumption.
    + destruct R as (-> & -> & R3). destruct t as [t|]; [|congruence]. destruct (S2 t (or_introl eq_refl)) as [At Kt].
      unfold compound_copy in E. destruct (new_lists m) as [m1 [[a b] c]] eqn:N.
      destruct (new_lists_made _ _ _ _ _ N) as (F1 & Ea & Eb & Ec & L1 & _). destruct (new_lists_unbuilt _ _ _ _ _ Sh N) as [U1 Sh1].
      step E r0 E0. destruct r0 as [m3 t']. simpl fst in *. simpl snd in *. step E l E3. apply terms_at_has in E3. step E m5 J. step E m6 Bl.
      assert (E0' : (if negb (f_var f) then bind (acquire m1 t) (fun m1 => Ok (m1, t))
        else bind (terms_at m1 t) (fun l => bind (clones (clone_of false choose) m1 l) (fun r => fill false choose (fst r) (snd r)))) = Ok (m3, t')).
      { destruct (f_var f); exact E0. }
      destruct (terms_made m H _ m1 t m3 t' G F1 Sh1 At Kt E0') as [F2 C]. pose proof (terms_unbuilt3 _ m1 t m3 t' a b c U1 E0') as U3.
      destruct (finish_made m m1 m3 m5 m6 a b c l f CCompound None None (Some t') N F2 U3 J Bl) as (Q1 & Q2 & Q3 & Q4 & Q5 & _).
      injection E as <- <-. split; [exact Q1|]. right; right. exists f, t, t', l, x, y, z, a, b, c. split; [exact Q|]. split; [exact Q3|]. split; [exact Q4|].
      split; [|split; [eapply firm_body; [exact Q2|right; reflexivity|exact E3]|exact Q5]].
      eapply terms_of_end; [exact Q2| | | |exact C].
      * intros q [<-|[<-|[<-|[]]]]; lia.
      * destruct U3 as (Ua & Ub & Uc). intros q [<-|[<-|[<-|[]]]]; assumption.
      * lia.
  - destruct (new_lists m) as [m1 [[a b] e]] eqn:N. destruct (new_lists_made _ _ _ _ _ N) as (F1 & Ea & Eb & Ec & L1 & _).
    step E m2 Ac. step E m3 D. pose proof (acquire_all_firm _ _ _ Ac) as F2. pose proof (drop_all_firm _ _ _ D) as F3.
    pose proof (alloc_firm m3 (BTerm c f s p t x y z)) as F4. pose proof (alloc_body m3 (BTerm c f s p t x y z)) as B4.
    injection E as <- <-. pose proof (firm_trans _ _ _ _ F1 (firm_trans _ _ _ _ F2 F3)) as F. split; [exact (firm_trans _ _ _ _ F F4)|].
    exists (BTerm c f s p t x y z). split; [exact Q|]. split; [exact B4|]. split; [repeat constructor; simpl; tauto|].
    intros q [<-|[]]. exact (f_len _ _ _ _ F).
Qed.

Lemma remove_parts : forall n l, In n l -> exists l1 l2, l = l1 ++ n :: l2 /\ remove_one n l = l1 ++ l2.
Proof.
  intros n. induction l as [|x l IH]; intros I; [destruct I|]. simpl. destruct (Nat.eqb_spec n x) as [->|Ne].
  - exists [], l. auto.
  - destruct I as [->|I]; [congruence|]. destruct (IH I) as (l1 & l2 & E1 & E2). exists (x :: l1), l2. simpl. split; congruence.
Qed.

Lemma kind_of_term : forall m n, is_term m n -> is_kind KTerm m n.
Proof. intros m n (s & c & f & a & b & t & x & y & z & E & B). exists s. rewrite B. auto. Qed.

Lemma act_made : forall m held a m' held', reached choose m held -> shut m -> allowed m held a -> act false choose m held a = Ok (m', held') ->
  firm [] m m' /\ exists r, holds a held held' r /\ makes m m' a r.
Proof.
  intros m held a m' held' R Sh Al E. pose proof (reached_good choose proper m held R) as G.
  assert (Liv : forall n, In n held -> alive m n) by (intros n I; apply (good_alive m [] held n G); simpl; rewrite in_app_iff; auto).
  assert (Kp : forall x, bind x (fun q : mem * nat => Ok (fst q, snd q :: held)) = Ok (m', held') -> exists r, x = Ok (m', r) /\ held' = r :: held).
  { intros x Ex. step Ex q Q. injection Ex as <- <-. exists (snd q). split; [destruct q; reflexivity|reflexivity]. }
  destruct a; simpl in Al; unfold act in E; try (apply Kp in E; destruct E as (r0 & E & ->)).
  - assert (Es : simple m c = (m', r0)) by congruence. destruct (simple_made _ _ _ _ Es) as [F M]. split; [exact F|]. exists r0. split; [reflexivity|exact M].
  - destruct (variable_made _ _ _ _ _ _ E) as [F M]. split; [exact F|]. exists r0. split; [reflexivity|exact M].
  - step E m1 Ac. pose proof (acquire_all_firm _ _ _ Ac) as F1. destruct (fill_made choose proper _ _ _ _ E) as (F2 & T1 & T2 & pick & P1 & P2 & P3).
    split; [exact (firm_trans _ _ _ _ F1 F2)|]. exists r0. split; [reflexivity|]. exists pick. split; [exact P1|]. split; [exact P2|]. split; [exact P3|].
    split; [repeat constructor; simpl; tauto|]. intros n [<-|[]]. pose proof (f_len _ _ _ _ F1). lia.
  - destruct Al as (Is & Ip & Ts & Tp). destruct (statement_made m held s p is_input m' r0 G Sh (Liv _ Is) (kind_of_term _ _ Ts) (Liv _ Ip) (kind_of_term _ _ Tp) E) as [F M].
    split; [exact F|]. exists r0. split; [reflexivity|exact M].
  - destruct Al as (It & s & l & Es & Bs). assert (Kt : is_kind KTerms m t) by (exists s; rewrite Bs; auto).
    destruct (compound_made m held t is_input m' r0 G Sh (Liv _ It) Kt E) as [F M].
    split; [exact F|]. exists r0. split; [reflexivity|exact M].
  - destruct Al as (In1 & T1). destruct (clone_copies m [] held G choose proper _ m n m' r0 (firm_refl _ _) Sh (Liv _ In1) (kind_of_term _ _ T1) E) as [F C].
    split; [exact F|]. exists r0. split; [reflexivity|]. apply cop_copied. exact C.
  - destruct Al as (In1 & Cl). assert (Kn : is_kind KTerm m n).
    { destruct Cl as [(s & f & a & b & t & x & y & z & Es & Bs)|[(s & f & a & b & t & x & y & z & Es & Bs)|(_ & name & s & f & a & b & t & x & y & z & Es & Bs)]];
        exists s; rewrite Bs; auto. }
    destruct (duplicate_made m held n deep m' r0 G Sh (Liv _ In1) Kn E) as [F M].
    split; [exact F|]. exists r0. split; [reflexivity|exact M].
  - step E m1 Ac. injection E as <- <-. split; [exact (acquire_firm _ _ _ Ac)|]. eexists. split; [reflexivity|reflexivity].
  - step E m1 Ac. injection E as <- <-. split; [exact (acquire_firm _ _ _ Ac)|]. eexists. split; [reflexivity|reflexivity].
  - step E m1 D. injection E as <- <-. split; [exact (release_firm _ _ _ _ D)|]. exists 0. split; [|exact I]. apply remove_parts. assumption.
Qed.

End Makes.
