(* Index lists: asking for the normalised indices, joining and building. *)
From Coq Require Import String ZArith List Bool Arith Lia.
From Verif Require Import Base Lifetimes LifetimesSpec LifetimesFacts LifetimesFacts2.
Import ListNotations.

Lemma good_alive : forall m X H n, good m X H -> (alive m n <-> In n (X ++ H ++ pointers m)).
Proof.
  intros m X H n G. split.
  - intros (s & E & L). apply occ_in. rewrite !occ_app. pose proof (g_cnt _ _ _ G n) as C. unfold cnt in C.
    rewrite E, L in C. pose proof (g_pos _ _ _ G n s E L). lia.
  - intros I. destruct (look_ok m X H n G I) as (s & _ & E & L). exists s. auto.
Qed.

Lemma pointed_alive : forall m X H n r, good m X H -> points m n r -> alive m r.
Proof.
  intros m X H n r G P. apply (good_alive m X H r G). rewrite !in_app_iff. right; right. apply in_pointers. eauto.
Qed.

Lemma filter_less : forall (A : Type) (f g : A -> bool) l x, (forall y, f y = true -> g y = true) -> In x l ->
  f x = false -> g x = true -> length (filter f l) < length (filter g l).
Proof.
  intros A f g l x S. assert (Le : forall l, length (filter f l) <= length (filter g l)).
  { induction l0 as [|y l0 IH]; [apply le_n|]. simpl. pose proof (S y). destruct (f y).
    - rewrite H by reflexivity. simpl. lia.
    - destruct (g y); simpl; lia. }
  induction l as [|y l IH]; intros I F Gx; [contradiction|]. simpl. destruct I as [->|I].
  - rewrite F, Gx. simpl. specialize (Le l). lia.
  - specialize (IH I F Gx). pose proof (S y). destruct (f y).
    + rewrite H by reflexivity. simpl. lia.
    + destruct (g y); simpl; lia.
Qed.

(* A measure below the number of objects. *)
Lemma measure : forall m X H, good m X H -> exists mu, (forall n r, points m n r -> mu r < mu n)
  /\ forall n, mu n <= length m.
Proof.
  intros m X H G. destruct (g_rk _ _ _ G) as [rank R].
  exists (fun n => length (filter (fun x => rank x <? rank n) (seq 0 (length m)))). split.
  - intros n r P. pose proof (R n r P) as Q. apply (filter_less _ _ _ _ r).
    + intros y A. apply Nat.ltb_lt in A. apply Nat.ltb_lt. lia.
    + destruct (pointed_alive m X H n r G P) as (s & E & _). apply in_seq.
      assert (r < length m) by (apply nth_error_Some; congruence). lia.
    + apply Nat.ltb_irrefl.
    + apply Nat.ltb_lt. assumption.
  - intros n. rewrite <- (seq_length (length m) 0) at 2. generalize (seq 0 (length m)).
    induction l as [|y l IH]; [apply le_n|]. simpl. destruct (rank y <? rank n); simpl; lia.
Qed.

Lemma point_kinds : forall m X H n r, good m X H -> points m n r ->
  leaf m r \/ (exists s s', nth_error m n = Some s /\ nth_error m r = Some s' /\
     (In r (succs (s_body s)) \/ kind_of (s_body s) = KTerm \/ kind_of (s_body s) = KTerms)).
Proof.
  intros m X H n r G P. destruct (pointed_alive m X H n r G P) as (s' & E' & _). destruct P as (s & E & L & I).
  pose proof (g_ty _ _ _ G n s E L) as T. destruct (s_body s) eqn:B; simpl in I, T.
  - right. exists s, s'. rewrite B. auto.
  - right. exists s, s'. rewrite B. auto.
  - destruct T as (T1 & T2 & T3). rewrite !in_app_iff in I. destruct I as [I|[I|I]].
    + left. right. apply T1. assumption.
    + left. left. apply T2. assumption.
    + right. exists s, s'. rewrite B. auto.
  - contradiction.
  - contradiction.
Qed.

(* What is not a vector or an int lives on. *)
Lemma stays : forall m X H m' X' H', good m X H -> good m' X' H' -> (forall n, In n (X ++ H) -> In n (X' ++ H')) ->
  keeps m m' -> forall n, alive m n -> ~ leaf m n -> alive m' n.
Proof.
  intros m X H m' X' H' G G' Sub K. destruct (measure m X H G) as (mu & M1 & M2).
  assert (W : forall d n, length m - mu n <= d -> alive m n -> ~ leaf m n -> alive m' n).
  2: { intros n. apply (W (length m - mu n) n). lia. }
  induction d as [d IH] using lt_wf_ind. intros n D A NL.
  apply (good_alive m X H n G) in A. rewrite app_assoc in A. apply in_app_or in A. destruct A as [A|A].
  - apply (good_alive m' X' H' n G'). rewrite app_assoc. apply in_or_app. left. auto.
  - apply in_pointers in A. destruct A as (p & s & E & L & I).
    assert (P : points m p n) by (exists s; auto). pose proof (M1 p n P) as Q. pose proof (M2 p) as Q2.
    assert (Ap : alive m p) by (exists s; auto).
    assert (Np : ~ leaf m p).
    { intros [(y & Y1 & Y2)|(y & Y1 & Y2)]; rewrite E in Y1; injection Y1 as <-; destruct (s_body s); simpl in *; try discriminate; contradiction. }
    assert (A' : alive m' p) by (apply (IH (length m - mu p)); [lia|lia|assumption|assumption]).
    destruct (k_slot m m' K p s E) as (s' & E' & F). destruct A' as (s1 & E1 & L1). rewrite E' in E1. injection E1 as <-.
    apply (pointed_alive m' X' H' p n G'). exists s'. split; [assumption|]. split; [assumption|].
    destruct F as (F1 & F2 & F3). destruct (point_kinds m X H p n G P) as [C|(z & z' & Z1 & Z2 & Z3)]; [contradiction|].
    rewrite E in Z1. injection Z1 as <-. destruct (s_body s) eqn:B; simpl in *; try (rewrite F3; exact I); try contradiction.
    destruct Z3 as [Z3|[Z3|Z3]]; try discriminate. specialize (F2 n Z3). destruct (s_body s'); simpl in *; try contradiction.
    rewrite !in_app_iff. auto.
Qed.

Lemma not_leaf : forall k m n, is_kind k m n -> k <> KInt -> k <> KVector -> ~ leaf m n.
Proof.
  intros k m n (s & E & <-) A B [(y & Y & Z)|(y & Y & Z)]; rewrite E in Y; injection Y as <-; congruence.
Qed.

Lemma stays_kind : forall k m X H m' X' H', good m X H -> good m' X' H' -> (forall n, In n (X ++ H) -> In n (X' ++ H')) ->
  keeps m m' -> forall n, alive m n -> is_kind k m n -> k <> KInt -> k <> KVector -> alive m' n /\ is_kind k m' n.
Proof.
  intros k m X H m' X' H' G G' S K n A Kn N1 N2. split; [|eapply keeps_kind; eassumption].
  eapply (stays m X H m' X' H'); try eassumption. eapply not_leaf; eassumption.
Qed.

Lemma index_body : forall m n, alive m n -> is_kind KIndex m n -> exists s x i su k,
  body_at m n = Ok (BIndex x i su k) /\ nth_error m n = Some s /\ s_live s = true /\ s_body s = BIndex x i su k.
Proof.
  intros m n (s & E & L) (s' & E' & K). rewrite E in E'. injection E' as <-. unfold body_at, look. rewrite E, L.
  destruct (s_body s) as [| |x i su k| |] eqn:B; try discriminate. exists s, x, i, su, k. simpl. rewrite B. auto.
Qed.

Lemma term_body : forall m n, alive m n -> is_kind KTerm m n -> exists s c f a b t x y z,
  body_at m n = Ok (BTerm c f a b t x y z) /\ nth_error m n = Some s /\ s_live s = true /\ s_body s = BTerm c f a b t x y z.
Proof.
  intros m n (s & E & L) (s' & E' & K). rewrite E in E'. injection E' as <-. unfold body_at, look. rewrite E, L.
  destruct (s_body s) as [c f a b t x y z| | | |] eqn:B; try discriminate. exists s, c, f, a, b, t, x, y, z. simpl. rewrite B. auto.
Qed.

Lemma terms_body : forall m n, alive m n -> is_kind KTerms m n -> exists s l,
  body_at m n = Ok (BTerms l) /\ nth_error m n = Some s /\ s_live s = true /\ s_body s = BTerms l.
Proof.
  intros m n (s & E & L) (s' & E' & K). rewrite E in E'. injection E' as <-. unfold body_at, look. rewrite E, L.
  destruct (s_body s) as [|l| | |] eqn:B; try discriminate. exists s, l. simpl. rewrite B. auto.
Qed.

(* No index list is made or gets other components. *)
Definition calm (m m' : mem) : Prop :=
  forall n s', nth_error m' n = Some s' -> s_live s' = true -> kind_of (s_body s') = KIndex ->
    exists s, nth_error m n = Some s /\ s_live s = true /\ succs (s_body s') = succs (s_body s)
      /\ kind_of (s_body s) = KIndex.

Lemma calm_refl : forall m, calm m m.
Proof. intros m n s E L K. exists s. auto. Qed.

Lemma calm_trans : forall a b c, calm a b -> calm b c -> calm a c.
Proof.
  intros a b c A B n s E L K. destruct (B n s E L K) as (s1 & E1 & L1 & S1 & K1).
  destruct (A n s1 E1 L1 K1) as (s2 & E2 & L2 & S2 & K2). exists s2. repeat split; auto. congruence.
Qed.

Lemma calm_shrinks : forall m m', shrinks m m' -> calm m m'.
Proof.
  intros m m' [A B] n s' E' L K. destruct (nth_error m n) as [s|] eqn:E.
  - destruct (B n s E) as (s1 & E1 & S1 & L1 & _). rewrite E' in E1. injection E1 as <-. exists s.
    split; [reflexivity|]. split; [apply L1; assumption|]. rewrite S1 in *. auto.
  - exfalso. apply nth_error_None in E. assert (n < length m') by (apply nth_error_Some; congruence). lia.
Qed.

Lemma calm_alloc : forall m b, kind_of b <> KIndex -> calm m (fst (alloc m b)).
Proof.
  intros m b NK n s' E L K. simpl in E. destruct (Nat.lt_ge_cases n (length m)) as [Q|Q].
  - rewrite nth_error_app1 in E by assumption. exists s'. auto.
  - rewrite nth_error_app2 in E by assumption. destruct (n - length m) as [|[|d]]; simpl in E; try discriminate.
    injection E as <-. simpl in K. congruence.
Qed.

Lemma calm_write : forall m n s b m', nth_error m n = Some s -> s_live s = true ->
  succs b = succs (s_body s) -> kind_of b = kind_of (s_body s) -> write m n b = Ok m' -> calm m m'.
Proof.
  intros m n s b m' E L S K W k s' E' L' K'. unfold write, look in W. rewrite E, L in W. simpl in W. injection W as <-.
  destruct (Nat.eq_dec n k) as [->|N].
  - rewrite (set_nth_same _ _ _ _ _ E) in E'. injection E' as <-. exists s. simpl in *. repeat split; auto. congruence.
  - rewrite set_nth_other in E' by assumption. exists s'. auto.
Qed.

Lemma calm_same : forall m m', (forall k s, nth_error m' k = Some s -> exists s0, nth_error m k = Some s0 /\ s_body s = s_body s0
       /\ s_live s = s_live s0 /\ s_buffer s = s_buffer s0) -> calm m m'.
Proof.
  intros m m' A n s E L K. destruct (A n s E) as (s0 & B & C & D & _). exists s0. rewrite <- C, <- D. auto.
Qed.

(* ---- indices_normalized ---- *)
Lemma normalize_ok : forall m X H n, good m X H -> alive m n -> is_kind KIndex m n ->
  exists m', normalize m n = Ok m' /\ good m' X H /\ keeps m m' /\ calm m m'.
Proof.
  intros m X H n G A K. destruct (index_body m n A K) as (s & x & i & su & k & B & E & L & Bs).
  unfold normalize. rewrite B. simpl. destruct x as [v|].
  - exists m. split; [reflexivity|]. split; [assumption|]. split; [apply keeps_refl|apply calm_refl].
  - destruct (alloc_held m X H H BVector G) as [G1 K1]; [reflexivity|exact I|]. simpl fst in *.
    set (m1 := m ++ [Slot 1 true false BVector]) in *.
    assert (E1 : nth_error m1 n = Some s).
    { unfold m1. rewrite nth_error_app1; [assumption|]. apply nth_error_Some. congruence. }
    assert (V : nth_error m1 (length m) = Some (Slot 1 true false BVector)).
    { unfold m1. rewrite nth_error_app2, Nat.sub_diag by lia. reflexivity. }
    assert (Vk : is_kind KVector m1 (length m)) by (eexists; split; [exact V|reflexivity]).
    pose proof (g_ty _ _ _ G n s E L) as T. rewrite Bs in T. simpl in T. destruct T as (_ & T2 & T3).
    destruct (write_ok m1 X (length m :: H) H n s (BIndex (Some (length m)) i su k) G1 E1 L) as (m' & W1 & W2 & W3 & _ & _ & W4).
    + rewrite Bs. split; [reflexivity|]. split; [apply incl_refl|exact I].
    + intros r. rewrite Bs. simpl refs. rewrite !occ_cons. lia.
    + simpl. split; [|split; eapply keeps_all; eassumption]. intros r [<-|[]]. assumption.
    + intros r. rewrite Bs. simpl. intros [<-|Q]; [|auto]. right; left. right. assumption.
    + exists m'. split; [assumption|]. split; [assumption|]. split; [eapply keeps_trans; eassumption|].
      eapply calm_trans; [apply (calm_alloc m BVector); discriminate|].
      eapply calm_write; [exact E1|exact L| | |exact W1]; rewrite Bs; reflexivity.
Qed.

(* ---- connect ---- *)
Lemma connect_ok : forall m X H father t son, good m X H -> In father X -> is_kind KIndex m father ->
  points m t son -> is_kind KTerm m t -> is_kind KIndex m son ->
  exists m', connect false m father son = Ok m' /\ good m' X H /\ keeps m m'.
Proof.
  intros m X H fa t son G If Kf P Kt Ks.
  assert (Af : alive m fa) by (apply (good_alive m X H fa G); apply in_or_app; auto).
  destruct (index_body m fa Af Kf) as (s & x & i & su & k & B & E & L & Bs).
  unfold connect. rewrite B. simpl.
  pose proof (g_ty _ _ _ G fa s E L) as T. rewrite Bs in T. simpl in T. destruct T as (T1 & T2 & T3).
  destruct (write_ok m X H (opt x ++ H) fa s (BIndex None i su false) G E L) as (m1 & W1 & G1 & K1 & L1 & O1 & N1).
  - rewrite Bs. split; [reflexivity|]. split; [apply incl_refl|exact I].
  - intros r. rewrite Bs. simpl refs. rewrite !occ_app. lia.
  - simpl. split; [intros r []|]. split; assumption.
  - intros r. rewrite Bs. simpl. rewrite !in_app_iff. auto.
  - rewrite W1. cbn [bind]. destruct (drop_all_ok (opt x) m1 X H G1) as (m2 & D2 & G2 & S2). rewrite D2. cbn [bind].
    pose proof (shrinks_keeps _ _ S2) as K2.
    assert (K12 : keeps m m2) by (eapply keeps_trans; eassumption).
    assert (At : alive m t) by (destruct P as (z & Z1 & Z2 & _); exists z; auto).
    destruct (stays_kind KTerm m X H m2 X H G G2 (fun _ q => q) K12 t At Kt) as [At2 Kt2]; try discriminate.
    assert (P2 : points m2 t son).
    { destruct P as (z & Z1 & Z2 & Z3). destruct (k_slot m m2 K12 t z Z1) as (z' & Z1' & F). destruct At2 as (y & Y1 & Y2).
      rewrite Z1' in Y1. injection Y1 as <-. exists z'. split; [assumption|]. split; [assumption|].
      destruct Kt as (w & Wa & Wb). rewrite Z1 in Wa. injection Wa as <-. destruct F as (_ & _ & F).
      destruct (s_body z); try discriminate. rewrite F. assumption. }
    destruct (acquire_ok m2 X H son G2) as (m3 & E3 & G3 & K3 & _ & B3 & _).
    { apply in_or_app. right. apply in_pointers. exists t. exact P2. }
    rewrite E3. cbn [bind].
    assert (Af3 : alive m3 fa) by (apply (good_alive m3 X (son :: H) fa G3); apply in_or_app; auto).
    assert (K13 : keeps m m3) by (eapply keeps_trans; eassumption).
    destruct Af3 as (s3 & E3f & L3f).
    assert (Bs3 : s_body s3 = BIndex None i su false).
    { destruct (B3 fa s3 E3f) as (s2 & Q1 & Q2 & Q3 & _).
      destruct (sh_slot _ _ S2 fa _ N1) as (z & Z1 & Z2 & _). rewrite Q1 in Z1. injection Z1 as <-. rewrite Q2, Z2. reflexivity. }
    assert (NE : son <> fa).
    { intros ->. destruct (g_x _ _ _ G fa If) as (_ & _ & Q). assert (In fa (pointers m)).
      { apply in_pointers. exists t. exact P. }
      apply occ_in in H0. lia. }
    destruct (write_ok m3 X (son :: H) H fa s3 (BIndex None i (su ++ [son]) false) G3 E3f L3f) as (m4 & W4 & G4 & K4 & _).
    + rewrite Bs3. split; [reflexivity|]. split; [apply incl_appl, incl_refl|exact I].
    + intros r. rewrite Bs3. simpl refs. rewrite !occ_app, !occ_cons, occ_nil. lia.
    + simpl. split; [intros r []|]. split; [eapply keeps_all; eassumption|]. intros r Q. apply in_app_or in Q. destruct Q as [Q|[<-|[]]].
      * eapply keeps_kind; [exact K13|]. auto.
      * eapply keeps_kind; [exact K13|assumption].
    + intros r. rewrite Bs3. simpl refs. rewrite !in_app_iff. intros [Q|[Q|[<-|[]]]]; auto.
    + exists m4. split; [assumption|]. split; [assumption|]. eapply keeps_trans; eassumption.
Qed.

(* ---- build ---- *)
Definition steps (m : mem) (mu : nat -> nat) : Prop :=
  forall n s, nth_error m n = Some s -> s_live s = true -> kind_of (s_body s) = KIndex ->
    forall r, In r (succs (s_body s)) -> mu r < mu n.

Lemma steps_calm : forall m m' mu, calm m m' -> steps m mu -> steps m' mu.
Proof.
  intros m m' mu C S n s' E L K r I. destruct (C n s' E L K) as (s & E0 & L0 & Sx & K0). rewrite Sx in I.
  eapply S; eassumption.
Qed.

Lemma each_ok : forall f (P : mem -> Prop) l m, P m -> (forall m n, P m -> In n l -> exists m', f m n = Ok m' /\ P m') ->
  exists m', each f m l = Ok m' /\ P m'.
Proof.
  intros f P l. induction l as [|n l IH]; intros m Pm F.
  - exists m. auto.
  - destruct (F m n Pm (or_introl eq_refl)) as (m1 & E1 & P1). destruct (IH m1 P1) as (m2 & E2 & P2).
    + intros. apply F; [assumption|right; assumption].
    + exists m2. simpl. rewrite E1. auto.
Qed.

Lemma build_ok : forall fuel m X H n mu, good m X H -> alive m n -> is_kind KIndex m n -> steps m mu -> mu n < fuel ->
  exists m', build false fuel m n = Ok m' /\ good m' X H /\ keeps m m' /\ calm m m'.
Proof.
  induction fuel as [|fuel IH]; intros m X H n mu G A K St Fu; [lia|].
  destruct (index_body m n A K) as (s & x & i & su & k & B & E & L & Bs). simpl build. rewrite B. simpl bind.
  destruct k.
  { exists m. split; [reflexivity|]. split; [assumption|]. split; [apply keeps_refl|apply calm_refl]. }
  set (i' := match su with [] => i | _ => [] end). set (out := match su with [] => [] | _ => i end).
  assert (IO : forall r, occ r i = occ r out + occ r i').
  { intros r. unfold i', out. destruct su; rewrite occ_nil; lia. }
  assert (II : incl i' i) by (unfold i'; destruct su; [apply incl_refl|intros r []]).
  pose proof (g_ty _ _ _ G n s E L) as T. rewrite Bs in T. simpl in T. destruct T as (T1 & T2 & T3).
  destruct (write_ok m X H (out ++ H) n s (BIndex x i' su false) G E L) as (m1 & W1 & G1 & K1 & L1 & O1 & N1).
  { rewrite Bs. split; [reflexivity|]. split; [apply incl_refl|exact I]. }
  { intros r. rewrite Bs. simpl refs. rewrite !occ_app. specialize (IO r). lia. }
  { simpl. split; [assumption|]. split; [|assumption]. intros r Q. apply T2, II, Q. }
  { intros r. rewrite Bs. simpl. rewrite !in_app_iff. intros [Q|[Q|Q]]; auto. }
  assert (C1 : calm m m1) by (eapply calm_write; [exact E|exact L| | |exact W1]; rewrite Bs; reflexivity).
  rewrite W1. cbn [bind]. destruct (drop_all_ok out m1 X H G1) as (m2 & D2 & G2 & S2). rewrite D2. cbn [bind].
  pose proof (shrinks_keeps _ _ S2) as K2. pose proof (calm_shrinks _ _ S2) as C2.
  assert (Loop : forall m3 son, (good m3 X H /\ keeps m m3 /\ calm m m3) -> In son su -> exists m6,
     bind (build false fuel m3 son) (fun m4 =>
                  bind (body_at m4 son) (fun bs =>
                  match bs with
                  | BIndex _ is _ _ =>
                      bind (acquire_all m4 is) (fun m5 =>
                      bind (body_at m5 n) (fun bn =>
                      match bn with
                      | BIndex x j t k => write m5 n (BIndex x (j ++ is) t k)
                      | _ => UB
                      end))
                  | _ => UB
                  end)) = Ok m6 /\ (good m6 X H /\ keeps m m6 /\ calm m m6)).
  { intros m3 son (G3 & K3 & C3) Is.
    assert (An : alive m3 n /\ is_kind KIndex m3 n) by (eapply (stays_kind KIndex m X H m3 X H); eauto; discriminate).
    assert (As : alive m son).
    { eapply pointed_alive; [exact G|]. exists s. split; [exact E|]. split; [exact L|]. rewrite Bs. simpl. rewrite !in_app_iff. auto. }
    assert (Ks : is_kind KIndex m son) by (apply T3; assumption).
    assert (As3 : alive m3 son /\ is_kind KIndex m3 son) by (eapply (stays_kind KIndex m X H m3 X H); eauto; discriminate).
    destruct As3 as [As3 Ks3].
    destruct (IH m3 X H son mu G3 As3 Ks3) as (m4 & E4 & G4 & K4 & C4).
    { eapply steps_calm; eassumption. }
    { assert (mu son < mu n). { eapply St; [exact E|exact L| |]; rewrite Bs; [reflexivity|exact Is]. } lia. }
    rewrite E4. cbn [bind].
    assert (As4 : alive m4 son /\ is_kind KIndex m4 son) by (eapply (stays_kind KIndex m3 X H m4 X H); eauto; discriminate).
    destruct As4 as [As4 Ks4].
    destruct (index_body m4 son As4 Ks4) as (s4 & x4 & i4 & su4 & k4 & B4 & E4s & L4 & Bs4). rewrite B4. cbn [bind].
    destruct (acquire_all_ok i4 m4 X H G4) as (m5 & E5 & G5 & K5 & _ & B5 & _).
    { intros r Q. apply in_or_app. right. apply in_pointers. exists son, s4. split; [assumption|]. split; [assumption|].
      rewrite Bs4. simpl. rewrite !in_app_iff. auto. }
    rewrite E5. cbn [bind].
    pose proof (g_ty _ _ _ G4 son s4 E4s L4) as T4. rewrite Bs4 in T4. simpl in T4. destruct T4 as (_ & T42 & _).
    destruct An as [An Kn].
    assert (Kn4 : keeps m3 m5) by (eapply keeps_trans; eassumption).
    assert (An5 : alive m5 n /\ is_kind KIndex m5 n).
    { eapply (stays_kind KIndex m3 X H m5 X (i4 ++ H)); eauto; try discriminate. intros y. rewrite !in_app_iff. tauto. }
    destruct An5 as [An5 Kn5].
    destruct (index_body m5 n An5 Kn5) as (s5 & x5 & j5 & t5 & k5 & Bn & En & Ln & Bsn). rewrite Bn. cbn [bind].
    pose proof (g_ty _ _ _ G5 n s5 En Ln) as T5. rewrite Bsn in T5. simpl in T5. destruct T5 as (T51 & T52 & T53).
    destruct (write_ok m5 X (i4 ++ H) H n s5 (BIndex x5 (j5 ++ i4) t5 k5) G5 En Ln) as (m6 & W6 & G6 & K6 & _).
    { rewrite Bsn. split; [reflexivity|]. split; [apply incl_refl|exact I]. }
    { intros r. rewrite Bsn. simpl refs. rewrite !occ_app. lia. }
    { simpl. split; [assumption|]. split; [|assumption]. intros r Q. apply in_app_or in Q. destruct Q as [Q|Q]; [auto|].
      eapply keeps_kind; [exact K5|]. auto. }
    { intros r. rewrite Bsn. simpl. rewrite !in_app_iff. intros [Q|[[Q|Q]|Q]]; auto. right; left. left.
      eapply keeps_kind; [exact K5|]. auto. }
    exists m6. split; [assumption|]. split; [assumption|].
    split; [eapply keeps_trans; [|exact K6]; eapply keeps_trans; eassumption|].
    eapply calm_trans; [exact C3|]. eapply calm_trans; [exact C4|]. eapply calm_trans; [apply calm_same; exact B5|].
    eapply calm_write; [exact En|exact Ln| | |exact W6]; rewrite Bsn; reflexivity. }
  destruct (each_ok _ (fun m3 => good m3 X H /\ keeps m m3 /\ calm m m3) su m2
              (conj G2 (conj (keeps_trans _ _ _ K1 K2) (calm_trans _ _ _ C1 C2))) Loop) as (m6 & E6 & G6 & K6 & C6).
  rewrite E6. cbn [bind].
  assert (An6 : alive m6 n /\ is_kind KIndex m6 n) by (eapply (stays_kind KIndex m X H m6 X H); eauto; discriminate).
  destruct An6 as [An6 Kn6].
  destruct (index_body m6 n An6 Kn6) as (s6 & x6 & j6 & t6 & k6 & Bn & En & Ln & Bsn). rewrite Bn. cbn [bind].
  pose proof (g_ty _ _ _ G6 n s6 En Ln) as T6. rewrite Bsn in T6. simpl in T6.
  destruct (write_ok m6 X H H n s6 (BIndex x6 j6 t6 true) G6 En Ln) as (m7 & W7 & G7 & K7 & _).
  { rewrite Bsn. split; [reflexivity|]. split; [apply incl_refl|exact I]. }
  { intros r. rewrite Bsn. reflexivity. }
  { exact T6. }
  { intros r. rewrite Bsn. auto. }
  rewrite W7. cbn [bind].
  assert (An7 : alive m7 n /\ is_kind KIndex m7 n) by (eapply (stays_kind KIndex m6 X H m7 X H); eauto; discriminate).
  destruct An7 as [An7 Kn7].
  destruct (normalize_ok m7 X H n G7 An7 Kn7) as (m8 & E8 & G8 & K8 & C8).
  exists m8. split; [assumption|]. split; [assumption|].
  split; [eapply keeps_trans; [exact K6|]; eapply keeps_trans; eassumption|].
  eapply calm_trans; [exact C6|]. eapply calm_trans; [|exact C8].
  eapply calm_write; [exact En|exact Ln| | |exact W7]; rewrite Bsn; reflexivity.
Qed.

Lemma build_one_ok : forall m X H n has, good m X H -> alive m n -> is_kind KIndex m n ->
  exists m', build_one false m has n = Ok m' /\ good m' X H /\ keeps m m'.
Proof.
  intros m X H n has G A K. unfold build_one. destruct has.
  - destruct (measure m X H G) as (mu & M1 & M2).
    destruct (build_ok (S (length m)) m X H n mu G A K) as (m' & E & G' & K' & _).
    + intros k s E L Kk r I. apply M1. exists s. split; [assumption|]. split; [assumption|].
      destruct (s_body s); try discriminate. simpl in *. rewrite !in_app_iff. auto.
    + specialize (M2 n). lia.
    + exists m'. auto.
  - destruct (index_body m n A K) as (s & x & i & su & k & B & E & L & Bs). rewrite B. cbn [bind].
    pose proof (g_ty _ _ _ G n s E L) as T. rewrite Bs in T. simpl in T.
    destruct (write_ok m X H H n s (BIndex x i su true) G E L) as (m' & W & G' & K' & _).
    + rewrite Bs. split; [reflexivity|]. split; [apply incl_refl|exact I].
    + intros r. rewrite Bs. reflexivity.
    + exact T.
    + intros r. rewrite Bs. auto.
    + exists m'. auto.
Qed.
