(* Making, cloning and copying terms. *)
From Coq Require Import String ZArith List Bool Arith Lia Permutation.
From Verif Require Import Base Lifetimes LifetimesSpec LifetimesFacts LifetimesFacts2 LifetimesFacts3.
Import ListNotations.

Definition three (m : mem) (X : list nat) (v : nat * nat * nat) : Prop :=
  let '(a, b, c) := v in (In a X /\ is_kind KIndex m a) /\ (In b X /\ is_kind KIndex m b) /\ (In c X /\ is_kind KIndex m c).

Lemma three_keeps : forall m m' X v, keeps m m' -> three m X v -> three m' X v.
Proof. intros m m' X [[a b] c] K ((A1 & A2) & (B1 & B2) & (C1 & C2)). simpl. eauto 10 using keeps_kind. Qed.

Lemma x_alive : forall m X H n, good m X H -> In n X -> alive m n.
Proof. intros m X H n G I. apply (good_alive m X H n G). apply in_or_app. auto. Qed.

Lemma h_alive : forall m X H n, good m X H -> In n H -> alive m n.
Proof. intros m X H n G I. apply (good_alive m X H n G). rewrite !in_app_iff. auto. Qed.

Lemma in_hp : forall k m X H n, good m X H -> all_kind KIndex m X -> alive m n -> is_kind k m n -> k <> KIndex ->
  In n (H ++ pointers m).
Proof.
  intros k m X H n G A L (s & E & K) N. apply (good_alive m X H n G) in L. apply in_app_or in L. destruct L as [L|L]; [|assumption].
  destruct (A n L) as (s' & E' & K'). rewrite E in E'. injection E' as <-. congruence.
Qed.

Lemma hash_lists_ok : forall m X H v, good m X H -> three m X v ->
  exists m', hash_lists m v = Ok m' /\ good m' X H /\ keeps m m'.
Proof.
  intros m X H [[a b] c] G T. pose proof T as ((A1 & A2) & (B1 & B2) & (C1 & C2)). simpl.
  destruct (normalize_ok m X H a G (x_alive _ _ _ _ G A1) A2) as (m1 & E1 & G1 & K1 & _). rewrite E1. cbn [bind].
  destruct (normalize_ok m1 X H b G1 (x_alive _ _ _ _ G1 B1) (keeps_kind _ _ _ _ K1 B2)) as (m2 & E2 & G2 & K2 & _). rewrite E2. cbn [bind].
  pose proof (keeps_trans _ _ _ K1 K2) as K12.
  destruct (normalize_ok m2 X H c G2 (x_alive _ _ _ _ G2 C1) (keeps_kind _ _ _ _ K12 C2)) as (m3 & E3 & G3 & K3 & _).
  exists m3. split; [assumption|]. split; [assumption|]. eapply keeps_trans; eassumption.
Qed.

Lemma build_lists_ok : forall m X H v f, good m X H -> three m X v ->
  exists m', build_lists false m v f = Ok m' /\ good m' X H /\ keeps m m'.
Proof.
  intros m X H [[a b] c] f G T. pose proof T as ((A1 & A2) & (B1 & B2) & (C1 & C2)). simpl.
  destruct (build_one_ok m X H a (f_ivar f) G (x_alive _ _ _ _ G A1) A2) as (m1 & E1 & G1 & K1). rewrite E1. cbn [bind].
  destruct (build_one_ok m1 X H b (f_dvar f) G1 (x_alive _ _ _ _ G1 B1) (keeps_kind _ _ _ _ K1 B2)) as (m2 & E2 & G2 & K2). rewrite E2. cbn [bind].
  pose proof (keeps_trans _ _ _ K1 K2) as K12.
  destruct (build_one_ok m2 X H c (f_qvar f) G2 (x_alive _ _ _ _ G2 C1) (keeps_kind _ _ _ _ K12 C2)) as (m3 & E3 & G3 & K3).
  exists m3. split; [assumption|]. split; [assumption|]. eapply keeps_trans; eassumption.
Qed.

Lemma term_points : forall m m' t x, is_kind KTerm m t -> keeps m m' -> alive m' t -> points m t x -> points m' t x.
Proof.
  intros m m' t x (s0 & E0 & K0) K (s' & E' & L') (s & E & L & I). rewrite E in E0. injection E0 as <-.
  destruct (k_slot m m' K t s E) as (s1 & E1 & _ & _ & F). rewrite E' in E1. injection E1 as <-.
  destruct (s_body s) eqn:B; try discriminate. exists s'. rewrite F. auto.
Qed.

Lemma join_lists_ok : forall m X H v l, good m X H -> three m X v -> (forall t, In t l -> alive m t /\ is_kind KTerm m t) ->
  exists m', join_lists false m v l = Ok m' /\ good m' X H /\ keeps m m'.
Proof.
  intros m X H v l G T A. destruct v as [[a b] c]. unfold join_lists.
  match goal with |- exists _, each ?f _ _ = _ /\ _ =>
    destruct (each_ok f (fun m1 => good m1 X H /\ keeps m m1) l m (conj G (keeps_refl m))) as (m' & E & G' & K') end.
  2: { exists m'. auto. }
  intros m1 t (G1 & K1) It. destruct (A t It) as [At Kt].
  assert (S1 : forall m', good m' X H -> keeps m m' -> alive m' t /\ is_kind KTerm m' t).
  { intros m' G' K'. apply (stays_kind KTerm m X H m' X H G G' (fun _ q => q) K' t At Kt); discriminate. }
  destruct (S1 m1 G1 K1) as [At1 Kt1].
  destruct (term_body m1 t At1 Kt1) as (s & cc & ff & sa & sb & st & vi & vd & vq & B & E & L & Bs).
  unfold list_at, term_at. rewrite B. cbn [bind].
  pose proof (g_ty _ _ _ G1 t s E L) as Ty. rewrite Bs in Ty. destruct Ty as (_ & _ & Ty & _).
  assert (Kv : is_kind KIndex m1 vi) by (apply Ty; left; reflexivity).
  assert (P : points m1 t vi).
  { exists s. split; [assumption|]. split; [assumption|]. rewrite Bs. simpl. rewrite !in_app_iff. simpl. auto. }
  pose proof (three_keeps _ _ _ _ K1 T) as ((A1 & A2) & (B1 & B2) & (C1 & C2)).
  destruct (connect_ok m1 X H a t vi G1 A1 A2 P Kt1 Kv) as (m2 & E2 & G2 & K2). rewrite E2. cbn [bind].
  pose proof (keeps_trans _ _ _ K1 K2) as K12. destruct (S1 m2 G2 K12) as [At2 Kt2].
  destruct (connect_ok m2 X H b t vi G2 B1 (keeps_kind _ _ _ _ K2 B2) (term_points _ _ _ _ Kt1 K2 At2 P) Kt2 (keeps_kind _ _ _ _ K2 Kv))
    as (m3 & E3 & G3 & K3). rewrite E3. cbn [bind].
  pose proof (keeps_trans _ _ _ K12 K3) as K123. pose proof (keeps_trans _ _ _ K2 K3) as K23. destruct (S1 m3 G3 K123) as [At3 Kt3].
  destruct (connect_ok m3 X H c t vi G3 C1 (keeps_kind _ _ _ _ K23 C2) (term_points _ _ _ _ Kt1 K23 At3 P) Kt3 (keeps_kind _ _ _ _ K23 Kv))
    as (m4 & E4 & G4 & K4).
  exists m4. split; [assumption|]. split; [assumption|]. eapply keeps_trans; eassumption.
Qed.

Lemma new_kind : forall m b, is_kind (kind_of b) (fst (alloc m b)) (length m).
Proof. intros m b. simpl. eexists. split; [rewrite nth_error_app2, Nat.sub_diag by lia; reflexivity|reflexivity]. Qed.

Lemma new_lists_ok : forall m X H, good m X H -> exists m' v, new_lists m = (m', v) /\ keeps m m'
  /\ (let '(a, b, c) := v in good m' (c :: b :: a :: X) H /\ three m' [a; b; c] v).
Proof.
  intros m X H G. unfold new_lists, new_list.
  assert (T : forall m, typed m (BIndex None [] [] false)) by (intros; simpl; repeat split; intros r []).
  destruct (alloc_ok m X H H (BIndex None [] [] false) G (fun _ => eq_refl) (T _)) as [G1 K1].
  pose proof (new_kind m (BIndex None [] [] false)) as N1.
  destruct (alloc m (BIndex None [] [] false)) as [m1 a] eqn:E1. simpl fst in *.
  assert (a = length m) by (unfold alloc in E1; congruence). subst a.
  destruct (alloc_ok m1 _ H H (BIndex None [] [] false) G1 (fun _ => eq_refl) (T _)) as [G2 K2].
  pose proof (new_kind m1 (BIndex None [] [] false)) as N2.
  destruct (alloc m1 (BIndex None [] [] false)) as [m2 b] eqn:E2. simpl fst in *.
  assert (b = length m1) by (unfold alloc in E2; congruence). subst b.
  destruct (alloc_ok m2 _ H H (BIndex None [] [] false) G2 (fun _ => eq_refl) (T _)) as [G3 K3].
  pose proof (new_kind m2 (BIndex None [] [] false)) as N3.
  destruct (alloc m2 (BIndex None [] [] false)) as [m3 c] eqn:E3. simpl fst in *.
  assert (c = length m2) by (unfold alloc in E3; congruence). subst c.
  exists m3, (length m, length m1, length m2). split; [reflexivity|].
  pose proof (keeps_trans _ _ _ K2 K3) as K23.
  split; [eapply keeps_trans; eassumption|]. split; [assumption|]. simpl.
  split; [split; [auto|exact (keeps_kind _ _ _ _ K23 N1)]|]. split; [split; [auto|exact (keeps_kind _ _ _ _ K3 N2)]|]. auto.
Qed.

Lemma three_incl : forall m X X' v, incl X X' -> three m X v -> three m X' v.
Proof. intros m X X' [[a b] c] I ((A1 & A2) & (B1 & B2) & (C1 & C2)). simpl. auto 10. Qed.

Lemma any_flags_ok : forall l m, (forall t, In t l -> alive m t /\ is_kind KTerm m t) -> exists f, any_flags m l = Ok f.
Proof.
  induction l as [|t l IH]; intros m A; [eexists; reflexivity|]. simpl.
  destruct (A t (or_introl eq_refl)) as [At Kt].
  destruct (term_body m t At Kt) as (s & cc & ff & sa & sb & st & vi & vd & vq & B & E & L & Bs).
  unfold flags_at, term_at. rewrite B. cbn [bind]. destruct (IH m) as [f ->]; [intros; apply A; right; assumption|].
  eexists. reflexivity.
Qed.

(* A new term object takes its parts and its lists. *)
Lemma finish_ok : forall m X H a b c cl f s p t, good m (c :: b :: a :: X) (opt s ++ opt p ++ opt t ++ H) ->
  three m [a; b; c] (a, b, c) -> all_kind KTerm m (opt s ++ opt p) -> all_kind KTerms m (opt t) -> right_class cl f s p t ->
  exists m' r, alloc m (BTerm cl f s p t a b c) = (m', r) /\ good m' X (r :: H) /\ keeps m m' /\ is_kind KTerm m' r.
Proof.
  intros m X H a b c cl f s p t G ((_ & T1) & (_ & T2) & (_ & T3)) Kp Kt R.
  apply good_weaken in G. apply good_weaken in G. apply good_weaken in G.
  destruct (alloc_held m X H _ (BTerm cl f s p t a b c) G) as [G' K'].
  - intros n. simpl refs. rewrite !occ_cons, !occ_app, !occ_cons, occ_nil. lia.
  - simpl. split; [assumption|]. split; [assumption|]. split; [|assumption]. intros n [<-|[<-|[<-|[]]]]; assumption.
  - pose proof (new_kind m (BTerm cl f s p t a b c)) as N. exists (fst (alloc m (BTerm cl f s p t a b c))), (length m).
    split; [reflexivity|]. auto.
Qed.

Lemma simple_ok : forall m X H c, good m X H -> c = CPlain \/ c = COperation \/ c = CInterval ->
  exists m' r, simple m c = (m', r) /\ good m' X (r :: H) /\ keeps m m' /\ is_kind KTerm m' r.
Proof.
  intros m X H c G C. unfold simple. destruct (new_lists_ok m X H G) as (m1 & [[a b] d] & E & K & G1 & T). rewrite E.
  destruct (finish_ok m1 X H a b d c (Flags false false false false) None None None) as (m' & r & E' & G' & K' & N').
  - exact G1.
  - exact T.
  - intros n [].
  - intros n [].
  - destruct C as [->|[->| ->]]; repeat split.
  - exists m', r. split; [assumption|]. split; [assumption|]. split; [eapply keeps_trans; eassumption|assumption].
Qed.

Lemma new_lists_body : forall m m' a b c, new_lists m = (m', (a, b, c)) -> forall l, In l [a; b; c] ->
  nth_error m' l = Some (Slot 1 true false (BIndex None [] [] false)).
Proof.
  intros m m' a b c E l I. unfold new_lists, new_list, alloc in E. injection E as <- <- <- <-.
  rewrite !app_length in I. simpl in I. rewrite <- !app_assoc. simpl app.
  destruct I as [<-|[<-|[<-|[]]]]; rewrite nth_error_app2 by lia.
  - rewrite Nat.sub_diag. reflexivity.
  - replace (length m + 1 - length m) with 1 by lia. reflexivity.
  - replace (length m + 1 + 1 - length m) with 2 by lia. reflexivity.
Qed.

Lemma variable_ok : forall m X H k name i, good m X H ->
  exists m' r, variable m k name i = Ok (m', r) /\ good m' X (r :: H) /\ keeps m m' /\ is_kind KTerm m' r.
Proof.
  intros m X H k name i G. unfold variable. destruct (new_lists_ok m X H G) as (m1 & [[a b] d] & E & K & G1 & T). rewrite E.
  set (f := match k with Independent => _ | Dependent => _ | Query => _ end).
  destruct (finish_ok m1 X H a b d (CVariable name) f None None None) as (m2 & r & E2 & G2 & K2 & N2).
  { exact G1. } { exact T. } { intros n []. } { intros n []. } { repeat split. }
  rewrite E2. pose proof (keeps_trans _ _ _ K K2) as K02. destruct i.
  2: { exists m2, r. auto. }
  set (l := match k with Independent => a | Dependent => b | Query => d end).
  pose proof T as ((_ & T1) & (_ & T2) & (_ & T3)).
  assert (Ll : exists s, nth_error m2 l = Some s /\ s_live s = true /\ s_body s = BIndex None [] [] false).
  { assert (Q : exists s, nth_error m1 l = Some s /\ s_live s = true /\ s_body s = BIndex None [] [] false).
    { eexists. split; [apply (new_lists_body _ _ _ _ _ E)|split; reflexivity]. unfold l. destruct k; simpl; auto. }
    destruct Q as (s & Q1 & Q2 & Q3). exists s. split; [|auto].
    unfold alloc in E2. injection E2 as <- _. rewrite nth_error_app1; [assumption|]. apply nth_error_Some. congruence. }
  destruct Ll as (s & Es & Ls & Bs).
  destruct (alloc_held m2 X (r :: H) _ BInt G2 (fun _ => eq_refl) I) as [G3 K3]. pose proof (new_kind m2 BInt) as N3.
  destruct (alloc m2 BInt) as [m3 y] eqn:E3. assert (y = length m2) by (unfold alloc in E3; congruence). subst y. simpl fst in *.
  assert (Es3 : nth_error m3 l = Some s).
  { unfold alloc in E3. injection E3 as <-. rewrite nth_error_app1; [assumption|]. apply nth_error_Some. congruence. }
  destruct (write_ok m3 X _ (r :: H) l s (BIndex None [length m2] [] false) G3 Es3 Ls) as (m4 & W & G4 & K4 & _).
  - rewrite Bs. split; [reflexivity|]. split; [apply incl_refl|exact I].
  - intros n. rewrite Bs. simpl refs. rewrite !occ_cons, occ_nil. lia.
  - simpl. split; [intros n []|]. split; [|intros n []]. intros n [<-|[]]. exact N3.
  - intros n. simpl. intros [<-|[]]. right; left. left. exact N3.
  - rewrite W. cbn [bind]. exists m4, r. split; [reflexivity|]. split; [assumption|].
    pose proof (keeps_trans _ _ _ K3 K4) as K34. split; [eapply keeps_trans; eassumption|]. eapply keeps_kind; eassumption.
Qed.

Lemma new_ints_ok : forall k m X H, good m X H -> exists m' l, new_ints m k = (m', l) /\ good m' X (l ++ H) /\ keeps m m'
  /\ all_kind KInt m' l.
Proof.
  induction k as [|k IH]; intros m X H G; simpl.
  - exists m, []. split; [reflexivity|]. split; [assumption|]. split; [apply keeps_refl|]. intros n [].
  - destruct (alloc_held m X H _ BInt G (fun _ => eq_refl) I) as [G1 K1]. pose proof (new_kind m BInt) as N1. simpl fst in *.
    destruct (IH _ X _ G1) as (m2 & l & E & G2 & K2 & A2). rewrite E. exists m2, (length m :: l). split; [reflexivity|].
    split; [eapply good_same; [|exact G2]; intros n; repeat rewrite ?occ_app, ?occ_cons; lia|].
    split; [eapply keeps_trans; eassumption|]. intros n [<-|Q]; [eapply keeps_kind; eassumption|auto].
Qed.

Lemma copy_list_ok : forall m X H n, good m X H -> alive m n -> is_kind KIndex m n ->
  exists m' r, copy_list m n = Ok (m', r) /\ good m' X (r :: H) /\ keeps m m' /\ is_kind KIndex m' r.
Proof.
  intros m X H n G A K. destruct (index_body m n A K) as (s & x & i & su & k & B & E & L & Bs).
  unfold copy_list. rewrite B. cbn [bind].
  assert (V : exists m1 x', match x with Some _ => let '(m', v) := alloc m BVector in (m', Some v) | None => (m, None) end = (m1, x')
     /\ good m1 X (opt x' ++ H) /\ keeps m m1 /\ all_kind KVector m1 (opt x')).
  { destruct x as [v|].
    - destruct (alloc_held m X H _ BVector G (fun _ => eq_refl) I) as [G1 K1]. pose proof (new_kind m BVector) as N1.
      exists (fst (alloc m BVector)), (Some (length m)). split; [reflexivity|]. split; [assumption|]. split; [assumption|].
      intros r [<-|[]]. assumption.
    - exists m, None. split; [reflexivity|]. split; [assumption|]. split; [apply keeps_refl|]. intros r []. }
  destruct V as (m1 & x' & -> & G1 & K1 & A1).
  destruct (new_ints_ok (length i) m1 X _ G1) as (m2 & l & -> & G2 & K2 & A2).
  destruct (alloc_held m2 X H _ (BIndex x' l [] false) G2) as [G3 K3].
  - intros r. simpl refs. rewrite !occ_app, occ_nil. lia.
  - simpl. split; [eapply keeps_all; eassumption|]. split; [assumption|]. intros r [].
  - pose proof (new_kind m2 (BIndex x' l [] false)) as N3. eexists. eexists. split; [reflexivity|]. split; [exact G3|].
    split; [|exact N3]. eapply keeps_trans; [|exact K3]. eapply keeps_trans; eassumption.
Qed.

Lemma copy_variable_ok : forall m X H name f v, good m X H ->
  (let '(a, b, c) := v in (alive m a /\ is_kind KIndex m a) /\ (alive m b /\ is_kind KIndex m b) /\ (alive m c /\ is_kind KIndex m c)) ->
  exists m' r, copy_variable m (CVariable name) f v = Ok (m', r) /\ good m' X (r :: H) /\ keeps m m' /\ is_kind KTerm m' r.
Proof.
  intros m X H name f [[a b] c] G ((A1 & A2) & (B1 & B2) & (C1 & C2)). unfold copy_variable.
  destruct (copy_list_ok m X H a G A1 A2) as (m1 & r1 & E1 & G1 & K1 & N1). rewrite E1. cbn [bind fst snd].
  assert (Sub : forall r H n, In n (X ++ H) -> In n (X ++ r :: H)) by (intros r H0 n; rewrite !in_app_iff; simpl; tauto).
  destruct (stays_kind KIndex m X H m1 X _ G G1 (Sub r1 H) K1 b B1 B2) as [B1' B2']; try discriminate.
  destruct (copy_list_ok m1 X _ b G1 B1' B2') as (m2 & r2 & E2 & G2 & K2 & N2). rewrite E2. cbn [bind fst snd].
  pose proof (keeps_trans _ _ _ K1 K2) as K12.
  destruct (stays_kind KIndex m X H m2 X _ G G2 (fun n q => Sub r2 _ n (Sub r1 H n q)) K12 c C1 C2) as [C1' C2']; try discriminate.
  destruct (copy_list_ok m2 X _ c G2 C1' C2') as (m3 & r3 & E3 & G3 & K3 & N3). rewrite E3. cbn [bind fst snd].
  destruct (alloc_held m3 X H _ (BTerm (CVariable name) f None None None r1 r2 r3) G3) as [G4 K4].
  - intros n. simpl refs. rewrite !occ_cons, occ_nil. lia.
  - simpl. split; [intros n []|]. split; [intros n []|]. split; [|repeat split].
    intros n [<-|[<-|[<-|[]]]]; [| |assumption].
    + eapply keeps_kind; [|exact N1]. eapply keeps_trans; eassumption.
    + eapply keeps_kind; eassumption.
  - eexists. eexists. split; [reflexivity|]. split; [exact G4|]. split; [|exact (new_kind m3 _)].
    eapply keeps_trans; [|exact K4]. eapply keeps_trans; eassumption.
Qed.

(* ---- Terms ---- *)
Lemma flat_nth : forall (l : list nat), flat_map (fun i => opt (nth_error l i)) (seq 0 (length l)) = l.
Proof.
  assert (W : forall l2 l1 : list nat, flat_map (fun i => opt (nth_error (l1 ++ l2) i)) (seq (length l1) (length l2)) = l2).
  { induction l2 as [|x l2 IH]; intros l1; [reflexivity|]. simpl seq. cbn [flat_map].
    rewrite nth_error_app2, Nat.sub_diag by lia. simpl opt. simpl app at 1. f_equal.
    specialize (IH (l1 ++ [x])). rewrite app_length in IH. simpl in IH. rewrite Nat.add_1_r, <- app_assoc in IH. exact IH. }
  intros l. exact (W l []).
Qed.

Lemma split_pick : forall pick l, NoDup pick -> (forall i, In i pick -> i < length l) ->
  forall n, occ n (picked pick l) + occ n (unpicked pick l) = occ n l.
Proof.
  intros pick l ND Lt n. unfold picked, unpicked. rewrite <- occ_app, <- flat_map_app.
  transitivity (occ n (flat_map (fun i => opt (nth_error l i)) (seq 0 (length l)))); [|rewrite flat_nth; reflexivity].
  unfold occ. apply Permutation_count_occ. apply Permutation_flat_map.
  apply NoDup_Permutation.
  - assert (NF : NoDup (filter (fun i => negb (existsb (Nat.eqb i) pick)) (seq 0 (length l)))) by (apply NoDup_filter, seq_NoDup).
    assert (D : forall i, In i pick -> ~ In i (filter (fun i => negb (existsb (Nat.eqb i) pick)) (seq 0 (length l)))).
    { intros i I J. apply filter_In in J. destruct J as [_ J]. apply negb_true_iff in J.
      assert (existsb (Nat.eqb i) pick = true) by (apply existsb_exists; exists i; rewrite Nat.eqb_refl; auto). congruence. }
    clear Lt. revert D. generalize NF. generalize (filter (fun i => negb (existsb (Nat.eqb i) pick)) (seq 0 (length l))).
    clear NF. intros k NF D. induction ND as [|x p N1 N2 IH]; [assumption|]. simpl. constructor.
    + rewrite in_app_iff. intros [Q|Q]; [contradiction|]. apply (D x); [left; reflexivity|assumption].
    + apply IH. intros i I. apply D. right. assumption.
  - apply seq_NoDup.
  - intros i. rewrite in_app_iff, filter_In, in_seq. split.
    + intros [Q|[Q _]]; [apply Lt in Q; lia|lia].
    + intros Q. destruct (existsb (Nat.eqb i) pick) eqn:B.
      * left. apply existsb_exists in B. destruct B as (j & J1 & J2). apply Nat.eqb_eq in J2. subst. assumption.
      * right. split; [lia|reflexivity].
Qed.

Lemma picked_in : forall pick l n, In n (picked pick l) -> In n l.
Proof.
  intros pick l n I. unfold picked in I. apply in_flat_map in I. destruct I as (i & _ & J).
  destruct (nth_error l i) as [x|] eqn:E; [|contradiction]. destruct J as [<-|[]]. eapply nth_error_In; eassumption.
Qed.

Section Choosing.
Variable choose : mem -> list nat -> list nat.
Hypothesis proper : proper_choice choose.

Lemma fill_ok : forall m X H l, good m X (l ++ H) -> all_kind KTerm m l ->
  exists m' r, fill false choose m l = Ok (m', r) /\ good m' X (r :: H) /\ keeps m m' /\ is_kind KTerms m' r.
Proof.
  intros m X H l G A. unfold fill. destruct (proper m l) as [ND Lt]. set (pick := choose m l) in *.
  destruct (drop_all_ok (unpicked pick l) m X (picked pick l ++ H)) as (m1 & E1 & G1 & S1).
  { eapply good_same; [|exact G]. intros n. rewrite !occ_app. rewrite <- (split_pick pick l ND Lt n). lia. }
  rewrite E1. cbn [bind]. apply shrinks_keeps in S1.
  destruct (alloc_held m1 X H _ (BTerms (picked pick l)) G1) as [G2 K2].
  - intros n. simpl refs. rewrite occ_app. reflexivity.
  - simpl. eapply keeps_all; [exact S1|]. intros n I. apply A. eapply picked_in; eassumption.
  - eexists. eexists. split; [reflexivity|]. split; [exact G2|]. split; [eapply keeps_trans; eassumption|exact (new_kind m1 _)].
Qed.

(* A way to clone, for objects as old as m0. *)
Definition clones_well (m0 : mem) (cl : mem -> nat -> res (mem * nat)) (n : nat) : Prop :=
  forall m X H, keeps m0 m -> good m X H -> all_kind KIndex m X -> alive m n -> is_kind KTerm m n ->
    exists m' r, cl m n = Ok (m', r) /\ good m' X (r :: H) /\ keeps m m' /\ is_kind KTerm m' r.

Lemma held_more : forall (X : list nat) r H n, In n (X ++ H) -> In n (X ++ r ++ H).
Proof. intros X r H n. rewrite !in_app_iff. tauto. Qed.

Lemma clones_ok : forall m0 cl l m X H, keeps m0 m -> good m X H -> all_kind KIndex m X ->
  (forall n, In n l -> alive m n /\ is_kind KTerm m n) -> (forall n, In n l -> clones_well m0 cl n) ->
  exists m' rs, clones cl m l = Ok (m', rs) /\ good m' X (rs ++ H) /\ keeps m m' /\ all_kind KTerm m' rs.
Proof.
  induction l as [|n l IH]; intros m X H K0 G AX A C.
  - exists m, []. split; [reflexivity|]. split; [assumption|]. split; [apply keeps_refl|]. intros n [].
  - destruct (A n (or_introl eq_refl)) as [An Kn].
    destruct (C n (or_introl eq_refl) m X H K0 G AX An Kn) as (m1 & r & E1 & G1 & K1 & N1).
    simpl. rewrite E1. cbn [bind fst snd].
    destruct (IH m1 X (r :: H)) as (m2 & rs & E2 & G2 & K2 & N2).
    + eapply keeps_trans; eassumption.
    + assumption.
    + eapply keeps_all; eassumption.
    + intros k Ik. destruct (A k (or_intror Ik)) as [Ak Kk].
      apply (stays_kind KTerm m X H m1 X (r :: H) G G1); try assumption; try discriminate. intros y. apply (held_more X [r] H).
    + intros k Ik. apply C. right. assumption.
    + rewrite E2. cbn [bind fst snd]. exists m2, (r :: rs). split; [reflexivity|].
      split; [eapply good_same; [|exact G2]; intros y; repeat rewrite ?occ_app, ?occ_cons; lia|].
      split; [eapply keeps_trans; eassumption|]. intros y [<-|Q]; [eapply keeps_kind; eassumption|auto].
Qed.

Lemma all_three : forall m X a b c, all_kind KIndex m X -> three m [a; b; c] (a, b, c) -> all_kind KIndex m (c :: b :: a :: X).
Proof. intros m X a b c A ((_ & T1) & (_ & T2) & (_ & T3)) n [<-|[<-|[<-|Q]]]; auto. Qed.

Lemma three_in : forall m X a b c, three m [a; b; c] (a, b, c) -> three m (c :: b :: a :: X) (a, b, c).
Proof. intros m X a b c ((_ & T1) & (_ & T2) & (_ & T3)). simpl. auto 10. Qed.

Lemma sub_x : forall (X Y H H' : list nat), incl H H' -> forall n, In n (X ++ H) -> In n ((Y ++ X) ++ H').
Proof. intros X Y H H' I n. rewrite !in_app_iff. intros [Q|Q]; [tauto|]. right. apply I. assumption. Qed.

Lemma statement_copy_ok : forall m0 cl m X H f s p, keeps m0 m -> good m X H -> all_kind KIndex m X ->
  (alive m s /\ is_kind KTerm m s) -> (alive m p /\ is_kind KTerm m p) -> clones_well m0 cl s -> clones_well m0 cl p ->
  exists m' r, statement_copy false cl m f s p = Ok (m', r) /\ good m' X (r :: H) /\ keeps m m' /\ is_kind KTerm m' r.
Proof.
  intros m0 cl m X H f s p K0 G AX [As Ks] [Ap Kp] Cs Cp. unfold statement_copy.
  destruct (new_lists_ok m X H G) as (m1 & [[a b] d] & E & K & G1 & T). rewrite E.
  pose proof (all_three _ X _ _ _ (keeps_all _ _ _ _ K AX) T) as AX1.
  destruct (stays_kind KTerm m X H m1 _ H G G1 (sub_x X [d; b; a] H H (incl_refl _)) K s As Ks) as [As1 Ks1]; try discriminate.
  destruct (Cs m1 _ H (keeps_trans _ _ _ K0 K) G1 AX1 As1 Ks1) as (m2 & r1 & E2 & G2 & K2 & N2). rewrite E2. cbn [bind fst snd].
  pose proof (keeps_trans _ _ _ K K2) as K02.
  destruct (stays_kind KTerm m X H m2 _ _ G G2 (sub_x X [d; b; a] H (r1 :: H) (incl_tl _ (incl_refl _))) K02 p Ap Kp) as [Ap2 Kp2]; try discriminate.
  destruct (Cp m2 _ (r1 :: H) (keeps_trans _ _ _ K0 K02) G2 (keeps_all _ _ _ _ K2 AX1) Ap2 Kp2) as (m3 & r2 & E3 & G3 & K3 & N3).
  rewrite E3. cbn [bind fst snd].
  pose proof (keeps_trans _ _ _ K2 K3) as K13.
  pose proof (three_keeps _ _ _ _ K13 T) as T3.
  destruct (join_lists_ok m3 _ _ (a, b, d) [r1; r2] G3 (three_in _ X _ _ _ T3)) as (m4 & E4 & G4 & K4).
  { intros t [<-|[<-|[]]].
    - split; [apply (h_alive _ _ _ _ G3); right; left; reflexivity|exact (keeps_kind _ _ _ _ K3 N2)].
    - split; [apply (h_alive _ _ _ _ G3); left; reflexivity|assumption]. }
  rewrite E4. cbn [bind]. pose proof (three_keeps _ _ _ _ K4 T3) as T4.
  destruct (build_lists_ok m4 _ _ (a, b, d) f G4 (three_in _ X _ _ _ T4)) as (m5 & E5 & G5 & K5). rewrite E5. cbn [bind].
  pose proof (three_keeps _ _ _ _ K5 T4) as T5.
  destruct (finish_ok m5 X H a b d CStatement f (Some r1) (Some r2) None) as (m6 & r & E6 & G6 & K6 & N6).
  - eapply good_same; [|exact G5]. intros n. simpl app. rewrite !occ_cons. lia.
  - assumption.
  - intros n [<-|[<-|[]]].
    + eapply keeps_kind; [|exact N2]. eapply keeps_trans; [|exact K5]. eapply keeps_trans; eassumption.
    + eapply keeps_kind; [|exact N3]. eapply keeps_trans; eassumption.
  - intros n [].
  - simpl. repeat split; congruence.
  - rewrite E6. exists m6, r. split; [reflexivity|]. split; [assumption|]. split; [|assumption].
    eapply keeps_trans; [|exact K6]. eapply keeps_trans; [|exact K5]. eapply keeps_trans; [|exact K4]. eapply keeps_trans; eassumption.
Qed.

Lemma terms_elements : forall m X H t s l, good m X H -> nth_error m t = Some s -> s_live s = true -> s_body s = BTerms l ->
  forall n, In n l -> alive m n /\ is_kind KTerm m n.
Proof.
  intros m X H t s l G E L B n I. split.
  - apply (pointed_alive m X H t n G). exists s. rewrite B. auto.
  - pose proof (g_ty _ _ _ G t s E L) as T. rewrite B in T. apply T. assumption.
Qed.

(* A Terms of the program's own, or copied: then the term around it. *)
Lemma compound_end : forall m X H a b d f t, good m (d :: b :: a :: X) (t :: H) -> three m [a; b; d] (a, b, d) ->
  is_kind KTerms m t -> exists l, terms_at m t = Ok l /\
  exists m3, join_lists false m (a, b, d) l = Ok m3 /\
  exists m4, build_lists false m3 (a, b, d) f = Ok m4 /\
  exists m' r, alloc m4 (BTerm CCompound f None None (Some t) a b d) = (m', r) /\ good m' X (r :: H) /\ keeps m m' /\ is_kind KTerm m' r.
Proof.
  intros m X H a b d f t G T Kt.
  assert (At : alive m t) by (apply (h_alive _ _ _ _ G); left; reflexivity).
  destruct (terms_body m t At Kt) as (s & l & B & E & L & Bs). unfold terms_at. rewrite B. cbn [bind].
  exists l. split; [reflexivity|].
  destruct (join_lists_ok m _ _ (a, b, d) l G (three_in _ X _ _ _ T) (terms_elements _ _ _ _ _ _ G E L Bs)) as (m3 & E3 & G3 & K3).
  exists m3. split; [assumption|]. pose proof (three_keeps _ _ _ _ K3 T) as T3.
  destruct (build_lists_ok m3 _ _ (a, b, d) f G3 (three_in _ X _ _ _ T3)) as (m4 & E4 & G4 & K4).
  exists m4. split; [assumption|]. pose proof (three_keeps _ _ _ _ K4 T3) as T4.
  destruct (finish_ok m4 X H a b d CCompound f None None (Some t)) as (m6 & r & E6 & G6 & K6 & N6).
  - exact G4.
  - assumption.
  - intros n [].
  - intros n [<-|[]]. eapply keeps_kind; [|exact Kt]. eapply keeps_trans; eassumption.
  - simpl. repeat split; congruence.
  - exists m6, r. split; [assumption|]. split; [assumption|]. split; [|assumption].
    eapply keeps_trans; [|exact K6]. eapply keeps_trans; eassumption.
Qed.

Lemma compound_copy_ok : forall m0 cl m X H f t, keeps m0 m -> good m X H -> all_kind KIndex m X ->
  (alive m t /\ is_kind KTerms m t) -> (f_var f = true -> forall n, points m t n -> clones_well m0 cl n) ->
  exists m' r, compound_copy false choose cl m f t = Ok (m', r) /\ good m' X (r :: H) /\ keeps m m' /\ is_kind KTerm m' r.
Proof.
  intros m0 cl m X H f t K0 G AX [At Kt] C. unfold compound_copy.
  destruct (new_lists_ok m X H G) as (m1 & [[a b] d] & E & K & G1 & T). rewrite E.
  pose proof (all_three _ X _ _ _ (keeps_all _ _ _ _ K AX) T) as AX1.
  destruct (stays_kind KTerms m X H m1 _ H G G1 (sub_x X [d; b; a] H H (incl_refl _)) K t At Kt) as [At1 Kt1]; try discriminate.
  assert (W : exists m2 r, (if f_var f then
          bind (terms_at m1 t) (fun l =>
          bind (clones cl m1 l) (fun r => fill false choose (fst r) (snd r)))
        else bind (acquire m1 t) (fun m1 => Ok (m1, t))) = Ok (m2, r) /\ good m2 (d :: b :: a :: X) (r :: H) /\ keeps m1 m2 /\ is_kind KTerms m2 r).
  { destruct (f_var f).
    - destruct (terms_body m1 t At1 Kt1) as (s & l & B & Es & L & Bs). unfold terms_at. rewrite B. cbn [bind].
      destruct (clones_ok m0 cl l m1 _ H (keeps_trans _ _ _ K0 K) G1 AX1 (terms_elements _ _ _ _ _ _ G1 Es L Bs)) as (m2 & rs & E2 & G2 & K2 & N2).
      { intros n I. apply C; [reflexivity|]. destruct At as (s0 & E0 & L0). exists s0. split; [assumption|]. split; [assumption|].
        destruct (k_slot m m1 K t s0 E0) as (s' & E' & _ & _ & F). rewrite Es in E'. injection E' as <-.
        destruct Kt as (s1 & Q1 & Q2). rewrite E0 in Q1. injection Q1 as <-. destruct (s_body s0); try discriminate.
        rewrite Bs in F. injection F as <-. exact I. }
      rewrite E2. cbn [bind fst snd]. destruct (fill_ok m2 _ H rs G2 N2) as (m3 & r & E3 & G3 & K3 & N3).
      exists m3, r. split; [assumption|]. split; [assumption|]. split; [eapply keeps_trans; eassumption|assumption].
    - destruct (acquire_ok m1 _ H t G1) as (m2 & E2 & G2 & K2 & _).
      { eapply (in_hp KTerms); try eassumption. discriminate. }
      rewrite E2. cbn [bind]. exists m2, t. split; [reflexivity|]. split; [assumption|]. split; [assumption|]. eapply keeps_kind; eassumption. }
  destruct W as (m2 & r & E2 & G2 & K2 & N2). rewrite E2. cbn [bind fst snd].
  destruct (compound_end m2 X H a b d f r G2 (three_keeps _ _ _ _ K2 T) N2) as (l & -> & m3 & E3 & m4 & E4 & m5 & r' & E5 & G5 & K5 & N5).
  cbn [bind]. rewrite E3. cbn [bind]. rewrite E4. cbn [bind]. rewrite E5. exists m5, r'. split; [reflexivity|]. split; [assumption|].
  split; [|assumption]. eapply keeps_trans; [|exact K5]. eapply keeps_trans; eassumption.
Qed.

(* ---- clone ---- *)
Section Cloning.
Variable m0 : mem.
Variables X0 H0 : list nat.
Hypothesis G0 : good m0 X0 H0.
Variable mu : nat -> nat.
Hypothesis Mu : forall n r, points m0 n r -> mu r < mu n.

Lemma clone_ok : forall fuel n, mu n < fuel -> alive m0 n -> is_kind KTerm m0 n -> clones_well m0 (clone false choose fuel) n.
Proof.
  induction fuel as [|fuel IH]; intros n Fu A0 KT0 m X H K0 G AX A K; [lia|].
  destruct (term_body m n A K) as (s & c & f & a & b & t & x & y & z & B & E & L & Bs).
  simpl clone. unfold term_at. rewrite B. cbn [bind].
  destruct A0 as (s0 & E0 & L0). assert (B0 : s_body s0 = s_body s).
  { destruct (k_slot m0 m K0 n s0 E0) as (s' & E' & _ & _ & F). rewrite E in E'. injection E' as <-.
    destruct KT0 as (s1 & Q1 & Q2). rewrite E0 in Q1. injection Q1 as <-. destruct (s_body s0); try discriminate. auto. }
  pose proof (g_ty _ _ _ G n s E L) as T. rewrite Bs in T. destruct T as (T1 & T2 & T3 & T4).
  pose proof (g_ty _ _ _ G0 n s0 E0 L0) as U. rewrite B0, Bs in U. destruct U as (U1 & U2 & U3 & U4).
  assert (P : forall r, In r (opt a ++ opt b ++ opt t ++ [x; y; z]) -> points m n r /\ points m0 n r).
  { intros r I. split; [exists s|exists s0]; (split; [assumption|]); (split; [assumption|]); rewrite ?B0, Bs; exact I. }
  destruct (f_var f) eqn:Fv.
  - destruct c; simpl in T4; try (destruct T4 as (Q & _); congruence).
    + assert (V : forall r, In r [x; y; z] -> alive m r /\ is_kind KIndex m r).
      { intros r I. split; [|apply T3; assumption]. apply (pointed_alive m X H n r G). apply P. rewrite !in_app_iff. auto. }
      apply copy_variable_ok; [assumption|]. simpl in V. auto 10.
    + destruct T4 as (Q1 & Q2 & _). destruct a as [a|]; [|congruence]. destruct b as [b|]; [|congruence].
      destruct (P a) as [Pa Pa0]; [left; reflexivity|]. destruct (P b) as [Pb Pb0]; [right; left; reflexivity|].
      apply (statement_copy_ok m0); try assumption.
      * split; [exact (pointed_alive _ _ _ _ _ G Pa)|]. apply T1. left. reflexivity.
      * split; [exact (pointed_alive _ _ _ _ _ G Pb)|]. apply T1. right. left. reflexivity.
      * apply IH; [specialize (Mu _ _ Pa0); lia|exact (pointed_alive _ _ _ _ _ G0 Pa0)|]. apply U1. left. reflexivity.
      * apply IH; [specialize (Mu _ _ Pb0); lia|exact (pointed_alive _ _ _ _ _ G0 Pb0)|]. apply U1. right. left. reflexivity.
    + destruct T4 as (Q1 & Q2 & Q3). destruct t as [t|]; [|congruence]. subst a b.
      destruct (P t) as [Pt Pt0]; [left; reflexivity|].
      assert (KTt : is_kind KTerms m t) by (apply T2; left; reflexivity).
      assert (KTt0 : is_kind KTerms m0 t) by (apply U2; left; reflexivity).
      apply (compound_copy_ok m0); try assumption.
      * split; [exact (pointed_alive _ _ _ _ _ G Pt)|assumption].
      * intros _ r Pr.
        assert (Pr0 : points m0 t r).
        { destruct (pointed_alive _ _ _ _ _ G0 Pt0) as (st & Et & Lt). exists st. split; [assumption|]. split; [assumption|].
          destruct Pr as (st' & Et' & _ & Ir). destruct (k_slot m0 m K0 t st Et) as (s' & E' & _ & _ & F). rewrite Et' in E'. injection E' as <-.
          destruct KTt0 as (s1 & R1 & R2). rewrite Et in R1. injection R1 as <-. destruct (s_body st); try discriminate. rewrite F in Ir. exact Ir. }
        apply IH.
        -- pose proof (Mu _ _ Pt0). pose proof (Mu _ _ Pr0). lia.
        -- exact (pointed_alive _ _ _ _ _ G0 Pr0).
        -- destruct Pr0 as (st & Et & Lt & It). pose proof (g_ty _ _ _ G0 t st Et Lt) as W.
           destruct KTt0 as (s1 & R1 & R2). rewrite Et in R1. injection R1 as <-. destruct (s_body st); try discriminate. apply W. exact It.
  - destruct (acquire_ok m X H n G) as (m2 & E2 & G2 & K2 & _).
    { eapply (in_hp KTerm); try eassumption. discriminate. }
    rewrite E2. cbn [bind]. exists m2, n. split; [reflexivity|]. split; [assumption|]. split; [assumption|]. eapply keeps_kind; eassumption.
Qed.
End Cloning.

Lemma clone_of_ok : forall n m0, clones_well m0 (clone_of false choose) n.
Proof.
  intros n m0 m X H _ G AX A K. unfold clone_of. destruct (measure m X H G) as (mu & M1 & M2).
  apply (clone_ok m X H G mu M1 (S (length m)) n); try assumption.
  - specialize (M2 n). lia.
  - apply keeps_refl.
Qed.

Lemma part_ok : forall i n m X H, good m X H -> all_kind KIndex m X -> alive m n -> is_kind KTerm m n ->
  exists m' r, part false choose i m n = Ok (m', r) /\ good m' X (r :: H) /\ keeps m m' /\ is_kind KTerm m' r.
Proof.
  intros i n m X H G AX A K. unfold part. destruct i.
  - destruct (acquire_ok m X H n G) as (m2 & E2 & G2 & K2 & _).
    { eapply (in_hp KTerm); try eassumption. discriminate. }
    rewrite E2. cbn [bind]. exists m2, n. split; [reflexivity|]. split; [assumption|]. split; [assumption|]. eapply keeps_kind; eassumption.
  - apply (clone_of_ok n m); try assumption. apply keeps_refl.
Qed.

Lemma statement_ok : forall m X H s p i, good m X H -> all_kind KIndex m X ->
  (alive m s /\ is_kind KTerm m s) -> (alive m p /\ is_kind KTerm m p) ->
  exists m' r, statement false choose m s p i = Ok (m', r) /\ good m' X (r :: H) /\ keeps m m' /\ is_kind KTerm m' r.
Proof.
  intros m X H s p i G AX [As Ks] [Ap Kp]. unfold statement.
  destruct (new_lists_ok m X H G) as (m1 & [[a b] d] & E & K & G1 & T). rewrite E.
  pose proof (all_three _ X _ _ _ (keeps_all _ _ _ _ K AX) T) as AX1.
  destruct (stays_kind KTerm m X H m1 _ H G G1 (sub_x X [d; b; a] H H (incl_refl _)) K s As Ks) as [As1 Ks1]; try discriminate.
  destruct (part_ok i s m1 _ H G1 AX1 As1 Ks1) as (m2 & r1 & E2 & G2 & K2 & N2). rewrite E2. cbn [bind fst snd].
  pose proof (keeps_trans _ _ _ K K2) as K02.
  destruct (stays_kind KTerm m X H m2 _ _ G G2 (sub_x X [d; b; a] H (r1 :: H) (incl_tl _ (incl_refl _))) K02 p Ap Kp) as [Ap2 Kp2]; try discriminate.
  destruct (part_ok i p m2 _ (r1 :: H) G2 (keeps_all _ _ _ _ K2 AX1) Ap2 Kp2) as (m3 & r2 & E3 & G3 & K3 & N3).
  rewrite E3. cbn [bind fst snd].
  pose proof (keeps_trans _ _ _ K2 K3) as K13.
  pose proof (three_keeps _ _ _ _ K13 T) as T3.
  destruct (hash_lists_ok m3 _ _ (a, b, d) G3 (three_in _ X _ _ _ T3)) as (m3' & E3' & G3' & K3'). rewrite E3'. cbn [bind].
  pose proof (three_keeps _ _ _ _ K3' T3) as T3'.
  pose proof (keeps_kind _ _ _ _ (keeps_trans _ _ _ K3 K3') N2) as N2'. pose proof (keeps_kind _ _ _ _ K3' N3) as N3'.
  assert (R : forall t, In t [r1; r2] -> alive m3' t /\ is_kind KTerm m3' t).
  { intros t [<-|[<-|[]]].
    - split; [apply (h_alive _ _ _ _ G3'); right; left; reflexivity|assumption].
    - split; [apply (h_alive _ _ _ _ G3'); left; reflexivity|assumption]. }
  destruct (any_flags_ok [r1; r2] m3' R) as (f & Ef). rewrite Ef. cbn [bind].
  destruct (join_lists_ok m3' _ _ (a, b, d) [r1; r2] G3' (three_in _ X _ _ _ T3') R) as (m4 & E4 & G4 & K4).
  rewrite E4. cbn [bind]. pose proof (three_keeps _ _ _ _ K4 T3') as T4.
  destruct (build_lists_ok m4 _ _ (a, b, d) f G4 (three_in _ X _ _ _ T4)) as (m5 & E5 & G5 & K5). rewrite E5. cbn [bind].
  pose proof (three_keeps _ _ _ _ K5 T4) as T5.
  destruct (finish_ok m5 X H a b d CStatement f (Some r1) (Some r2) None) as (m6 & r & E6 & G6 & K6 & N6).
  - eapply good_same; [|exact G5]. intros n. simpl app. rewrite !occ_cons. lia.
  - assumption.
  - intros n [<-|[<-|[]]]; (eapply keeps_kind; [|eassumption]; eapply keeps_trans; eassumption).
  - intros n [].
  - simpl. repeat split; congruence.
  - rewrite E6. exists m6, r. split; [reflexivity|]. split; [assumption|]. split; [|assumption].
    eapply keeps_trans; [|exact K6]. eapply keeps_trans; [|exact K5]. eapply keeps_trans; [|exact K4]. eapply keeps_trans; [|exact K3'].
    eapply keeps_trans; eassumption.
Qed.

Lemma compound_ok : forall m X H t i, good m X H -> all_kind KIndex m X -> (alive m t /\ is_kind KTerms m t) ->
  exists m' r, compound false choose m t i = Ok (m', r) /\ good m' X (r :: H) /\ keeps m m' /\ is_kind KTerm m' r.
Proof.
  intros m X H t i G AX [At Kt]. unfold compound.
  destruct (new_lists_ok m X H G) as (m1 & [[a b] d] & E & K & G1 & T). rewrite E.
  pose proof (all_three _ X _ _ _ (keeps_all _ _ _ _ K AX) T) as AX1.
  destruct (stays_kind KTerms m X H m1 _ H G G1 (sub_x X [d; b; a] H H (incl_refl _)) K t At Kt) as [At1 Kt1]; try discriminate.
  assert (W : exists m2 r, (if i then bind (acquire m1 t) (fun m1 => Ok (m1, t))
        else bind (terms_at m1 t) (fun l =>
             bind (clones (clone_of false choose) m1 l) (fun r => fill false choose (fst r) (snd r)))) = Ok (m2, r)
     /\ good m2 (d :: b :: a :: X) (r :: H) /\ keeps m1 m2 /\ is_kind KTerms m2 r).
  { destruct i.
    - destruct (acquire_ok m1 _ H t G1) as (m2 & E2 & G2 & K2 & _).
      { eapply (in_hp KTerms); try eassumption. discriminate. }
      rewrite E2. cbn [bind]. exists m2, t. split; [reflexivity|]. split; [assumption|]. split; [assumption|]. eapply keeps_kind; eassumption.
    - destruct (terms_body m1 t At1 Kt1) as (s & l & B & Es & L & Bs). unfold terms_at. rewrite B. cbn [bind].
      destruct (clones_ok m1 (clone_of false choose) l m1 _ H (keeps_refl _) G1 AX1 (terms_elements _ _ _ _ _ _ G1 Es L Bs)) as (m2 & rs & E2 & G2 & K2 & N2).
      { intros n I. apply clone_of_ok. }
      rewrite E2. cbn [bind fst snd]. destruct (fill_ok m2 _ H rs G2 N2) as (m3 & r & E3 & G3 & K3 & N3).
      exists m3, r. split; [assumption|]. split; [assumption|]. split; [eapply keeps_trans; eassumption|assumption]. }
  destruct W as (m2 & r & E2 & G2 & K2 & N2). rewrite E2. cbn [bind fst snd].
  pose proof (three_keeps _ _ _ _ K2 T) as T2.
  assert (Ar : alive m2 r) by (apply (h_alive _ _ _ _ G2); left; reflexivity).
  destruct (terms_body m2 r Ar N2) as (s & l & B & Es & L & Bs). unfold terms_at at 1. rewrite B. cbn [bind].
  destruct (hash_lists_ok m2 _ _ (a, b, d) G2 (three_in _ X _ _ _ T2)) as (m3 & E3 & G3 & K3). rewrite E3. cbn [bind].
  pose proof (three_keeps _ _ _ _ K3 T2) as T3. pose proof (keeps_kind _ _ _ _ K3 N2) as N3.
  assert (At3 : terms_at m3 r = Ok l).
  { assert (Ar3 : alive m3 r) by (apply (h_alive _ _ _ _ G3); left; reflexivity).
    destruct (terms_body m3 r Ar3 N3) as (s3 & l3 & B3 & Es3 & L3 & Bs3). unfold terms_at. rewrite B3. cbn [bind].
    destruct (k_slot m2 m3 K3 r s Es) as (s' & E' & _ & _ & F). rewrite Es3 in E'. injection E' as <-. rewrite Bs in F. congruence. }
  assert (R : forall n, In n l -> alive m3 n /\ is_kind KTerm m3 n).
  { intros n I. destruct (terms_elements _ _ _ _ _ _ G2 Es L Bs n I) as [An Kn].
    apply (stays_kind KTerm m2 _ _ m3 _ _ G2 G3 (fun _ q => q) K3 n An Kn); discriminate. }
  destruct (any_flags_ok l m3 R) as (f & Ef). rewrite Ef. cbn [bind].
  destruct (compound_end m3 X H a b d f r G3 T3 N3) as (l' & E' & m4 & E4 & m5 & E5 & m6 & r' & E6 & G6 & K6 & N6).
  rewrite At3 in E'. injection E' as <-. rewrite E4. cbn [bind]. rewrite E5. cbn [bind]. rewrite E6.
  exists m6, r'. split; [reflexivity|]. split; [assumption|]. split; [|assumption].
  eapply keeps_trans; [|exact K6]. eapply keeps_trans; [|exact K3]. eapply keeps_trans; eassumption.
Qed.

Lemma duplicate_ok : forall m X H n deep, good m X H -> all_kind KIndex m X -> alive m n ->
  (has_class m n CStatement \/ has_class m n CCompound \/ (deep = true /\ exists name, has_class m n (CVariable name))) ->
  exists m' r, duplicate false choose m n deep = Ok (m', r) /\ good m' X (r :: H) /\ keeps m m' /\ is_kind KTerm m' r.
Proof.
  intros m X H n deep G AX A Hc. assert (K : is_kind KTerm m n).
  { destruct Hc as [Q|[Q|[_ [name Q]]]]; destruct Q as (s & ff & a & b & t & x & y & z & E & B); exists s; rewrite B; auto. }
  destruct (term_body m n A K) as (s & c & f & a & b & t & x & y & z & B & E & L & Bs).
  unfold duplicate, term_at. rewrite B. cbn [bind].
  assert (Cc : c = CStatement \/ c = CCompound \/ (deep = true /\ exists name, c = CVariable name)).
  { destruct Hc as [Q|[Q|[D [name Q]]]]; destruct Q as (s' & ff & a' & b' & t' & x' & y' & z' & E' & B');
      rewrite E in E'; injection E' as <-; rewrite Bs in B'; injection B' as -> _ _ _ _ _ _ _; eauto. }
  pose proof (g_ty _ _ _ G n s E L) as T. rewrite Bs in T. destruct T as (T1 & T2 & T3 & T4).
  assert (P : forall r, In r (opt a ++ opt b ++ opt t ++ [x; y; z]) -> points m n r).
  { intros r I. exists s. split; [assumption|]. split; [assumption|]. rewrite Bs. exact I. }
  destruct deep.
  - destruct Cc as [->|[->|[_ [name ->]]]].
    + destruct T4 as (Q1 & Q2 & _). destruct a as [a|]; [|congruence]. destruct b as [b|]; [|congruence].
      apply (statement_copy_ok m); try assumption; try apply keeps_refl; try apply clone_of_ok.
      * split; [apply (pointed_alive _ _ _ _ _ G (P a (or_introl eq_refl)))|]. apply T1. left. reflexivity.
      * split; [apply (pointed_alive _ _ _ _ _ G (P b (or_intror (or_introl eq_refl))))|]. apply T1. right. left. reflexivity.
    + destruct T4 as (Q1 & Q2 & Q3). destruct t as [t|]; [|congruence]. subst a b.
      apply (compound_copy_ok m); try assumption; try apply keeps_refl.
      * split; [apply (pointed_alive _ _ _ _ _ G (P t (or_introl eq_refl)))|]. apply T2. left. reflexivity.
      * intros _ r _. apply clone_of_ok.
    + apply copy_variable_ok; [assumption|].
      assert (V : forall r, In r [x; y; z] -> alive m r /\ is_kind KIndex m r).
      { intros r I. split; [|apply T3; assumption]. apply (pointed_alive m X H n r G). apply P. rewrite !in_app_iff. auto. }
      simpl in V. auto 10.
  - destruct (new_lists_ok m X H G) as (m1 & [[va vb] vd] & E1 & K1 & G1 & Tv). rewrite E1.
    assert (An1 : alive m1 n).
    { apply (stays_kind KTerm m X H m1 _ H G G1 (sub_x X [vd; vb; va] H H (incl_refl _)) K1 n A K); discriminate. }
    apply good_weaken in G1. apply good_weaken in G1. apply good_weaken in G1.
    destruct (acquire_all_ok (opt a ++ opt b ++ opt t ++ [x; y; z]) m1 X _ G1) as (m2 & E2 & G2 & K2 & _).
    { intros r I. apply in_or_app. right. apply in_pointers. exists n. apply (term_points m m1 n r K K1 An1 (P r I)). }
    cbn [bind]. rewrite E2. cbn [bind].
    destruct (drop_all_ok [va; vb; vd] m2 X ((opt a ++ opt b ++ opt t ++ [x; y; z]) ++ H)) as (m3 & E3 & G3 & S3).
    { eapply good_same; [|exact G2]. intros r. repeat rewrite ?occ_app, ?occ_cons, ?occ_nil. lia. }
    rewrite E3. cbn [bind]. apply shrinks_keeps in S3.
    assert (K3 : keeps m m3) by (eapply keeps_trans; [|exact S3]; eapply keeps_trans; eassumption).
    destruct (alloc_held m3 X H _ (BTerm c f a b t x y z) G3) as [G4 K4].
    + intros r. rewrite occ_app. reflexivity.
    + simpl. split; [eapply keeps_all; eassumption|]. split; [eapply keeps_all; eassumption|]. split; [eapply keeps_all; eassumption|assumption].
    + eexists. eexists. split; [reflexivity|]. split; [exact G4|]. split; [eapply keeps_trans; eassumption|exact (new_kind m3 _)].
Qed.

(* ---- actions ---- *)
Lemma remove_occ : forall n l, In n l -> forall k, occ k l = occ k (n :: remove_one n l).
Proof.
  intros n l. induction l as [|x l IH]; intros I k; [contradiction|]. simpl remove_one.
  destruct (n =? x) eqn:Q.
  - apply Nat.eqb_eq in Q. subst. reflexivity.
  - destruct I as [->|I]; [rewrite Nat.eqb_refl in Q; discriminate|]. rewrite !occ_cons. rewrite (IH I k), occ_cons. lia.
Qed.

Lemma act_ok : forall m held a, good m [] held -> allowed m held a ->
  exists m' held', act false choose m held a = Ok (m', held') /\ good m' [] held' /\ keeps m m'.
Proof.
  intros m held a G Al.
  assert (AX : all_kind KIndex m []) by (intros n []).
  assert (Keep : forall r, (exists m' x, r = Ok (m', x) /\ good m' [] (x :: held) /\ keeps m m' /\ is_kind KTerm m' x) ->
     exists m' held', bind r (fun x => Ok (fst x, snd x :: held)) = Ok (m', held') /\ good m' [] held' /\ keeps m m').
  { intros r (m' & x & -> & G' & K' & _). exists m', (x :: held). auto. }
  destruct a; simpl in Al; unfold act.
  - apply Keep. destruct (simple_ok m [] held c G Al) as (m' & r & E & Q). exists m', r. rewrite E. auto.
  - apply Keep. apply variable_ok. assumption.
  - destruct (acquire_all_ok l m [] held G) as (m1 & E1 & G1 & K1 & _).
    { intros n I. apply in_or_app. left. apply Al. assumption. }
    rewrite E1. cbn [bind]. destruct (fill_ok m1 [] held l G1) as (m2 & r & E2 & G2 & K2 & _).
    { intros n I. eapply keeps_kind; [exact K1|]. apply term_kind. apply Al. assumption. }
    rewrite E2. cbn [bind fst snd]. exists m2, (r :: held). split; [reflexivity|]. split; [assumption|eapply keeps_trans; eassumption].
  - destruct Al as (A1 & A2 & A3 & A4). apply Keep. apply statement_ok; try assumption.
    + split; [eapply h_alive; eassumption|apply term_kind; assumption].
    + split; [eapply h_alive; eassumption|apply term_kind; assumption].
  - destruct Al as (A1 & A2). apply Keep. apply compound_ok; try assumption.
    split; [eapply h_alive; eassumption|apply terms_kind; assumption].
  - destruct Al as (A1 & A2). apply Keep. apply (clone_of_ok n m); try assumption.
    + apply keeps_refl.
    + eapply h_alive; eassumption.
    + apply term_kind. assumption.
  - destruct Al as (A1 & A2). apply Keep. apply duplicate_ok; try assumption. eapply h_alive; eassumption.
  - destruct Al as (A1 & A2). destruct (acquire_ok m [] held r G) as (m1 & E1 & G1 & K1 & _).
    { apply in_or_app. right. apply in_pointers. exists n. exact A2. }
    rewrite E1. exists m1, (r :: held). auto.
  - destruct (acquire_ok m [] held n G) as (m1 & E1 & G1 & K1 & _).
    { apply in_or_app. left. assumption. }
    rewrite E1. exists m1, (n :: held). auto.
  - destruct (drop_ok m [] (remove_one n held) n) as (m1 & E1 & G1 & S1).
    { eapply good_same; [|exact G]. apply remove_occ. assumption. }
    rewrite E1. exists m1, (remove_one n held). split; [reflexivity|]. split; [assumption|apply shrinks_keeps; assumption].
Qed.

Lemma start_good : good [] [] [].
Proof.
  constructor.
  - intros n. unfold cnt. destruct n; reflexivity.
  - intros [|n] s E; discriminate.
  - intros x [].
  - intros [|n] s E; discriminate.
  - exists (fun _ => 0). intros [|n] r (s & E & _); discriminate.
Qed.

Lemma reached_good : forall m held, reached choose m held -> good m [] held.
Proof.
  intros m held R. induction R as [|m held a m' held' R IH Al E]; [apply start_good|].
  destruct (act_ok m held a IH Al) as (m1 & held1 & E1 & G1 & _). rewrite E in E1. injection E1 as <- <-. assumption.
Qed.
End Choosing.
