(* The theorems on the life of terms. *)
From Coq Require Import String ZArith List Bool Arith Lia.
From Verif Require Import Base Lifetimes LifetimesSpec LifetimesFacts LifetimesFacts2 LifetimesFacts3 LifetimesFacts4 LifetimesFacts5.
Import ListNotations.

Lemma alive_reachable : forall m H, good m [] H -> forall n, alive m n <-> reachable m H n.
Proof.
  intros m H G n. split.
  - destruct (measure m [] H G) as (mu & M1 & M2).
    assert (W : forall d n, length m - mu n <= d -> alive m n -> reachable m H n).
    2: { apply (W (length m - mu n) n). lia. }
    clear n. induction d as [d IH] using lt_wf_ind. intros n D A.
    apply (good_alive m [] H n G) in A. simpl in A. apply in_app_or in A. destruct A as [A|A]; [apply reach_held; assumption|].
    apply in_pointers in A. destruct A as (p & s & E & L & I). assert (P : points m p n) by (exists s; auto).
    apply (reach_next m H p n); [|assumption]. pose proof (M1 p n P). pose proof (M2 p).
    apply (IH (length m - mu p)); [lia|lia|]. exists s. auto.
  - intros R. induction R as [n I|n r R IH P]; [eapply h_alive; eassumption|eapply pointed_alive; eassumption].
Qed.

Lemma count_uses : forall m H n s, good m [] H -> nth_error m n = Some s -> s_live s = true -> s_count s = uses m H n.
Proof.
  intros m H n s G E L. pose proof (g_cnt _ _ _ G n) as C. unfold cnt in C. rewrite E, L in C. rewrite C.
  unfold uses. fold (occ n (H ++ pointers m)). rewrite occ_app. reflexivity.
Qed.

Lemma none_living : forall m, good m [] [] -> living m = 0.
Proof.
  intros m G. unfold living. destruct (filter s_live m) as [|s l] eqn:F; [reflexivity|]. exfalso.
  assert (I : In s (filter s_live m)) by (rewrite F; left; reflexivity). apply filter_In in I. destruct I as [I L].
  apply In_nth_error in I. destruct I as [n E]. assert (A : alive m n) by (exists s; auto).
  apply (alive_reachable m [] G) in A. clear -A. induction A as [n []|n r R IH P]; assumption.
Qed.

Lemma sound_all : forall m, (forall n s, nth_error m n = Some s -> sound_slot s) -> buffers m = long_names m.
Proof.
  intros m. unfold buffers, long_names. induction m as [|s m IH]; intros S; [reflexivity|]. simpl.
  pose proof (S 0 s eq_refl) as Q. unfold sound_slot, has_buffer in Q. rewrite <- Q.
  assert (Q' : length (filter s_buffer m) = length (filter (fun s => match s_body s with
                           | BTerm (CVariable name) _ _ _ _ _ _ _ => 15 <? String.length name
                           | _ => false end) m)) by (apply IH; intros n x E; exact (S (Datatypes.S n) x E)).
  destruct (s_buffer s); simpl; congruence.
Qed.

Section Choosing.
Variable choose : mem -> list nat -> list nat.
Hypothesis proper : proper_choice choose.

Theorem never_undefined : forall m held a, reached choose m held -> allowed m held a ->
  exists m' held', act false choose m held a = Ok (m', held').
Proof.
  intros m held a R Al. destruct (act_ok choose proper m held a (reached_good choose proper m held R) Al) as (m' & held' & E & _).
  eauto.
Qed.

Theorem lives_as_reached : forall m held n, reached choose m held -> (alive m n <-> reachable m held n).
Proof. intros m held n R. apply alive_reachable. apply (reached_good choose proper). assumption. Qed.

Theorem counts_uses : forall m held n s, reached choose m held -> nth_error m n = Some s -> s_live s = true ->
  s_count s = uses m held n.
Proof. intros m held n s R E L. apply count_uses; try assumption. apply (reached_good choose proper). assumption. Qed.

Theorem released : forall m held n m' held' k, reached choose m held -> In n held ->
  act false choose m held (Drop n) = Ok (m', held') -> (alive m' k <-> reachable m (remove_one n held) k).
Proof.
  intros m held n m' held' k R I E. pose proof (reached_good choose proper m held R) as G.
  destruct (drop_ok m [] (remove_one n held) n) as (m1 & E1 & G1 & S1).
  { eapply good_same; [|exact G]. apply remove_occ. assumption. }
  unfold act in E. rewrite E1 in E. simpl in E. injection E as <- <-.
  rewrite (alive_reachable m1 _ G1 k). split; intros Q.
  - induction Q as [x Ix|x r Q IH P]; [apply reach_held; assumption|]. eapply reach_next; [exact IH|]. eapply shrinks_points; eassumption.
  - induction Q as [x Ix|x r Q IH P]; [apply reach_held; assumption|]. eapply reach_next; [exact IH|].
    apply (alive_reachable m1 _ G1 x) in IH. destruct IH as (s' & E' & L'). destruct P as (s & Es & Ls & Is).
    destruct (sh_slot _ _ S1 x s Es) as (s1 & E2 & B2 & _). rewrite E' in E2. injection E2 as <-. exists s'. rewrite B2. auto.
Qed.

Theorem all_back : forall m held, reached choose m held -> exists m', drop_all false m held = Ok m' /\ living m' = 0.
Proof.
  intros m held R. pose proof (reached_good choose proper m held R) as G.
  destruct (drop_all_ok held m [] []) as (m' & E & G' & _); [rewrite app_nil_r; assumption|].
  exists m'. split; [assumption|]. apply none_living. assumption.
Qed.

Theorem nothing_held : forall m held, reached choose m held -> held = [] -> living m = 0.
Proof. intros m held R ->. apply none_living. apply (reached_good choose proper). assumption. Qed.

Lemma reached_sound : forall m held, reached choose m held -> forall n s, nth_error m n = Some s -> sound_slot s.
Proof.
  intros m held R. induction R as [|m held a m' held' R IH Al E].
  - intros [|n] s E; discriminate.
  - intros n s En. destruct (act_agrees choose m held a _ E) as [T _]. simpl fst in T.
    destruct (nth_error m n) as [s0|] eqn:E0.
    + destruct (l_old _ _ T n s0 E0) as (s1 & E1 & _ & _ & _ & S1). rewrite En in E1. injection E1 as <-. eauto.
    + apply nth_error_None in E0. eapply l_new; eassumption.
Qed.

Theorem buffers_kept : forall m held, reached choose m held -> buffers m = long_names m.
Proof. intros m held R. apply sound_all. eapply reached_sound. eassumption. Qed.

Theorem by_the_letter : forall m held a m' held', reached choose m held -> allowed m held a ->
  act false choose m held a = Ok (m', held') ->
  ((exists n, derived m' n /\ ended m m' n) -> act true choose m held a = UB)
  /\ (~ (exists n, derived m' n /\ ended m m' n) -> act true choose m held a = Ok (m', held')).
Proof.
  intros m held a m' held' R Al E. destruct (act_agrees choose m held a _ E) as [_ [[Q N]|[Q N]]]; simpl fst in N; split; intros W.
  - destruct (N W).
  - congruence.
  - assumption.
  - destruct (W N).
Qed.

(* Nothing in a term is ever changed. *)
Theorem terms_stay : forall m held a m' held' n s s', reached choose m held -> allowed m held a ->
  act false choose m held a = Ok (m', held') -> nth_error m n = Some s -> nth_error m' n = Some s' ->
  (is_term m n \/ is_terms m n) -> s_body s' = s_body s.
Proof.
  intros m held a m' held' n s s' R Al E En En' K.
  destruct (act_ok choose proper m held a (reached_good choose proper m held R) Al) as (m1 & h1 & E1 & _ & K1).
  rewrite E in E1. injection E1 as <- <-. destruct (k_slot _ _ K1 n s En) as (s1 & E2 & _ & _ & F). rewrite En' in E2. injection E2 as <-.
  destruct K as [K|K].
  - apply term_kind in K. destruct K as (x & X1 & X2). rewrite En in X1. injection X1 as <-. destruct (s_body s); try discriminate. assumption.
  - apply terms_kind in K. destruct K as (x & X1 & X2). rewrite En in X1. injection X1 as <-. destruct (s_body s); try discriminate. assumption.
Qed.
End Choosing.

(* ---- connect, called by a program ---- *)
Section Connecting.
Variable m : mem.
Variable H : list nat.
Hypothesis G : good m [] H.
Variable fa : nat.

Fixpoint gets (fuel : nat) (x : nat) : bool :=
  (x =? fa) ||
  match fuel with
  | O => false
  | S fuel' => match nth_error m x with Some s => s_live s && existsb (gets fuel') (refs (s_body s)) | None => false end
  end.

Lemma gets_reach : forall fuel x, gets fuel x = true -> reachable m [x] fa.
Proof.
  induction fuel as [|fuel IH]; intros x Q; simpl in Q; apply orb_true_iff in Q; destruct Q as [Q|Q].
  - apply Nat.eqb_eq in Q. subst. apply reach_held. left. reflexivity.
  - discriminate.
  - apply Nat.eqb_eq in Q. subst. apply reach_held. left. reflexivity.
  - destruct (nth_error m x) as [s|] eqn:E; [|discriminate]. apply andb_true_iff in Q. destruct Q as [L Q].
    apply existsb_exists in Q. destruct Q as (y & I & Q). apply IH in Q.
    assert (P : points m x y) by (exists s; auto). clear -Q P.
    induction Q as [z [<-|[]]|z r Q IH P']; [eapply reach_next; [apply reach_held; left; reflexivity|assumption]|].
    eapply reach_next; eassumption.
Qed.

Lemma reach_gets : forall mu, (forall n r, points m n r -> mu r < mu n) -> forall fuel x, mu x <= fuel ->
  forall y, points m x y -> gets fuel y = true -> gets fuel x = true.
Proof.
  intros mu M. assert (Mono : forall fuel x, mu x <= fuel -> gets (S fuel) x = true -> gets fuel x = true).
  { induction fuel as [|fuel IH]; intros x Lx Q.
    - simpl in *. apply orb_true_iff in Q. destruct Q as [Q|Q]; [rewrite Q; reflexivity|].
      destruct (nth_error m x) as [s|] eqn:E; [|discriminate]. apply andb_true_iff in Q. destruct Q as [L Q].
      apply existsb_exists in Q. destruct Q as (y & I & Q). assert (P : points m x y) by (exists s; auto). specialize (M x y P). lia.
    - simpl in Q |- *. apply orb_true_iff in Q. destruct Q as [Q|Q]; [rewrite Q; reflexivity|].
      destruct (nth_error m x) as [s|] eqn:E; [|discriminate]. apply andb_true_iff in Q. destruct Q as [L Q].
      apply existsb_exists in Q. destruct Q as (y & I & Q). assert (P : points m x y) by (exists s; auto). specialize (M x y P).
      rewrite L. apply orb_true_iff. right. simpl. apply existsb_exists. exists y. split; [assumption|]. apply IH; [lia|exact Q]. }
  intros [|fuel] x Lx y P Q; [specialize (M x y P); lia|].
  pose proof (M x y P). apply Mono in Q; [|lia]. simpl. destruct P as (s & E & L & I). rewrite E, L. simpl.
  apply orb_true_iff. right. apply existsb_exists. exists y. auto.
Qed.

(* A rank that leaves room for son below the father. *)
Lemma new_rank : forall son, ~ reachable m [son] fa -> exists rank, ranked m rank /\ rank son < rank fa.
Proof.
  intros son NR. destruct (measure m [] H G) as (mu & M1 & M2). set (d := S (length m)).
  exists (fun x => mu x + if gets d x then d else 0). split.
  - intros x y P. pose proof (M1 x y P). pose proof (M2 x). destruct (gets d y) eqn:Gy.
    + rewrite (reach_gets mu M1 d x) with (y := y); try assumption; [lia|]. unfold d. lia.
    + destruct (gets d x); lia.
  - assert (gets d fa = true) as -> by (unfold d; simpl; rewrite Nat.eqb_refl; reflexivity).
    destruct (gets d son) eqn:Q; [destruct NR; eapply gets_reach; eassumption|]. pose proof (M2 son). unfold d. lia.
Qed.
End Connecting.

Lemma write_rank : forall m X H H' n s b', good m X H -> nth_error m n = Some s -> s_live s = true ->
  fixed (s_body s) b' -> (forall k, occ k H + occ k (refs (s_body s)) = occ k H' + occ k (refs b')) ->
  typed m b' -> (exists rank, ranked m rank /\ forall r, In r (refs b') -> rank r < rank n) ->
  exists m', write m n b' = Ok m' /\ good m' X H' /\ keeps m m'.
Proof.
  intros m X H H' n s b' Gd E Lv F Sp T (rank & R1 & R2). set (s' := Slot (s_count s) true (s_buffer s) b').
  exists (set_nth n s' m). split; [unfold write, look; rewrite E, Lv; reflexivity|].
  assert (K : keeps m (set_nth n s' m)) by (eapply keeps_set; eassumption).
  assert (P : forall k, occ k (pointers (set_nth n s' m)) + occ k (refs (s_body s)) = occ k (pointers m) + occ k (refs b')).
  { intros k. pose proof (pointers_set k n s s' m E) as Q. unfold lrefs in Q. rewrite Lv in Q. exact Q. }
  split; [|assumption]. destruct Gd as [A1 A2 A3 A4 _]. constructor.
  + intros k. specialize (P k). specialize (Sp k). specialize (A1 k). destruct (Nat.eq_dec n k) as [->|N].
    * rewrite (cnt_set_same _ _ _ _ E). simpl. unfold cnt in A1. rewrite E, Lv in A1. lia.
    * rewrite cnt_set_other by assumption. lia.
  + intros k x A Lx. destruct (Nat.eq_dec n k) as [->|N].
    * rewrite (set_nth_same _ _ _ _ _ E) in A. injection A as <-. simpl. eauto.
    * rewrite set_nth_other in A by assumption. eauto.
  + intros x I. destruct (A3 x I) as (B1 & B2 & B3). specialize (P x). specialize (Sp x).
    assert (occ x (refs (s_body s)) = 0).
    { destruct (occ x (refs (s_body s))) eqn:Q; [reflexivity|]. exfalso.
      assert (In x (pointers m)) by (apply in_pointers; exists n, s; repeat split; auto; apply occ_in; lia).
      apply occ_in in H0. lia. }
    lia.
  + intros k x A Lx. eapply keeps_typed; [exact K|]. destruct (Nat.eq_dec n k) as [->|N].
    * rewrite (set_nth_same _ _ _ _ _ E) in A. injection A as <-. assumption.
    * rewrite set_nth_other in A by assumption. eauto.
  + exists rank. intros k r Q. destruct (points_set _ _ _ _ _ _ E Q) as [(-> & _ & C)|[N C]]; [apply R2; exact C|apply R1; assumption].
Qed.

Lemma connect_public : forall m H fa son, good m [] H -> alive m fa -> is_kind KIndex m fa -> alive m son -> is_kind KIndex m son ->
  ~ reachable m [son] fa -> exists m', connect false m fa son = Ok m' /\ good m' [] H /\ keeps m m'.
Proof.
  intros m H fa son G Af Kf As Ks NR.
  destruct (index_body m fa Af Kf) as (s & x & i & su & k & B & E & L & Bs).
  unfold connect. rewrite B. simpl.
  pose proof (g_ty _ _ _ G fa s E L) as T. rewrite Bs in T. simpl in T. destruct T as (T1 & T2 & T3).
  destruct (write_ok m [] H (opt x ++ H) fa s (BIndex None i su false) G E L) as (m1 & W1 & G1 & K1 & L1 & O1 & N1).
  { rewrite Bs. split; [reflexivity|]. split; [apply incl_refl|exact I]. }
  { intros r. rewrite Bs. simpl refs. rewrite !occ_app. lia. }
  { simpl. split; [intros r []|]. split; assumption. }
  { intros r. rewrite Bs. simpl. rewrite !in_app_iff. auto. }
  rewrite W1. cbn [bind]. destruct (drop_all_ok (opt x) m1 [] H G1) as (m2 & D2 & G2 & S2). rewrite D2. cbn [bind].
  pose proof (shrinks_keeps _ _ S2) as K2. assert (K12 : keeps m m2) by (eapply keeps_trans; eassumption).
  destruct (stays_kind KIndex m [] H m2 [] H G G2 (fun _ q => q) K12 fa Af Kf) as [Af2 Kf2]; try discriminate.
  destruct (stays_kind KIndex m [] H m2 [] H G G2 (fun _ q => q) K12 son As Ks) as [As2 Ks2]; try discriminate.
  destruct (acquire_ok m2 [] H son G2) as (m3 & E3 & G3 & K3 & _ & B3 & _).
  { apply (good_alive m2 [] H son G2) in As2. exact As2. }
  rewrite E3. cbn [bind].
  assert (Af3 : alive m3 fa).
  { apply (stays_kind KIndex m2 [] H m3 [] (son :: H) G2 G3 (fun n q => or_intror q) K3 fa Af2 Kf2); discriminate. }
  pose proof (keeps_trans _ _ _ K12 K3) as K13. destruct Af3 as (s3 & E3f & L3f).
  assert (Bs3 : s_body s3 = BIndex None i su false).
  { destruct (B3 fa s3 E3f) as (s2 & Q1 & Q2 & Q3 & _).
    destruct (sh_slot _ _ S2 fa _ N1) as (z & Z1 & Z2 & _). rewrite Q1 in Z1. injection Z1 as <-. rewrite Q2, Z2. reflexivity. }
  assert (Back : forall a b, points m3 a b -> points m a b).
  { intros a b (z & Z1 & Z2 & Z3). destruct (B3 a z Z1) as (z2 & Q1 & Q2 & Q3 & _). rewrite Q2 in Z3. rewrite Q3 in Z2.
    assert (P2 : points m2 a b) by (exists z2; auto). apply (shrinks_points _ _ _ _ S2) in P2.
    destruct (Nat.eq_dec a fa) as [->|N].
    - destruct P2 as (y & Y1 & Y2 & Y3). rewrite N1 in Y1. injection Y1 as <-. simpl in Y3. exists s. split; [assumption|]. split; [assumption|].
      rewrite Bs. simpl. rewrite !in_app_iff in *. tauto.
    - destruct P2 as (y & Y1 & Y2 & Y3). rewrite O1 in Y1 by assumption. exists y. auto. }
  destruct (new_rank m H G fa son NR) as (rank & R1 & R2).
  destruct (write_rank m3 [] (son :: H) H fa s3 (BIndex None i (su ++ [son]) false) G3 E3f L3f) as (m4 & W4 & G4 & K4).
  + rewrite Bs3. split; [reflexivity|]. split; [apply incl_appl, incl_refl|exact I].
  + intros r. rewrite Bs3. simpl refs. rewrite !occ_app, !occ_cons, occ_nil. lia.
  + simpl. split; [intros r []|]. split; [eapply keeps_all; eassumption|]. intros r Q. apply in_app_or in Q. destruct Q as [Q|[<-|[]]].
    * eapply keeps_kind; [exact K13|]. auto.
    * eapply keeps_kind; [exact K13|assumption].
  + exists rank. split; [intros a b P; apply R1, Back; assumption|]. intros r. simpl. rewrite !in_app_iff. intros [Q|[Q|[<-|[]]]]; [| |assumption].
    * apply R1. exists s. split; [assumption|]. split; [assumption|]. rewrite Bs. simpl. rewrite !in_app_iff. auto.
    * apply R1. exists s. split; [assumption|]. split; [assumption|]. rewrite Bs. simpl. rewrite !in_app_iff. auto.
  + exists m4. split; [assumption|]. split; [assumption|]. eapply keeps_trans; eassumption.
Qed.

Theorem connected : forall choose m held fa son, proper_choice choose -> reached choose m held ->
  reachable m held fa -> reachable m held son -> is_list m fa -> is_list m son -> ~ reachable m [son] fa ->
  exists m', connect false m fa son = Ok m' /\ (forall n, alive m' n <-> reachable m' held n)
  /\ (exists m'', drop_all false m' held = Ok m'' /\ living m'' = 0)
  /\ (exists fuel m'', build false fuel m' fa = Ok m'').
Proof.
  intros choose m held fa son Pr R Rf Rs Lf Ls NR. pose proof (reached_good choose Pr m held R) as G.
  assert (Kk : forall n, is_list m n -> is_kind KIndex m n).
  { intros n (s & x & i & su & k & E & B). exists s. rewrite B. auto. }
  destruct (connect_public m held fa son G) as (m' & E & G' & K').
  - apply (alive_reachable m held G). assumption.
  - auto.
  - apply (alive_reachable m held G). assumption.
  - auto.
  - assumption.
  - exists m'. split; [assumption|]. split; [apply alive_reachable; assumption|].
    destruct (drop_all_ok held m' [] []) as (m2 & E2 & G2 & _); [rewrite app_nil_r; assumption|].
    split; [exists m2; split; [assumption|]; apply none_living; assumption|].
    assert (Af : alive m' fa /\ is_kind KIndex m' fa).
    { apply (stays_kind KIndex m [] held m' [] held G G' (fun _ q => q) K' fa); try discriminate; auto.
      apply (alive_reachable m held G). assumption. }
    destruct (build_one_ok m' [] held fa true G' (proj1 Af) (proj2 Af)) as (m3 & E3 & _).
    exists (S (length m')), m3. exact E3.
Qed.
