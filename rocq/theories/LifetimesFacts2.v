(* Copying, making, changing and releasing. *)
From Coq Require Import String ZArith List Bool Arith Lia.
From Verif Require Import Base Lifetimes LifetimesSpec LifetimesFacts.
Import ListNotations.

Lemma points_set : forall m k s s' n r, nth_error m k = Some s -> points (set_nth k s' m) n r ->
  (n = k /\ s_live s' = true /\ In r (refs (s_body s'))) \/ (n <> k /\ points m n r).
Proof.
  intros m k s s' n r E (x & A & B & C). destruct (Nat.eq_dec k n) as [->|N].
  - rewrite (set_nth_same _ _ _ _ _ E) in A. injection A as <-. left. auto.
  - rewrite set_nth_other in A by assumption. right. split; [congruence|]. exists x. auto.
Qed.

Lemma cnt_set_same : forall m n s s', nth_error m n = Some s -> cnt (set_nth n s' m) n = if s_live s' then s_count s' else 0.
Proof. intros. unfold cnt. erewrite set_nth_same by eassumption. reflexivity. Qed.

Lemma cnt_set_other : forall m n k s', n <> k -> cnt (set_nth n s' m) k = cnt m k.
Proof. intros. unfold cnt. rewrite set_nth_other by assumption. reflexivity. Qed.

Lemma acquire_ok : forall m X H n, good m X H -> In n (H ++ pointers m) ->
  exists m', acquire m n = Ok m' /\ good m' X (n :: H) /\ keeps m m' /\ pointers m' = pointers m
  /\ (forall k s, nth_error m' k = Some s -> exists s0, nth_error m k = Some s0 /\ s_body s = s_body s0
       /\ s_live s = s_live s0 /\ s_buffer s = s_buffer s0)
  /\ length m' = length m.
Proof.
  intros m X H n G I.
  destruct (look_ok m X H n G) as (s & L & E & Lv); [apply in_or_app; right; assumption|].
  set (s' := Slot (S (s_count s)) true (s_buffer s) (s_body s)).
  exists (set_nth n s' m). split; [unfold acquire; rewrite L; reflexivity|].
  assert (K : keeps m (set_nth n s' m)) by (eapply keeps_set; [eassumption|apply fixed_refl]).
  assert (P : pointers (set_nth n s' m) = pointers m).
  { clear -E Lv. unfold pointers. revert n E. induction m as [|x m IH]; intros [|n] E; simpl in *; try discriminate.
    - injection E as ->. rewrite Lv. reflexivity.
    - f_equal. apply IH. assumption. }
  assert (B : forall k x, nth_error (set_nth n s' m) k = Some x -> exists x0, nth_error m k = Some x0
     /\ s_body x = s_body x0 /\ s_live x = s_live x0 /\ s_buffer x = s_buffer x0).
  { intros k x A. destruct (Nat.eq_dec n k) as [->|N].
    - rewrite (set_nth_same _ _ _ _ _ E) in A. injection A as <-. exists s. auto.
    - rewrite set_nth_other in A by assumption. exists x. auto. }
  split; [|split; [assumption|split; [assumption|split; [assumption|apply set_nth_length]]]].
  destruct G as [A1 A2 A3 A4 [rank A5]]. constructor.
  - intros k. rewrite P, occ_cons. destruct (Nat.eq_dec n k) as [->|N].
    + rewrite (cnt_set_same _ _ _ _ E). simpl. specialize (A1 k). unfold cnt in A1. rewrite E, Lv in A1. lia.
    + rewrite cnt_set_other by assumption. rewrite A1. lia.
  - intros k x A Lx. destruct (Nat.eq_dec n k) as [->|N].
    + rewrite (set_nth_same _ _ _ _ _ E) in A. injection A as <-. simpl. lia.
    + rewrite set_nth_other in A by assumption. eauto.
  - intros x Ix. destruct (A3 x Ix) as (B1 & B2 & B3). rewrite P, occ_cons. destruct (Nat.eq_dec n x) as [->|N]; [|auto].
    exfalso. apply in_app_or in I. destruct I as [I|I]; apply occ_in in I; lia.
  - intros k x A Lx. destruct (B k x A) as (x0 & B1 & B2 & B3 & _). rewrite B2.
    eapply keeps_typed; [eassumption|]. eapply A4; [eassumption|congruence].
  - exists rank. intros k r Q. destruct (points_set _ _ _ _ _ _ E Q) as [(-> & _ & C)|[_ C]]; [|auto].
    apply A5. exists s. auto.
Qed.

Lemma acquire_all_ok : forall l m X H, good m X H -> (forall n, In n l -> In n (H ++ pointers m)) ->
  exists m', acquire_all m l = Ok m' /\ good m' X (l ++ H) /\ keeps m m' /\ pointers m' = pointers m
  /\ (forall k s, nth_error m' k = Some s -> exists s0, nth_error m k = Some s0 /\ s_body s = s_body s0
       /\ s_live s = s_live s0 /\ s_buffer s = s_buffer s0)
  /\ length m' = length m.
Proof.
  induction l as [|n l IH]; intros m X H G I.
  - exists m. split; [reflexivity|]. split; [assumption|]. split; [apply keeps_refl|]. split; [reflexivity|].
    split; [|reflexivity]. intros k s E. exists s. auto.
  - destruct (acquire_ok m X H n G (I n (or_introl eq_refl))) as (m1 & E1 & G1 & K1 & P1 & B1 & L1).
    destruct (IH m1 X (n :: H) G1) as (m2 & E2 & G2 & K2 & P2 & B2 & L2).
    { intros k Ik. rewrite P1. simpl. right. apply I. right. assumption. }
    exists m2. simpl. rewrite E1. simpl. split; [assumption|].
    split; [eapply good_same; [|exact G2]; intros k; rewrite !occ_app, !occ_cons, occ_app; lia|].
    split; [eapply keeps_trans; eassumption|]. split; [congruence|]. split; [|congruence].
    intros k s E. destruct (B2 k s E) as (s1 & F1 & F2 & F3 & F4). destruct (B1 k s1 F1) as (s0 & H1 & H2 & H3 & H4).
    exists s0. split; [assumption|]. repeat split; congruence.
Qed.

(* A new object takes over pointers that were held. *)
Lemma alloc_ok : forall m X H H' b, good m X H' -> (forall n, occ n H' = occ n (refs b) + occ n H) -> typed m b ->
  good (fst (alloc m b)) (length m :: X) H /\ keeps m (fst (alloc m b)).
Proof.
  intros m X H H' b G Sp T. unfold alloc. simpl fst. set (s' := Slot 1 true (has_buffer b) b).
  pose proof (keeps_app m s') as K.
  assert (Old : forall n, n < length m -> nth_error (m ++ [s']) n = nth_error m n)
    by (intros; apply nth_error_app1; assumption).
  assert (New : nth_error (m ++ [s']) (length m) = Some s')
    by (rewrite nth_error_app2, Nat.sub_diag by lia; reflexivity).
  assert (Cases : forall n s, nth_error (m ++ [s']) n = Some s -> (n = length m /\ s = s') \/ (n < length m /\ nth_error m n = Some s)).
  { intros n s E. destruct (Nat.lt_ge_cases n (length m)) as [L|L]; [right; rewrite Old in E by assumption; auto|].
    left. assert (n < length (m ++ [s'])) by (apply nth_error_Some; congruence).
    rewrite app_length in *. simpl in *. assert (n = length m) as -> by lia. split; [reflexivity|congruence]. }
  assert (In' : forall n, In n (X ++ H' ++ pointers m) -> n < length m).
  { intros n I. destruct (look_ok m X H' n G I) as (s & _ & E & _). apply nth_error_Some. congruence. }
  assert (Fresh : occ (length m) X = 0 /\ occ (length m) H' = 0 /\ occ (length m) (pointers m) = 0).
  { repeat split; apply occ_not; intros I; assert (length m < length m); try lia; apply In';
      rewrite ?in_app_iff; auto. }
  destruct Fresh as (F1 & F2 & F3).
  assert (P : forall n, occ n (pointers (m ++ [s'])) = occ n (pointers m) + occ n (refs b)).
  { intros n. rewrite pointers_app, occ_app, pointers_one. reflexivity. }
  split; [|assumption]. pose proof (Sp (length m)) as SL. destruct G as [A1 A2 A3 A4 [rank A5]]. constructor.
  - intros n. rewrite P, occ_cons. unfold cnt. destruct (Nat.eq_dec (length m) n) as [<-|N].
    + rewrite New. simpl. lia.
    + specialize (A1 n). specialize (Sp n). unfold cnt in A1. destruct (Nat.lt_ge_cases n (length m)) as [L|L].
      * rewrite Old by assumption. lia.
      * assert (nth_error (m ++ [s']) n = None) as -> by (apply nth_error_None; rewrite app_length; simpl; lia).
        assert (nth_error m n = None) as E by (apply nth_error_None; lia). rewrite E in A1. lia.
  - intros n s E Lv. destruct (Cases n s E) as [[-> ->]|[L E']]; [simpl; lia|eauto].
  - intros x [<-|I].
    + rewrite P, occ_cons. destruct (Nat.eq_dec (length m) (length m)); [|congruence]. lia.
    + destruct (A3 x I) as (B1 & B2 & B3). rewrite P, occ_cons.
      assert (x < length m) by (apply In'; apply in_or_app; left; assumption).
      specialize (Sp x). destruct (Nat.eq_dec (length m) x); [lia|]. lia.
  - intros n s E Lv. eapply keeps_typed; [exact K|]. destruct (Cases n s E) as [[-> ->]|[L E']]; [assumption|eauto].
  - exists (fun n => if n =? length m then S (list_sum (map rank (refs b))) else rank n).
    intros n r (s & E & Lv & I). destruct (Cases n s E) as [[-> ->]|[L E']].
    + rewrite Nat.eqb_refl. assert (r < length m).
      { apply In'. apply in_or_app. right. apply in_or_app. left. apply occ_in. rewrite Sp. apply occ_in in I. simpl in I. lia. }
      destruct (r =? length m) eqn:Q; [apply Nat.eqb_eq in Q; lia|].
      simpl in I. clear -I. induction (refs b) as [|y l IH]; [contradiction|]. simpl. destruct I as [->|I]; [lia|].
      specialize (IH I). lia.
    + assert (Q : points m n r) by (exists s; auto).
      assert (r < length m). { apply In'. rewrite !in_app_iff. right; right. apply in_pointers. eauto. }
      destruct (n =? length m) eqn:Q1; [apply Nat.eqb_eq in Q1; lia|].
      destruct (r =? length m) eqn:Q2; [apply Nat.eqb_eq in Q2; lia|]. apply A5. assumption.
Qed.

Lemma alloc_held : forall m X H H' b, good m X H' -> (forall n, occ n H' = occ n (refs b) + occ n H) -> typed m b ->
  good (fst (alloc m b)) X (length m :: H) /\ keeps m (fst (alloc m b)).
Proof. intros m X H H' b G Sp T. destruct (alloc_ok m X H H' b G Sp T). split; [apply good_weaken|]; assumption. Qed.

(* Changing the members of an object: pointers move between the members and
   the hands of the program. *)
Lemma write_ok : forall m X H H' n s b', good m X H -> nth_error m n = Some s -> s_live s = true ->
  fixed (s_body s) b' -> (forall k, occ k H + occ k (refs (s_body s)) = occ k H' + occ k (refs b')) ->
  typed m b' ->
  (forall r, In r (refs b') -> In r (refs (s_body s)) \/ leaf m r \/ (In n X /\ r <> n)) ->
  exists m', write m n b' = Ok m' /\ good m' X H' /\ keeps m m' /\ length m' = length m
  /\ (forall k, k <> n -> nth_error m' k = nth_error m k)
  /\ nth_error m' n = Some (Slot (s_count s) true (s_buffer s) b').
Proof.
  intros m X H H' n s b' G E Lv F Sp T R. set (s' := Slot (s_count s) true (s_buffer s) b').
  exists (set_nth n s' m). split; [unfold write, look; rewrite E, Lv; reflexivity|].
  assert (K : keeps m (set_nth n s' m)) by (eapply keeps_set; eassumption).
  assert (P : forall k, occ k (pointers (set_nth n s' m)) + occ k (refs (s_body s)) = occ k (pointers m) + occ k (refs b')).
  { intros k. pose proof (pointers_set k n s s' m E) as Q. unfold lrefs in Q. rewrite Lv in Q. exact Q. }
  split; [|split; [assumption|split; [apply set_nth_length|split]]].
  - destruct G as [A1 A2 A3 A4 [rank A5]]. constructor.
    + intros k. specialize (P k). specialize (Sp k). specialize (A1 k). destruct (Nat.eq_dec n k) as [->|N].
      * rewrite (cnt_set_same _ _ _ _ E). simpl. unfold cnt in A1. rewrite E, Lv in A1. lia.
      * rewrite cnt_set_other by assumption. lia.
    + intros k x A Lx. destruct (Nat.eq_dec n k) as [->|N].
      * rewrite (set_nth_same _ _ _ _ _ E) in A. injection A as <-. simpl. eauto.
      * rewrite set_nth_other in A by assumption. eauto.
    + intros x I. destruct (A3 x I) as (B1 & B2 & B3). specialize (P x). specialize (Sp x).
      assert (occ x (refs (s_body s)) = 0).
      { destruct (occ x (refs (s_body s))) eqn:Q; [reflexivity|]. exfalso.
        assert (In x (pointers m)) by (apply in_pointers; exists n, s; repeat split; auto; apply occ_in; lia).
        apply occ_in in H0. lia. }
      lia.
    + intros k x A Lx. eapply keeps_typed; [exact K|]. destruct (Nat.eq_dec n k) as [->|N].
      * rewrite (set_nth_same _ _ _ _ _ E) in A. injection A as <-. assumption.
      * rewrite set_nth_other in A by assumption. eauto.
    + (* leaves go down to 0, n goes up if no pointer of an object leads to it *)
      set (lf := fun x => match nth_error m x with
                          | Some y => match kind_of (s_body y) with KInt | KVector => true | _ => false end
                          | None => false end).
      assert (Lf : forall x, leaf m x -> lf x = true).
      { intros x [(y & Q & W)|(y & Q & W)]; unfold lf; rewrite Q, W; reflexivity. }
      assert (Nl : forall k r, points m k r -> lf k = false).
      { intros k r (y & Q & _ & W). unfold lf. rewrite Q. destruct (s_body y); simpl in *; try reflexivity; contradiction. }
      assert (Nl' : refs b' <> [] -> lf n = false).
      { intros Q. unfold lf. rewrite E. apply fixed_kind in F. destruct b'; simpl in *; rewrite <- F; try reflexivity; congruence. }
      destruct (in_dec Nat.eq_dec n X) as [Ix|Ix].
      * exists (fun x => if lf x then 0 else if x =? n then S (S (rank n + list_sum (map rank (refs b')))) else S (rank x)).
        assert (Big : forall r, In r (refs b') -> rank r <= list_sum (map rank (refs b'))).
        { intros r I. clear -I. induction (refs b') as [|y l IH]; [contradiction|]. simpl.
          destruct I as [->|I]; [lia|]. specialize (IH I). lia. }
        intros k r Q. destruct (points_set _ _ _ _ _ _ E Q) as [(-> & _ & C)|[N C]].
        -- simpl in C. rewrite Nl' by (intros Z; rewrite Z in C; contradiction). rewrite Nat.eqb_refl.
           destruct (lf r); [lia|]. assert (r <> n).
           { destruct (R r C) as [Q1|[Q1|[_ Q1]]]; [|apply Lf in Q1|assumption].
             - intros ->. destruct (A3 n Ix) as (_ & _ & B3). assert (In n (pointers m)) by (apply in_pointers; exists n, s; auto).
               apply occ_in in H0. lia.
             - intros ->. rewrite Nl' in Q1 by (intros Z; rewrite Z in C; contradiction). discriminate. }
           destruct (r =? n) eqn:Q1; [apply Nat.eqb_eq in Q1; congruence|]. specialize (Big r C). lia.
        -- rewrite (Nl _ _ C). destruct (lf r); [destruct (k =? n); lia|].
           assert (r <> n). { intros ->. destruct (A3 n Ix) as (_ & _ & B3).
             assert (In n (pointers m)) by (apply in_pointers; eauto). apply occ_in in H0. lia. }
           destruct (r =? n) eqn:Q1; [apply Nat.eqb_eq in Q1; congruence|].
           destruct (k =? n) eqn:Q2; [apply Nat.eqb_eq in Q2; congruence|]. specialize (A5 k r C). lia.
      * exists (fun x => if lf x then 0 else S (rank x)).
        intros k r Q. destruct (points_set _ _ _ _ _ _ E Q) as [(-> & _ & C)|[N C]].
        -- simpl in C. rewrite Nl' by (intros Z; rewrite Z in C; contradiction).
           destruct (R r C) as [Q1|[Q1|[Q1 _]]]; [|rewrite (Lf r Q1); lia|contradiction].
           destruct (lf r); [lia|]. assert (points m n r) by (exists s; auto). specialize (A5 n r H0). lia.
        -- rewrite (Nl _ _ C). destruct (lf r); [lia|]. specialize (A5 k r C). lia.
  - intros k N. apply set_nth_other. congruence.
  - eapply set_nth_same. eassumption.
Qed.

(* ---- releasing ---- *)
Definition alives (m : mem) : nat := length (filter s_live m).

Lemma alives_set : forall m n s s', nth_error m n = Some s ->
  alives (set_nth n s' m) + (if s_live s then 1 else 0) = alives m + (if s_live s' then 1 else 0).
Proof.
  unfold alives. induction m as [|x m IH]; intros [|n] s s' E; simpl in *; try discriminate.
  - injection E as ->. destruct (s_live s), (s_live s'); simpl; lia.
  - specialize (IH n s s' E). destruct (s_live x); simpl; lia.
Qed.

Lemma alives_len : forall m, alives m <= length m.
Proof. induction m as [|s m IH]; [apply le_n|]. unfold alives in *. simpl. destruct (s_live s); simpl; lia. Qed.

(* What a release leaves alone. *)
Record shrinks (m m' : mem) : Prop := {
  sh_len : length m' = length m;
  sh_slot : forall n s, nth_error m n = Some s -> exists s', nth_error m' n = Some s' /\ s_body s' = s_body s
     /\ (s_live s' = true -> s_live s = true /\ s_buffer s' = s_buffer s)
     /\ (s_live s = false -> s' = s)
     /\ (s_live s = true -> s_live s' = false -> s_buffer s' = if deleted_as_made (s_body s) then false else s_buffer s)
}.

Lemma shrinks_refl : forall m, shrinks m m.
Proof. intros m. split; [reflexivity|]. intros n s E. exists s. repeat split; auto. congruence. Qed.

Lemma shrinks_trans : forall a b c, shrinks a b -> shrinks b c -> shrinks a c.
Proof.
  intros a b c [A1 A2] [B1 B2]. split; [congruence|]. intros n s E.
  destruct (A2 n s E) as (s1 & E1 & S1 & L1 & D1 & F1). destruct (B2 n s1 E1) as (s2 & E2 & S2 & L2 & D2 & F2).
  exists s2. split; [assumption|]. split; [congruence|]. split; [|split].
  - intros Q. destruct (L2 Q) as [Q1 Q2]. destruct (L1 Q1). split; congruence.
  - intros Q. rewrite <- (D1 Q). apply D2. rewrite (D1 Q). assumption.
  - intros Q Q'. destruct (s_live s1) eqn:W.
    + destruct (L1 eq_refl) as [_ W1]. rewrite <- S1, <- W1. apply F2; auto.
    + rewrite (D2 eq_refl). apply F1; auto.
Qed.

Lemma shrinks_keeps : forall m m', shrinks m m' -> keeps m m'.
Proof.
  intros m m' [A B]. split; [lia|]. intros n s E. destruct (B n s E) as (s' & E' & S & _). exists s'.
  split; [assumption|]. rewrite S. apply fixed_refl.
Qed.

Lemma shrinks_points : forall m m' n r, shrinks m m' -> points m' n r -> points m n r.
Proof.
  intros m m' n r [A B] (s' & E' & L & I). destruct (nth_error m n) as [s|] eqn:E.
  - destruct (B n s E) as (s1 & E1 & S & L1 & _). rewrite E' in E1. injection E1 as <-. exists s.
    destruct (L1 L) as [Q1 _]. rewrite S in I. auto.
  - exfalso. apply nth_error_None in E. assert (n < length m') by (apply nth_error_Some; congruence). lia.
Qed.

Lemma release_ok : forall fuel m X H n, good m X (n :: H) -> alives m < fuel ->
  exists m', release false fuel m n = Ok m' /\ good m' X H /\ shrinks m m' /\ alives m' <= alives m.
Proof.
  induction fuel as [|fuel IH]; intros m X H n G Fu; [lia|].
  destruct (look_ok m X (n :: H) n G) as (s & L & E & Lv).
  { apply in_or_app. right. apply in_or_app. left. left. reflexivity. }
  simpl. rewrite L. simpl.
  pose proof (g_pos _ _ _ G n s E Lv) as Pos.
  destruct (s_count s) as [|[|c]] eqn:C; [lia| |].
  - (* the last pointer *)
    set (m1 := set_nth n (dead s) m).
    assert (A1 : S (alives m1) = alives m).
    { pose proof (alives_set m n s (dead s) E) as Q. rewrite Lv in Q. simpl in Q. fold m1 in Q. lia. }
    assert (S1 : shrinks m m1).
    { split; [apply set_nth_length|]. intros k x Ek. destruct (Nat.eq_dec n k) as [->|N].
      - rewrite E in Ek. injection Ek as <-. exists (dead s). split; [eapply set_nth_same; eassumption|].
        split; [reflexivity|]. split; [discriminate|]. split; [congruence|]. reflexivity.
      - exists x. split; [unfold m1; rewrite set_nth_other by assumption; assumption|]. repeat split; auto. congruence. }
    assert (G1 : good m1 X (refs (s_body s) ++ H)).
    { pose proof (g_cnt _ _ _ G n) as Cn. unfold cnt in Cn. rewrite E, Lv, C, occ_cons in Cn.
      destruct (Nat.eq_dec n n); [|congruence].
      assert (P : forall k, occ k (pointers m1) + occ k (refs (s_body s)) = occ k (pointers m)).
      { intros k. pose proof (pointers_set k n s (dead s) m E) as Q. unfold lrefs in Q. rewrite Lv in Q. simpl in Q.
        fold m1 in Q. lia. }
      constructor.
      - intros k. rewrite occ_app. specialize (P k). destruct (Nat.eq_dec n k) as [<-|N].
        + unfold m1. rewrite (cnt_set_same _ _ _ _ E). simpl. fold m1. lia.
        + unfold m1 at 1. rewrite cnt_set_other by assumption. rewrite (g_cnt _ _ _ G k), occ_cons.
          destruct (Nat.eq_dec n k); [congruence|]. lia.
      - intros k x A Lx. unfold m1 in A. destruct (Nat.eq_dec n k) as [->|N].
        + rewrite (set_nth_same _ _ _ _ _ E) in A. injection A as <-. discriminate.
        + rewrite set_nth_other in A by assumption. eapply g_pos; eassumption.
      - intros x I. destruct (g_x _ _ _ G x I) as (B1 & B2 & B3). rewrite occ_cons in B2. specialize (P x).
        rewrite occ_app. lia.
      - intros k x A Lx. eapply keeps_typed; [apply shrinks_keeps; exact S1|]. unfold m1 in A.
        destruct (Nat.eq_dec n k) as [->|N].
        + rewrite (set_nth_same _ _ _ _ _ E) in A. injection A as <-. discriminate.
        + rewrite set_nth_other in A by assumption. eapply g_ty; eassumption.
      - destruct (g_rk _ _ _ G) as [rank R]. exists rank. intros k r Q. apply R. eapply shrinks_points; eassumption. }
    assert (W : forall l m1 H1, good m1 X (l ++ H1) -> alives m1 < fuel ->
       exists m', each (release false fuel) m1 l = Ok m' /\ good m' X H1 /\ shrinks m1 m' /\ alives m' <= alives m1).
    { clear -IH. induction l as [|x l IHl]; intros m1 H1 G1 Fu.
      - exists m1. simpl. split; [reflexivity|]. split; [assumption|]. split; [apply shrinks_refl|lia].
      - destruct (IH m1 X (l ++ H1) x) as (m2 & E2 & G2 & S2 & A2); [assumption|assumption|].
        destruct (IHl m2 H1 G2) as (m3 & E3 & G3 & S3 & A3); [lia|].
        exists m3. simpl. rewrite E2. simpl. split; [assumption|]. split; [assumption|].
        split; [eapply shrinks_trans; eassumption|lia]. }
    destruct (W (rev (refs (s_body s))) m1 H) as (m' & E' & G' & S' & A').
    { eapply good_same; [|exact G1]. intros k. rewrite !occ_app, occ_rev. reflexivity. }
    { lia. }
    exists m'. simpl. fold m1. split; [exact E'|]. split; [assumption|]. split; [eapply shrinks_trans; eassumption|lia].
  - (* not the last one *)
    set (s' := Slot (S c) true (s_buffer s) (s_body s)). exists (set_nth n s' m). split; [reflexivity|].
    assert (S1 : shrinks m (set_nth n s' m)).
    { split; [apply set_nth_length|]. intros k x Ek. destruct (Nat.eq_dec n k) as [->|N].
      - rewrite E in Ek. injection Ek as <-. exists s'. split; [eapply set_nth_same; eassumption|].
        split; [reflexivity|]. split; [auto|]. split; [congruence|]. simpl. congruence.
      - exists x. split; [rewrite set_nth_other by assumption; assumption|]. split; [reflexivity|]. split; [auto|]. split; [auto|congruence]. }
    assert (P : forall k, occ k (pointers (set_nth n s' m)) = occ k (pointers m)).
    { intros k. pose proof (pointers_set k n s s' m E) as Q. unfold lrefs in Q. rewrite Lv in Q. simpl in Q. lia. }
    split; [|split; [assumption|]].
    + constructor.
      * intros k. rewrite P. pose proof (g_cnt _ _ _ G k) as Q. rewrite occ_cons in Q. destruct (Nat.eq_dec n k) as [<-|N].
        -- rewrite (cnt_set_same _ _ _ _ E). simpl. unfold cnt in Q. rewrite E, Lv in Q. lia.
        -- rewrite cnt_set_other by assumption. lia.
      * intros k x A Lx. destruct (Nat.eq_dec n k) as [->|N].
        -- rewrite (set_nth_same _ _ _ _ _ E) in A. injection A as <-. simpl. lia.
        -- rewrite set_nth_other in A by assumption. eapply g_pos; eassumption.
      * intros x I. destruct (g_x _ _ _ G x I) as (B1 & B2 & B3). rewrite occ_cons in B2. rewrite P. lia.
      * intros k x A Lx. eapply keeps_typed; [apply shrinks_keeps; exact S1|]. destruct (Nat.eq_dec n k) as [->|N].
        -- rewrite (set_nth_same _ _ _ _ _ E) in A. injection A as <-. exact (g_ty _ _ _ G _ _ E Lv).
        -- rewrite set_nth_other in A by assumption. eapply g_ty; eassumption.
      * destruct (g_rk _ _ _ G) as [rank R]. exists rank. intros k r Q. apply R. eapply shrinks_points; eassumption.
    + pose proof (alives_set m n s s' E) as Q. rewrite Lv in Q. simpl in Q. lia.
Qed.

Lemma drop_ok : forall m X H n, good m X (n :: H) ->
  exists m', drop false m n = Ok m' /\ good m' X H /\ shrinks m m'.
Proof.
  intros m X H n G. destruct (release_ok (S (length m)) m X H n G) as (m' & E & G' & S & _).
  - pose proof (alives_len m). lia.
  - exists m'. auto.
Qed.

Lemma drop_all_ok : forall l m X H, good m X (l ++ H) ->
  exists m', drop_all false m l = Ok m' /\ good m' X H /\ shrinks m m'.
Proof.
  induction l as [|n l IH]; intros m X H G.
  - exists m. split; [reflexivity|]. split; [assumption|apply shrinks_refl].
  - destruct (drop_ok m X (l ++ H) n G) as (m1 & E1 & G1 & S1).
    destruct (IH m1 X H G1) as (m2 & E2 & G2 & S2). exists m2. unfold drop_all in *. simpl. rewrite E1. simpl.
    split; [assumption|]. split; [assumption|eapply shrinks_trans; eassumption].
Qed.
