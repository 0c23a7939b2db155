(* What goes right in the symbol table where the general properties fail. *)
From Coq Require Import ZArith List Bool String Ascii Lia.
From Verif Require Import Base Hash Enums Term TermFacts Maps MapsFacts Interning InterningSpec
  InterningFacts InterningFacts2 InterningSpec2.
Import ListNotations.
Local Open Scope Z_scope.

(* ---- C30: addresses in one window ---- *)
Lemma window_apart base w a : (forall b, live w b -> base <= b < base + 4294967296) ->
  window base w a -> apart w a.
Proof.
  intros W (F & B) b L E. apply F. replace a with b; [assumption|]. specialize (W b L).
  pose proof (Z.div_mod a 4294967296 ltac:(lia)). pose proof (Z.div_mod b 4294967296 ltac:(lia)).
  assert (-4294967296 < a - b < 4294967296) by lia.
  assert (a - b = 4294967296 * (a / 4294967296 - b / 4294967296)) by lia.
  assert (a / 4294967296 - b / 4294967296 = 0) by lia. lia.
Qed.

Lemma remove_atom_live fuel : forall w k w', remove_atom fuel w k = Ok w' ->
  incl (map snd (held w')) (map snd (held w)) /\ handles w' = handles w.
Proof.
  assert (U : forall p (m : list (Z * Z)), incl (map snd (unset Z.eqb p m)) (map snd m)).
  { intros p m x Hx. apply in_map_iff in Hx. destruct Hx as (y & Ey & Hy). apply filter_In in Hy.
    apply in_map_iff. exists y. tauto. }
  induction fuel as [|fuel IH]; intros w k w' E; [discriminate|]. cbn [remove_atom] in E.
  destruct (lookup Z.eqb k (dict (tab w))) as [n|];
    [|apply Ok_inj in E; subst; split; [apply incl_refl|reflexivity]].
  cbn [objs] in E. destruct (lookup Z.eqb k (objs (tab w))) as [p|];
    [|apply Ok_inj in E; subst; split; [apply incl_refl|reflexivity]].
  destruct (p =? 0).
  { cbn [bind] in E. apply Ok_inj in E. subst. cbn. split; [apply incl_refl|reflexivity]. }
  cbn [with_tab held] in E. destruct (lookup Z.eqb p (held w)) as [a|]; [|discriminate].
  match type of E with context [Nat.eqb ?u 2] => destruct (Nat.eqb u 2) end.
  - match type of E with context [remove_atom fuel ?x ?y] =>
      destruct (remove_atom fuel x y) as [w2| | |] eqn:R; try discriminate;
      destruct (IH _ _ _ R) as (I2 & H2) end.
    cbn [bind] in E. apply Ok_inj in E. subst w'. cbn in *. split; [|assumption].
    eapply incl_tran; [apply U|assumption].
  - cbn [bind] in E. apply Ok_inj in E. subst w'. cbn. split; [apply U|reflexivity].
Qed.

Lemma set_live p a (m : list (Z * Z)) x : In x (map snd (set Z.eqb p a m)) -> x = a \/ In x (map snd m).
Proof.
  intro L. apply in_map_iff in L. destruct L as (y & Ey & Hy). unfold set in Hy.
  destruct Hy as [Hy|Hy]; [left; subst; reflexivity|]. apply filter_In in Hy.
  right. apply in_map_iff. exists y. tauto.
Qed.

Lemma deref_live w p a : deref w p = Ok a -> In a (map snd (held w)).
Proof.
  unfold deref. destruct (p =? 0); [discriminate|].
  destruct (lookup Z.eqb p (held w)) as [b|] eqn:E; [|discriminate]. intro H. apply Ok_inj in H. subst.
  apply (lookup_in _ zok) in E. apply (in_map snd) in E. assumption.
Qed.

(* Nothing but a placed atom comes to life. *)
Lemma act_live w x w' b : act_on w x = Ok w' -> live w' b ->
  live w b \/ exists n, x = Create n b \/ x = ParseOp n b.
Proof.
  intros E L. destruct x as [n a|i|i|i j|n a]; cbn [act_on] in E.
  - unfold create in E. destruct (check_by_name (tab w) n).
    + destruct (get_by_name (tab w) n) as [k t1]. destruct (get_object t1 k) as [p t2].
      destruct (deref (with_tab w t2) p) as [a'| | |] eqn:D; try discriminate. cbn [bind] in E.
      apply Ok_inj in E. subst w'. left. destruct L as [L|[L|L]]; cbn in *.
      * left; assumption.
      * subst b. left. exact (deref_live _ _ _ D).
      * right; assumption.
    + apply Ok_inj in E. subst w'. destruct L as [L|[L|L]].
      * cbn [add_handle register held] in L. apply set_live in L. destruct L as [->|L]; [right; eauto|left; left; assumption].
      * cbn in L. subst b. right. eauto.
      * left. right. assumption.
  - destruct (nth_error (handles w) i) as [h|] eqn:N; [|discriminate]. apply Ok_inj in E. subst w'. left.
    destruct L as [L|[L|L]]; [left; assumption|right|right; assumption].
    subst b. apply in_map. eapply nth_error_In; eauto.
  - destruct (nth_error (handles w) i) as [h|] eqn:N; [|discriminate]. left.
    destruct (destroy w (hat h)) as [w1| | |] eqn:D; try discriminate. cbn [bind] in E. apply Ok_inj in E. subst w'.
    assert (X : incl (map snd (held w1)) (map snd (held w)) /\ handles w1 = handles w).
    { unfold destroy in D. destruct (Nat.eqb _ 2).
      - apply (remove_atom_live 3 w (key_of (hat h)) w1 D).
      - apply Ok_inj in D. subst. split; [apply incl_refl|reflexivity]. }
    destruct X as (X1 & X2). destruct L as [L|L]; cbn in L; [left; apply X1; assumption|right].
    apply in_map_iff in L. destruct L as (y & Ey & Hy). apply in_map_iff. exists y. split; [assumption|].
    rewrite <- X2. eapply in_remove_nth; eauto.
  - destruct (nth_error (handles w) i) as [h0|] eqn:N; [|discriminate].
    destruct (nth_error (handles w) j) as [h|] eqn:M; [|discriminate]. apply Ok_inj in E. subst w'. left.
    destruct L as [L|L]; [left; assumption|right]. apply in_map_iff in L. destruct L as (y & Ey & Hy).
    cbn [handles] in Hy. apply in_replace in Hy. apply in_map_iff. exists y. split; [assumption|].
    destruct Hy as [->|Hy]; [eapply nth_error_In; eauto|assumption].
  - unfold parse_op in E. destruct (check_by_name (tab w) n).
    + destruct (get_by_name (tab w) _) as [k t1]. destruct (get_object t1 k) as [p t2].
      destruct (deref (with_tab w t2) p) as [a'| | |] eqn:D; try discriminate. cbn [bind] in E.
      apply Ok_inj in E. subst w'. left. destruct L as [L|[L|L]]; cbn in *.
      * left; assumption.
      * subst b. left. exact (deref_live _ _ _ D).
      * right; assumption.
    + apply Ok_inj in E. subst w'. destruct L as [L|[L|L]].
      * cbn [add_handle register held] in L. apply set_live in L. destruct L as [->|L]; [right; eauto|left; left; assumption].
      * cbn in L. subst b. right. eauto.
      * left. right. assumption.
Qed.

Lemma window_history ops base w : history ops (window base) w ->
  history ops apart w /\ forall b, live w b -> base <= b < base + 4294967296.
Proof.
  induction 1 as [|w x w' Hw (H & W) Bx Pl E].
  - split; [constructor|]. intros b [[]|[]].
  - split.
    + eapply hist_step; [exact H|exact Bx| |exact E]. intros n a Hx.
      apply (window_apart base); [exact W|exact (Pl n a Hx)].
    + intros b L. destruct (act_live w x w' b E L) as [L0|(n & Hx)]; [auto|].
      apply (Pl n b Hx).
Qed.

Lemma window_names base w : history no_op (window base) w ->
  (forall h h', In h (handles w) -> In h' (handles w) -> (hname h = hname h' <-> hat h = hat h'))
  /\ (forall n a, window base w a -> exists w' h, act_on w (Create n a) = Ok w'
        /\ handles w' = h :: handles w /\ hname h = n)
  /\ (forall i, (i < List.length (handles w))%nat -> exists w', act_on w (Drop i) = Ok w'
        /\ handles w' = remove_nth i (handles w)).
Proof.
  intro H. destruct (window_history no_op base w H) as (A & W).
  destruct (one_atom_per_name w A) as (X & Y & Z0). split; [exact X|]. split; [|exact Z0].
  intros n a P. apply Y. exact (window_apart base w a W P).
Qed.

(* ---- C84: overwriting ---- *)
Definition covered (w : world) (lost : list string) : Prop :=
  forall k n, lookup Z.eqb k (dict (tab w)) = Some n ->
    (exists a, key_of a = k /\ In (Hd a n) (handles w)) \/ In n lost.
Definition known_lost (w : world) (lost : list string) : Prop :=
  forall n, In n lost -> lookup String.eqb n (inv (tab w)) <> None /\ ~ held_name w n.

Lemma overwriting_history w lost : overwriting w lost -> history no_op apart w.
Proof. induction 1; [constructor|]. eapply hist_step; eauto. Qed.

Lemma same_handle w h h' : good w -> In h (handles w) -> In h' (handles w) -> hname h = hname h' -> h = h'.
Proof.
  intros G H H' E. pose proof (proj1 (good_same_name w h h' G H H') E) as X.
  destruct h, h'. cbn in *. congruence.
Qed.

Lemma held_known w n : good w -> held_name w n -> lookup String.eqb n (inv (tab w)) <> None.
Proof.
  intros G (h & H & <-). pose proof (g_handles _ G _ H) as E. apply (g_inv _ G) in E. congruence.
Qed.

Lemma create_cases w n a w' : good w -> create w n a = Ok w' ->
  (exists k b, lookup String.eqb n (inv (tab w)) = Some k /\ key_of b = k /\ w' = add_handle w (Hd b n))
  \/ (lookup String.eqb n (inv (tab w)) = None /\ w' = add_handle (register w n a) (Hd a n)).
Proof.
  intros G E. unfold create, check_by_name, has in E.
  destruct (lookup String.eqb n (inv (tab w))) as [k|] eqn:En.
  - left. unfold get_by_name in E. rewrite En in E. pose proof (proj2 (g_inv _ G k n) En) as Ek.
    destruct (g_dict _ G _ _ Ek) as (p & b & E1 & E2 & E3).
    unfold get_object in E. rewrite E1 in E. unfold deref in E. pose proof (g_next _ G _ _ E2).
    destruct (p =? 0) eqn:E0; [lia|]. cbn [with_tab held] in E. rewrite E2 in E. cbn [bind] in E.
    apply Ok_inj in E. exists k, b. split; [reflexivity|]. split; [assumption|]. subst w'. destruct w; reflexivity.
  - right. split; [reflexivity|]. apply Ok_inj in E. congruence.
Qed.

Lemma drop_keeps w i h w' : good w -> nth_error (handles w) i = Some h -> act_on w (Drop i) = Ok w' ->
  handles w' = remove_nth i (handles w) /\
  forall k n, lookup Z.eqb k (dict (tab w')) = Some n <->
    lookup Z.eqb k (dict (tab w)) = Some n /\ (n = hname h -> In h (remove_nth i (handles w))).
Proof.
  intros G Hi E. destruct (good_drop w i h G Hi) as (w2 & E2 & Hh & _). rewrite E in E2. apply Ok_inj in E2. subst w2.
  split; [assumption|].
  pose proof (nth_error_In _ _ Hi) as H. pose proof (good_use w h G H) as U.
  pose proof (occ_remove_nth i _ _ h Hi eq_refl) as O.
  pose proof (g_handles _ G _ H) as Ed.
  cbn [act_on] in E. rewrite Hi in E. unfold destroy in E.
  destruct (Nat.eqb (use_count w (hat h)) 2) eqn:E2; [apply Nat.eqb_eq in E2|apply Nat.eqb_neq in E2].
  - destruct (good_pointer w h G H) as (p & P1 & P2 & P3).
    rewrite (remove_last w h p G H E2 P1 P2 P3) in E. cbn [bind forget tab held next handles] in E.
    apply Ok_inj in E. subst w'. cbn [tab dict].
    assert (Z0 : occurrences (hat h) (map hat (remove_nth i (handles w))) = 0%nat) by lia.
    rewrite occ_zero in Z0. intros k n. rewrite zl_unset. destruct (Z.eqb_spec k (key_of (hat h))) as [->|Nk].
    + split; [discriminate|]. intros (X & Y). exfalso. apply Z0. apply in_map. apply Y. congruence.
    + split; [intros X; split; [assumption|]|intros (X & _); assumption].
      intros ->. exfalso. apply Nk. apply (g_inv _ G) in X. apply (g_inv _ G) in Ed. congruence.
  - cbn [bind] in E. apply Ok_inj in E. subst w'. cbn [tab]. intros k n.
    split; [intros X; split; [assumption|]|intros (X & _); assumption]. intros _.
    assert (Still : In (hat h) (map hat (remove_nth i (handles w)))).
    { destruct (in_dec Z.eq_dec (hat h) (map hat (remove_nth i (handles w)))) as [Y|Y]; [assumption|].
      apply occ_zero in Y. lia. }
    apply in_map_iff in Still. destruct Still as (x & Ex & Hx).
    pose proof (in_remove_nth _ _ _ _ Hx) as Hx'.
    pose proof (proj2 (good_same_name w x h G Hx' H) Ex) as En.
    replace h with x; [assumption|]. destruct x, h. cbn in *. congruence.
Qed.

Lemma known_dict w n : good w ->
  lookup String.eqb n (inv (tab w)) <> None <-> exists k, lookup Z.eqb k (dict (tab w)) = Some n.
Proof.
  intro G. destruct (lookup String.eqb n (inv (tab w))) as [k|] eqn:E; split; intro H; try congruence.
  - exists k. apply (g_inv _ G). assumption.
  - destruct H as (k & H). apply (g_inv _ G) in H. congruence.
Qed.

Lemma lost_ok w lost : overwriting w lost -> covered w lost /\ known_lost w lost.
Proof.
  induction 1 as [|w lost x w' Hw (C & K) Bx Pl E].
  - split; [intros k n X; discriminate|intros n []].
  - pose proof (history_good w (overwriting_history _ _ Hw)) as G.
    assert (G' : good w').
    { apply history_good. eapply hist_step; [apply (overwriting_history _ _ Hw)|exact Bx|exact Pl|exact E]. }
    destruct x as [n a|i|i|i j|n a]; cbn [no_op] in Bx; try contradiction; cbn [lost_after].
    + cbn [act_on] in E. destruct (create_cases w n a w' G E) as [(k & b & En & Eb & ->)|(En & ->)].
      * split.
        -- intros k' m X. cbn [add_handle tab] in X. destruct (C k' m X) as [(c & Ec & Hc)|L].
           ++ left. exists c. split; [assumption|]. right. assumption.
           ++ destruct (String.eqb_spec m n) as [->|Nm].
              ** left. exists b. split; [|left; reflexivity]. apply (g_inv _ G) in X. congruence.
              ** right. apply filter_In. split; [assumption|]. apply String.eqb_neq in Nm. rewrite Nm. reflexivity.
        -- intros m X. apply filter_In in X. destruct X as (X & Nm). destruct (K m X) as (K1 & K2).
           split; [assumption|]. intros (h & [<-|Hh] & Eh).
           ++ cbn [hname] in Eh. subst m. rewrite String.eqb_refl in Nm. discriminate.
           ++ apply K2. exists h. auto.
      * destruct (put_entries (tab w) (key_of a) n (next w)) as (P1 & P2 & P3 & P4). split.
        -- intros k' m X. cbn [add_handle register tab] in X. rewrite P1 in X.
           destruct (Z.eqb_spec k' (key_of a)) as [->|Nk].
           ++ left. exists a. split; [reflexivity|]. left. congruence.
           ++ destruct (C k' m X) as [(c & Ec & Hc)|L].
              ** left. exists c. split; [assumption|]. right. assumption.
              ** right. apply filter_In. split; [assumption|].
                 destruct (String.eqb_spec m n) as [->|Nm]; [|reflexivity].
                 exfalso. apply (proj1 (K n L)). assumption.
        -- intros m X. apply filter_In in X. destruct X as (X & Nm). destruct (K m X) as (K1 & K2).
           split.
           ++ cbn [add_handle register tab]. rewrite P3. destruct (String.eqb m n); [discriminate|assumption].
           ++ intros (h & [<-|Hh] & Eh).
              ** cbn [hname] in Eh. subst m. rewrite String.eqb_refl in Nm. discriminate.
              ** apply K2. exists h. auto.
    + cbn [act_on] in E. destruct (nth_error (handles w) i) as [h|] eqn:Ei; [|discriminate].
      apply nth_error_In in Ei. apply Ok_inj in E. subst w'. split.
      * intros k m X. destruct (C k m X) as [(c & Ec & Hc)|L]; [left; exists c; split; [assumption|right; assumption]|auto].
      * intros m X. destruct (K m X) as (K1 & K2). split; [assumption|].
        intros (h' & [<-|Hh] & Eh); apply K2; [exists h|exists h']; auto.
    + destruct (nth_error (handles w) i) as [h|] eqn:Ei;
        [|cbn [act_on] in E; rewrite Ei in E; discriminate].
      destruct (drop_keeps w i h w' G Ei E) as (Hh & D). pose proof (nth_error_In _ _ Ei) as H. split.
      * intros k m X. apply D in X. destruct X as (X & Y). destruct (C k m X) as [(c & Ec & Hc)|L]; [left|auto].
        exists c. split; [assumption|]. rewrite Hh.
        destruct (in_split_nth _ _ _ _ _ Ei Hc) as [<-|Hn]; [|assumption]. apply Y. reflexivity.
      * intros m X. destruct (K m X) as (K1 & K2). split.
        -- apply (known_dict w' m G'). apply (known_dict w m G) in K1. destruct K1 as (k & K1). exists k. apply D.
           split; [assumption|]. intros ->. exfalso. apply K2. exists h. auto.
        -- intros (h' & Hh' & Eh). apply K2. exists h'. split; [|assumption]. rewrite Hh in Hh'.
           eapply in_remove_nth; eauto.
    + pose proof E as E0. cbn [act_on] in E. destruct (nth_error (handles w) i) as [h0|] eqn:Ei; [|discriminate].
      destruct (nth_error (handles w) j) as [h|] eqn:Ej; [|discriminate].
      pose proof (nth_error_In _ _ Ei) as Hi. pose proof (nth_error_In _ _ Ej) as Hj. apply Ok_inj in E.
      assert (T : tab w' = tab w) by (subst w'; reflexivity).
      assert (Sub : forall x, In x (handles w') -> In x (handles w)).
      { intros x Hx. subst w'. cbn [handles] in Hx. apply in_replace in Hx. destruct Hx as [->|Hx]; assumption. }
      assert (Keep : forall x, In x (handles w) -> x = h0 \/ In x (handles w')).
      { intros x Hx. subst w'. cbn [handles].
        rewrite <- (firstn_skipn i (handles w)) in Hx. apply in_app_or in Hx. destruct Hx as [Hx|Hx].
        - right. apply in_or_app. left. assumption.
        - assert (Sk : skipn i (handles w) = h0 :: skipn (S i) (handles w)).
          { clear -Ei. revert Ei. generalize (handles w). induction i as [|i IH]; intros [|y l] Ei; cbn in *; try discriminate.
            - congruence.
            - apply IH. assumption. }
          rewrite Sk in Hx. destruct Hx as [Hx|Hx]; [left; congruence|]. right. apply in_or_app. right. right. assumption. }
      destruct (existsb (fun h' => String.eqb (hname h') (hname h0)) (handles w')) eqn:Ex.
      * apply existsb_exists in Ex. destruct Ex as (y & Hy & Ey). apply String.eqb_eq in Ey.
        assert (In h0 (handles w')).
        { replace h0 with y; [assumption|]. apply (same_handle w); auto. }
        split.
        -- intros k m X. rewrite T in X. destruct (C k m X) as [(c & Ec & Hc)|L]; [left|auto].
           exists c. split; [assumption|]. destruct (Keep _ Hc) as [->|Y]; assumption.
        -- intros m X. destruct (K m X) as (K1 & K2). rewrite T. split; [assumption|].
           intros (z & Hz & Ez). apply K2. exists z. auto.
      * assert (No : ~ held_name w' (hname h0)).
        { intros (y & Hy & Ey). rewrite <- not_true_iff_false in Ex. apply Ex. apply existsb_exists. exists y.
          split; [assumption|]. apply String.eqb_eq. assumption. }
        split.
        -- intros k m X. rewrite T in X. destruct (C k m X) as [(c & Ec & Hc)|L]; [|right; right; assumption].
           destruct (Keep _ Hc) as [Y|Y]; [right; left; rewrite <- Y; reflexivity|].
           left. exists c. auto.
        -- intros m [<-|X].
           ++ split; [|assumption]. rewrite T. apply held_known; [assumption|]. exists h0. auto.
           ++ destruct (K m X) as (K1 & K2). rewrite T. split; [assumption|].
              intros (z & Hz & Ez). apply K2. exists z. auto.
Qed.

Lemma overwriting_exact w lost : overwriting w lost ->
  (forall n, check_by_name (tab w) n = true <-> held_name w n \/ In n lost)
  /\ (forall n, In n lost -> ~ held_name w n)
  /\ (forall a, live w a <-> exists k n, lookup Z.eqb k (dict (tab w)) = Some n /\ key_of a = k
        /\ exists p, lookup Z.eqb k (objs (tab w)) = Some p /\ lookup Z.eqb p (held w) = Some a)
  /\ (lost = [] -> handles w = [] -> tab w = empty_table /\ held w = []).
Proof.
  intro H. pose proof (history_good w (overwriting_history _ _ H)) as G. destruct (lost_ok w lost H) as (C & K).
  assert (N : forall n, check_by_name (tab w) n = true <-> held_name w n \/ In n lost).
  { intro n. unfold check_by_name, has. destruct (lookup String.eqb n (inv (tab w))) as [k|] eqn:E.
    - split; [intros _|reflexivity]. apply (g_inv _ G) in E. destruct (C k n E) as [(a & Ea & Ha)|L]; [left|right; assumption].
      exists (Hd a n). auto.
    - split; [discriminate|]. intros [Hn|L]; exfalso.
      + apply (held_known w n G Hn). assumption.
      + apply (proj1 (K n L)). assumption. }
  split; [exact N|]. split; [intros n L; apply (K n L)|]. split.
  - intro a. split.
    + intros [L|L].
      * apply in_map_iff in L. destruct L as ((p & b) & Eb & Hp). cbn in Eb. subst b.
        assert (E : lookup Z.eqb p (held w) = Some a) by (apply (in_lookup _ zok); [apply G|assumption]).
        pose proof (g_held _ G _ _ E) as F. pose proof (g_objs _ G _ _ F) as D.
        destruct (lookup Z.eqb (key_of a) (dict (tab w))) as [n|] eqn:Dn; [|congruence].
        exists (key_of a), n. split; [assumption|]. split; [reflexivity|]. exists p. auto.
      * apply in_map_iff in L. destruct L as (h & Eh & Hh). destruct (good_pointer w h G Hh) as (p & P1 & P2 & _).
        subst a. exists (key_of (hat h)), (hname h). split; [apply (g_handles _ G _ Hh)|]. split; [reflexivity|].
        exists p. auto.
    + intros (k & n & _ & _ & p & _ & E). eapply held_live; eauto.
  - intros -> Hh.
    assert (T : forall k, lookup Z.eqb k (dict (tab w)) = None).
    { intro k. destruct (lookup Z.eqb k (dict (tab w))) as [n|] eqn:E; [|reflexivity].
      destruct (C k n E) as [(a & _ & Ha)|[]]. rewrite Hh in Ha. destruct Ha. }
    assert (Hd0 : held w = []).
    { destruct (held w) as [|(p & a) m] eqn:Em; [reflexivity|]. exfalso.
      assert (E : lookup Z.eqb p (held w) = Some a) by (rewrite Em; cbn; rewrite Z.eqb_refl; reflexivity).
      pose proof (g_held _ G _ _ E) as F. apply (g_objs _ G _ _ F). apply T. }
    split; [|assumption].
    destruct (tab w) as [d o v c] eqn:Et. cbn [dict] in T.
    assert (D : d = []) by (destruct d as [|(k & n) d]; [reflexivity|]; specialize (T k); cbn in T; rewrite Z.eqb_refl in T; discriminate).
    assert (O : o = []).
    { destruct o as [|(k & p) o]; [reflexivity|]. exfalso.
      apply (g_objs _ G k p); rewrite Et; cbn; [rewrite Z.eqb_refl; reflexivity|apply T]. }
    assert (V : v = []).
    { destruct v as [|(n & k) v]; [reflexivity|]. exfalso.
      assert (X : lookup String.eqb n (inv (tab w)) = Some k) by (rewrite Et; cbn; rewrite String.eqb_refl; reflexivity).
      apply (g_inv _ G) in X. rewrite Et in X. cbn [dict] in X. rewrite T in X. discriminate. }
    assert (Q : c = []).
    { destruct c as [|(k & x) c]; [reflexivity|]. exfalso.
      pose proof (g_cnt _ G k) as X. rewrite Et in X. cbn [dict cnt lookup] in X. rewrite Z.eqb_refl, T in X. discriminate. }
    subst. reflexivity.
Qed.

Lemma overwriting_all w : history no_op apart w -> exists lost, overwriting w lost.
Proof.
  induction 1 as [|w x w' Hw (lost & H) Bx Pl E]; [exists []; constructor|].
  eexists. eapply ow_step; eauto.
Qed.

(* ---- C35, C85: operations ---- *)
Lemma known_held w n : good w -> tight w -> check_by_name (tab w) n = true <-> held_name w n.
Proof.
  intros G T. unfold check_by_name, has. destruct (lookup String.eqb n (inv (tab w))) as [k|] eqn:E.
  - split; [intros _|reflexivity]. apply (g_inv _ G) in E. destruct (T k n E) as (a & Ea & Ha). exists (Hd a n). auto.
  - split; [discriminate|]. intro Hn. exfalso. apply (held_known w n G Hn). assumption.
Qed.

Lemma parse_op_create w n a : good w -> tight w -> matched w n -> parse_op w n a = create w (String "^"%char n) a.
Proof.
  intros G T M. unfold parse_op, create.
  assert (E : check_by_name (tab w) n = check_by_name (tab w) (String "^"%char n)).
  { destruct (check_by_name (tab w) n) eqn:A, (check_by_name (tab w) (String "^"%char n)) eqn:B; try reflexivity; exfalso.
    - apply (known_held w n G T), M, (known_held w _ G T) in A. congruence.
    - apply (known_held w _ G T), M, (known_held w _ G T) in B. congruence. }
  rewrite E. reflexivity.
Qed.

Lemma op_history_basic w : op_history w -> history basic apart w.
Proof.
  induction 1 as [|w x w' Hw H Bx Pl E]; [constructor|].
  destruct x as [n a|i|i|i j|n a]; try contradiction.
  - eapply hist_step; [exact H| |exact Pl|exact E]. exact I.
  - eapply hist_step; [exact H| |exact Pl|exact E]. exact I.
  - eapply hist_step; [exact H| |exact Pl|exact E]. exact I.
  - cbn [act_on] in E. rewrite (parse_op_create w n a (basic_good w H) (history_tight w H) Bx) in E.
    apply (hist_step basic apart w (Create (String "^"%char n) a) w' H I); [|exact E].
    intros m b [X|X]; [|discriminate]. injection X as _ <-. apply (Pl n). auto.
Qed.

Lemma teq_atom op op' a : teq (Atom op a) (Atom op' a) = Ok true.
Proof.
  rewrite teq_atomic by reflexivity. cbn [thash]. rewrite Z.eqb_refl. cbn [negb].
  unfold atom_eq. cbn [is_var orb thash]. rewrite Z.eqb_refl. reflexivity.
Qed.

Lemma op_history_right w : op_history w ->
  (forall h h', In h (handles w) -> In h' (handles w) ->
     (hname h = hname h' <-> hat h = hat h')
     /\ (hname h = hname h' -> teq (Atom true (hat h)) (Atom true (hat h')) = Ok true))
  /\ (forall n, check_by_name (tab w) n = true <-> held_name w n)
  /\ (handles w = [] -> tab w = empty_table /\ held w = []).
Proof.
  intro H. apply op_history_basic in H. pose proof (basic_good w H) as G. pose proof (history_tight w H) as T.
  split; [|split].
  - intros h h' Hh Hh'. split; [apply (good_same_name w); assumption|].
    intro E. apply (good_same_name w) in E; try assumption. rewrite E. apply teq_atom.
  - intro n. apply known_held; assumption.
  - apply (table_exact w H).
Qed.

(* One more operation parsed: right in the matched cases, wrong in the others. *)
Lemma op_next w n a : op_history w -> apart w a ->
  (matched w n -> exists w' h, act_on w (ParseOp n a) = Ok w' /\ handles w' = h :: handles w
     /\ hname h = String "^"%char n
     /\ (forall h', In h' (handles w) -> (hname h' = hname h <-> hat h' = hat h)))
  /\ (held_name w n -> ~ held_name w (String "^"%char n) ->
      act_on w (ParseOp n a) = UB
      \/ exists w' h h', act_on w (ParseOp n a) = Ok w' /\ handles w' = h :: handles w
           /\ hname h = String "^"%char n /\ In h' (handles w) /\ hname h' <> hname h /\ hat h' = hat h)
  /\ (~ held_name w n -> held_name w (String "^"%char n) ->
      exists w' h h', act_on w (ParseOp n a) = Ok w' /\ handles w' = h :: handles w
           /\ hname h = String "^"%char n /\ In h' (handles w) /\ hname h' = hname h /\ hat h' <> hat h).
Proof.
  intros H Ap. apply op_history_basic in H. pose proof (basic_good w H) as G. pose proof (history_tight w H) as T.
  split; [|split].
  - intro M. cbn [act_on]. rewrite (parse_op_create w n a G T M).
    destruct (good_create w (String "^"%char n) a G Ap) as (w' & h & E1 & E2 & E3 & G2 & _).
    exists w', h. split; [assumption|]. split; [assumption|]. split; [assumption|].
    intros h' Hh'. apply (good_same_name w'); try assumption; rewrite E2; [right; assumption|left; reflexivity].
  - intros Hn No. cbn [act_on]. unfold parse_op.
    rewrite (proj2 (known_held w n G T) Hn). unfold get_by_name.
    destruct (lookup String.eqb (String "^"%char n) (inv (tab w))) as [k|] eqn:E.
    { exfalso. apply No. apply (known_held w _ G T). unfold check_by_name, has. rewrite E. reflexivity. }
    unfold get_object. cbn [objs].
    destruct (lookup Z.eqb 0 (objs (tab w))) as [p|] eqn:E0.
    + right. pose proof (g_objs _ G _ _ E0) as D.
      destruct (lookup Z.eqb 0 (dict (tab w))) as [m|] eqn:Dm; [|congruence].
      destruct (g_dict _ G _ _ Dm) as (p' & b & P1 & P2 & P3). rewrite E0 in P1. injection P1 as <-.
      unfold deref. pose proof (g_next _ G _ _ P2). destruct (p =? 0) eqn:Z0; [lia|]. cbn [with_tab held].
      rewrite P2. cbn [bind].
      destruct (T 0 m Dm) as (c & Ec & Hc).
      assert (c = b).
      { apply (g_inj _ G); [right; change c with (hat (Hd c m)); apply in_map; assumption|eapply held_live; eauto|congruence]. }
      subst c. eexists _, _, (Hd b m). split; [reflexivity|]. split; [reflexivity|]. cbn [hname hat].
      split; [reflexivity|]. split; [assumption|]. split; [|reflexivity].
      intros ->. apply No. exists (Hd b (String "^"%char n)). auto.
    + left. reflexivity.
  - intros Nn (h' & Hh' & Eh'). cbn [act_on]. unfold parse_op.
    destruct (check_by_name (tab w) n) eqn:E; [apply (known_held w n G T) in E; contradiction|].
    eexists _, _, h'. split; [reflexivity|]. split; [reflexivity|]. cbn [hname hat].
    split; [reflexivity|]. split; [assumption|]. split; [assumption|].
    intro X. apply (Ap (hat h')); [right; apply in_map; assumption|congruence].
Qed.
