(* Interned atoms: what holds when operators are read as well. *)
From Coq Require Import ZArith List Bool String Ascii Lia.
From Verif Require Import Base Hash Enums Term TermFacts Maps MapsFacts Interning InterningSpec InterningFacts InterningFacts2.
Import ListNotations.
Local Open Scope Z_scope.

(* As [good], but a name may lead to one of several atoms, or for names that
   begin with ^ to none: the parser gives each ^n that it does not look for
   its own atom. *)
Record sane (w : world) : Prop := {
  s_handles : forall h, In h (handles w) -> lookup Z.eqb (key_of (hat h)) (dict (tab w)) = Some (hname h);
  s_dict : forall k n, lookup Z.eqb k (dict (tab w)) = Some n ->
    exists p a, lookup Z.eqb k (objs (tab w)) = Some p /\ lookup Z.eqb p (held w) = Some a
      /\ key_of a = k;
  s_inv : forall k n, lookup String.eqb n (inv (tab w)) = Some k -> lookup Z.eqb k (dict (tab w)) = Some n;
  s_names : forall k n, (forall m, n <> String "^"%char m) -> lookup Z.eqb k (dict (tab w)) = Some n ->
    lookup String.eqb n (inv (tab w)) = Some k;
  s_objs : forall k p, lookup Z.eqb k (objs (tab w)) = Some p -> lookup Z.eqb k (dict (tab w)) <> None;
  s_cnt : forall k, lookup Z.eqb k (cnt (tab w))
    = match lookup Z.eqb k (dict (tab w)) with Some _ => Some 1 | None => None end;
  s_held : forall p a, lookup Z.eqb p (held w) = Some a -> lookup Z.eqb (key_of a) (objs (tab w)) = Some p;
  s_nodup : NoDup (map fst (held w));
  s_next : forall p a, lookup Z.eqb p (held w) = Some a -> 0 < p < next w;
  s_pos : 0 < next w;
  s_inj : forall a b, live w a -> live w b -> key_of a = key_of b -> a = b
}.

Lemma sane_held_once : forall w p a, sane w -> lookup Z.eqb p (held w) = Some a ->
  occurrences a (map snd (held w)) = 1%nat.
Proof.
  intros w p a G E. apply occ_one.
  - apply nodup_snd; [apply G|]. intros q q' b E1 E2.
    apply (s_held _ G) in E1. apply (s_held _ G) in E2. congruence.
  - apply (lookup_in _ zok) in E. apply (in_map snd) in E. assumption.
Qed.

Lemma sane_pointer : forall w h, sane w -> In h (handles w) ->
  exists p, lookup Z.eqb (key_of (hat h)) (objs (tab w)) = Some p /\ lookup Z.eqb p (held w) = Some (hat h) /\ p <> 0.
Proof.
  intros w h G H. destruct (s_dict _ G _ _ (s_handles _ G _ H)) as (p & a & E1 & E2 & E3).
  assert (a = hat h).
  { apply (s_inj _ G); [| |assumption].
    - eapply held_live; eauto.
    - right. apply in_map. assumption. }
  subst a. exists p. pose proof (s_next _ G _ _ E2). repeat split; auto. lia.
Qed.

Lemma sane_use : forall w h, sane w -> In h (handles w) ->
  use_count w (hat h) = S (occurrences (hat h) (map hat (handles w))).
Proof.
  intros w h G H. destruct (sane_pointer w h G H) as (p & _ & E & _).
  unfold use_count. rewrite (sane_held_once w p _ G E). reflexivity.
Qed.

Lemma sane_start : sane world0.
Proof.
  constructor; cbn; try (intros; discriminate); try (intros; contradiction); auto; try lia.
  - constructor.
  - intros a b [H|H]; cbn in H; contradiction.
Qed.

Lemma sane_add : forall w h, sane w -> lookup Z.eqb (key_of (hat h)) (dict (tab w)) = Some (hname h) ->
  live w (hat h) -> sane (add_handle w h).
Proof.
  intros w h G H L. destruct G as [A B C C2 D E F N X P I]. constructor; cbn [add_handle tab held next handles]; auto.
  - intros h' [<-|H']; auto.
  - assert (Lv : forall a, live (add_handle w h) a -> live w a).
    { intros a [La|La]; [left; assumption|]. simpl in La. destruct La as [<-|La]; [assumption|right; assumption]. }
    intros a b La Lb. apply I; auto.
Qed.

(* A name that is known leads to its atom. *)
Lemma sane_again : forall w n k, sane w -> lookup String.eqb n (inv (tab w)) = Some k ->
  exists p b, lookup Z.eqb k (objs (tab w)) = Some p /\ lookup Z.eqb p (held w) = Some b /\ p <> 0 /\ key_of b = k /\
    sane (add_handle w (Hd b n)).
Proof.
  intros w n k G En. pose proof (s_inv _ G k n En) as Ek.
  destruct (s_dict _ G _ _ Ek) as (p & b & E1 & E2 & E3). pose proof (s_next _ G _ _ E2).
  exists p, b. split; [exact E1|]. split; [exact E2|]. split; [lia|]. split; [exact E3|].
  apply sane_add; [assumption|cbn [hat hname]; rewrite E3; assumption|]. eapply held_live; eauto.
Qed.

Lemma sane_new_key : forall w a, sane w -> apart w a -> lookup Z.eqb (key_of a) (dict (tab w)) = None.
Proof.
  intros w a G Ap.
  destruct (lookup Z.eqb (key_of a) (dict (tab w))) as [m|] eqn:E; [|reflexivity]. exfalso.
  destruct (s_dict _ G _ _ E) as (p & b & _ & E2 & E3).
  apply (Ap b); [eapply held_live; eauto|]. symmetry. apply key_inj. assumption.
Qed.

Lemma tight_register : forall w n a, tight w -> tight (add_handle (register w n a) (Hd a n)).
Proof.
  intros w n a T k m. cbn [add_handle register tab handles].
  rewrite (proj1 (put_entries (tab w) (key_of a) n (next w))). destruct (k =? key_of a) eqn:Ek.
  - apply Z.eqb_eq in Ek. intros Em. inversion Em; subst. exists a. simpl. auto.
  - intros Em. destruct (T k m Em) as (b & Eb & Hb). exists b. simpl. auto.
Qed.

Lemma sane_register : forall w n a, sane w -> apart w a ->
  lookup String.eqb n (inv (tab w)) = None \/ (exists m, n = String "^"%char m) ->
  sane (add_handle (register w n a) (Hd a n)).
Proof.
  intros w n a G Ap Nn.
  pose proof (sane_new_key w a G Ap) as Nk.
  assert (Np : lookup Z.eqb (next w) (held w) = None).
  { destruct (lookup Z.eqb (next w) (held w)) eqn:E; [|reflexivity]. pose proof (s_next _ G _ _ E). lia. }
  destruct (put_entries (tab w) (key_of a) n (next w)) as (P1 & P2 & P3 & P4).
  destruct G as [A B C C2 D E F N X P I].
  constructor; cbn [add_handle register tab held next handles].
  - intros h [<-|H]; cbn [hat hname]; rewrite P1; [rewrite Z.eqb_refl; reflexivity|].
    destruct (key_of (hat h) =? key_of a) eqn:Ek; [|auto]. apply Z.eqb_eq in Ek. specialize (A h H). congruence.
  - intros k m. rewrite P1, P2. destruct (k =? key_of a) eqn:Ek.
    + apply Z.eqb_eq in Ek. intros Em. inversion Em; subst m k. exists (next w), a.
      split; [reflexivity|]. split; [apply (lookup_set_same _ zok)|]. reflexivity.
    + intros Em. destruct (B k m Em) as (p & b & B1 & B2 & B3). exists p, b.
      split; [assumption|]. split; [|assumption].
      rewrite zl_set. destruct (p =? next w) eqn:Ep; [|assumption]. specialize (X p b B2). lia.
  - intros k m. rewrite P1, P3. destruct (k =? key_of a) eqn:Ek, (String.eqb m n) eqn:Em; eqs; subst.
    + reflexivity.
    + intros H. apply C in H. congruence.
    + congruence.
    + apply C.
  - intros k m Pm. rewrite P1, P3. destruct (k =? key_of a) eqn:Ek, (String.eqb m n) eqn:Em; eqs; subst.
    + reflexivity.
    + congruence.
    + intros H. apply C2 in H; [|assumption]. destruct Nn as [Nn|(m & ->)]; [congruence|]. destruct (Pm m). reflexivity.
    + apply C2. assumption.
  - intros k p. rewrite P1, P2. destruct (k =? key_of a); [congruence|]. apply D.
  - intros k. rewrite P4, P1, !E, Nk. destruct (k =? key_of a); reflexivity.
  - intros p b. rewrite zl_set, P2. destruct (p =? next w) eqn:Ep.
    + apply Z.eqb_eq in Ep. intros Eb. inversion Eb; subst. rewrite Z.eqb_refl. reflexivity.
    + intros Eb. specialize (F p b Eb). destruct (key_of b =? key_of a) eqn:Ek; [|assumption].
      apply Z.eqb_eq in Ek. rewrite Ek in F. destruct (D _ _ F). assumption.
  - apply (set_keys _ zok). assumption.
  - intros p b. rewrite zl_set. destruct (p =? next w) eqn:Ep; [lia|]. intros Eb. specialize (X p b Eb). lia.
  - lia.
  - set (w' := add_handle _ _).
    assert (Lv : forall b, live w' b -> b = a \/ live w b).
    { intros b [L|L]; cbn in L.
      - destruct L as [L|L]; [auto|]. right. left. apply in_map_iff in L. destruct L as (x & Ex & Hx).
        apply filter_In in Hx. destruct Hx as (Hx & _). apply in_map_iff. exists x. auto.
      - destruct L as [L|L]; [auto|]. right. right. assumption. }
    intros b c Lb Lc Ek. apply Lv in Lb. apply Lv in Lc.
    destruct Lb as [->|Lb], Lc as [->|Lc]; auto.
    + exfalso. apply (Ap c Lc). apply key_inj. assumption.
    + exfalso. apply (Ap b Lb). symmetry. apply key_inj. assumption.
Qed.

Lemma sane_create : forall w n a, sane w -> apart w a -> exists w' h,
  create w n a = Ok w' /\ handles w' = h :: handles w /\ hname h = n /\ sane w' /\ (tight w -> tight w').
Proof.
  intros w n a G Ap. unfold create, check_by_name, has.
  destruct (lookup String.eqb n (inv (tab w))) as [k|] eqn:En.
  - unfold get_by_name. rewrite En. destruct (sane_again w n k G En) as (p & b & E1 & E2 & Np & _ & G').
    unfold get_object. rewrite E1. unfold deref. apply Z.eqb_neq in Np. rewrite Np. cbn [with_tab held]. rewrite E2. cbn [bind].
    replace (with_tab w (tab w)) with w by (destruct w; reflexivity).
    exists (add_handle w (Hd b n)), (Hd b n). do 3 (split; [reflexivity|]). split; [exact G'|apply tight_add].
  - exists (add_handle (register w n a) (Hd a n)), (Hd a n). do 3 (split; [reflexivity|]). split.
    + apply sane_register; auto.
    + apply tight_register.
Qed.

(* No living atom has the key 0. *)
Definition nonzero (w : world) : Prop := forall k n, lookup Z.eqb k (dict (tab w)) = Some n -> k <> 0.

Lemma sane_parse_op : forall w n a, sane w -> nonzero w -> apart w a ->
  parse_op w n a = UB \/ exists w' h,
  parse_op w n a = Ok w' /\ handles w' = h :: handles w /\ hname h = String "^"%char n /\ sane w' /\ (tight w -> tight w').
Proof.
  intros w n a G Z0 Ap. unfold parse_op, check_by_name, has.
  destruct (lookup String.eqb n (inv (tab w))) as [k0|] eqn:E0.
  - unfold get_by_name. destruct (lookup String.eqb (String "^"%char n) (inv (tab w))) as [k|] eqn:En.
    + destruct (sane_again w _ k G En) as (p & b & E1 & E2 & Np & _ & G').
      unfold get_object. rewrite E1. unfold deref. apply Z.eqb_neq in Np. rewrite Np. cbn [with_tab held]. rewrite E2. cbn [bind].
      replace (with_tab w (tab w)) with w by (destruct w; reflexivity).
      right. exists (add_handle w (Hd b (String "^"%char n))), (Hd b (String "^"%char n)).
      do 3 (split; [reflexivity|]). split; [exact G'|apply tight_add].
    + left. unfold get_object. cbn [objs].
      destruct (lookup Z.eqb 0 (objs (tab w))) as [p|] eqn:Eo; [|reflexivity]. exfalso.
      destruct (lookup Z.eqb 0 (dict (tab w))) as [m|] eqn:Ed; [apply (Z0 _ _ Ed); reflexivity|].
      apply (s_objs _ G _ _ Eo Ed).
  - right. exists (add_handle (register w (String "^"%char n) a) (Hd a (String "^"%char n))), (Hd a (String "^"%char n)).
    do 3 (split; [reflexivity|]). split.
    + apply sane_register; eauto.
    + apply tight_register.
Qed.

Lemma sane_last : forall w h p, sane w -> In h (handles w) -> use_count w (hat h) = 2%nat ->
  lookup Z.eqb (key_of (hat h)) (objs (tab w)) = Some p -> lookup Z.eqb p (held w) = Some (hat h) -> p <> 0 ->
  remove_atom 3 w (key_of (hat h)) = Ok (forget w (hat h) (hname h) p).
Proof.
  intros w h p G H U E1 E2 Np. pose proof (s_handles _ G _ H) as Ed.
  cbn [remove_atom]. rewrite Ed. cbn [objs]. rewrite E1.
  destruct (p =? 0) eqn:E0; [lia|]. cbn [with_tab held tab dict]. rewrite E2.
  match goal with |- context [use_count ?x (hat h)] => assert (U1 : use_count x (hat h) = 2%nat) by exact U end.
  rewrite U1. cbn [Nat.eqb]. cbn [with_tab held tab dict].
  rewrite zl_unset, Z.eqb_refl. cbn [bind tab held next handles]. reflexivity.
Qed.

Lemma sane_drop : forall w i h, sane w -> nth_error (handles w) i = Some h ->
  exists w', act_on w (Drop i) = Ok w' /\ handles w' = remove_nth i (handles w) /\ sane w' /\ (tight w -> tight w').
Proof.
  intros w i h G Hi. pose proof (nth_error_In _ _ Hi) as H. cbn [act_on]. rewrite Hi. unfold destroy.
  pose proof (sane_use w h G H) as U. pose proof (occ_remove_nth i _ _ h Hi eq_refl) as O.
  destruct (Nat.eqb (use_count w (hat h)) 2) eqn:E2; [apply Nat.eqb_eq in E2|apply Nat.eqb_neq in E2].
  - destruct (sane_pointer w h G H) as (p & P1 & P2 & P3).
    rewrite (sane_last w h p G H E2 P1 P2 P3). cbn [bind forget tab held next handles].
    eexists. split; [reflexivity|]. split; [reflexivity|].
    assert (Z0 : occurrences (hat h) (map hat (remove_nth i (handles w))) = 0%nat) by lia.
    rewrite occ_zero in Z0.
    pose proof (s_handles _ G _ H) as Ed. pose proof (sane_held_once _ _ _ G P2) as Once.
    assert (K : forall x, In x (remove_nth i (handles w)) -> key_of (hat x) <> key_of (hat h)).
    { intros x Hx Ek. apply Z0. assert (hat x = hat h) as <-; [|apply in_map; assumption].
      apply (s_inj _ G); [right; apply in_map; eapply in_remove_nth; eauto|right; apply in_map; assumption|assumption]. }
    split.
    2: { intros T k n. cbn [tab dict handles]. rewrite zl_unset. destruct (k =? key_of (hat h)) eqn:Ek; [discriminate|].
         intros En. destruct (T k n En) as (b & Eb & Hb). exists b. split; [assumption|]. apply Z.eqb_neq in Ek.
         destruct (in_split_nth _ _ _ _ _ Hi Hb) as [<-|Hn]; [|assumption]. cbn [hat] in Ek. congruence. }
    destruct G as [A B C C2 D E F N X P I].
    constructor; cbn [tab held next handles dict objs inv cnt].
    + intros x Hx. rewrite zl_unset. pose proof (K x Hx) as Nk. apply Z.eqb_neq in Nk. rewrite Nk.
      apply A. eapply in_remove_nth; eauto.
    + intros k n. rewrite !zl_unset. destruct (k =? key_of (hat h)) eqn:Ek; [discriminate|]. apply Z.eqb_neq in Ek.
      intros En. destruct (B k n En) as (q & b & B1 & B2 & B3). exists q, b. split; [assumption|].
      split; [|assumption].
      rewrite zl_unset. destruct (q =? p) eqn:Eq; [|assumption]. apply Z.eqb_eq in Eq. subst q.
      rewrite P2 in B2. inversion B2. subst b. congruence.
    + intros k n. cbn [dict inv]. rewrite zl_unset, sl_unset.
      destruct (k =? key_of (hat h)) eqn:Ek, (String.eqb n (hname h)) eqn:En; eqs; subst.
      * discriminate.
      * intros Hn. apply C in Hn. congruence.
      * discriminate.
      * apply C.
    + intros k n Pn. cbn [dict inv]. rewrite zl_unset, sl_unset.
      destruct (k =? key_of (hat h)) eqn:Ek, (String.eqb n (hname h)) eqn:En; eqs; subst.
      * discriminate.
      * discriminate.
      * intros Hn. apply C2 in Hn; [|assumption]. apply C2 in Ed; [|assumption]. congruence.
      * apply C2. assumption.
    + intros k q. rewrite !zl_unset. destruct (k =? key_of (hat h)); [discriminate|]. apply D.
    + intros k. rewrite !zl_unset. destruct (k =? key_of (hat h)); [reflexivity|]. apply E.
    + intros q b. rewrite !zl_unset. destruct (q =? p) eqn:Eq; [discriminate|]. apply Z.eqb_neq in Eq. intros Hq.
      pose proof (F q b Hq) as Fq. destruct (key_of b =? key_of (hat h)) eqn:Ek; [|assumption].
      apply Z.eqb_eq in Ek. rewrite Ek in Fq. congruence.
    + apply unset_keys. assumption.
    + intros q b. rewrite zl_unset. destruct (q =? p); [discriminate|]. apply X.
    + assumption.
    + set (w' := World _ _ _ _).
      assert (Lv : forall b, live w' b -> live w b).
      { intros b [L|L]; cbn in L.
        - left. apply in_map_iff in L. destruct L as (x & Ex & Hx). apply filter_In in Hx.
          apply in_map_iff. exists x. tauto.
        - right. apply in_map_iff in L. destruct L as (x & Ex & Hx). apply in_map_iff. exists x.
          split; [assumption|]. eapply in_remove_nth; eauto. }
      intros b c Lb Lc. apply I; auto.
  - cbn [bind]. eexists. split; [reflexivity|]. split; [reflexivity|].
    split.
    2: { assert (Still : In (hat h) (map hat (remove_nth i (handles w)))).
         { destruct (in_dec Z.eq_dec (hat h) (map hat (remove_nth i (handles w)))) as [Y|Y]; [assumption|].
           apply occ_zero in Y. lia. }
         assert (Same : In h (remove_nth i (handles w))).
         { apply in_map_iff in Still. destruct Still as (x & Ex & Hx).
           pose proof (in_remove_nth _ _ _ _ Hx) as Hx'.
           pose proof (s_handles _ G _ Hx') as En. rewrite Ex, (s_handles _ G _ H) in En. apply (f_equal (fun o => match o with Some s => s | None => EmptyString end)) in En. cbn in En.
           replace h with x; [assumption|]. destruct x, h. cbn in *. congruence. }
         intros T k n Hk. destruct (T k n Hk) as (b & Eb & Hb). exists b. split; [assumption|].
         cbn [handles]. destruct (in_split_nth _ _ _ _ _ Hi Hb) as [<-|Hn]; assumption. }
    destruct G as [A B C C2 D E F N X P I].
    constructor; cbn [tab held next handles]; auto.
    + intros x Hx. apply A. eapply in_remove_nth; eauto.
    + set (w' := World _ _ _ _).
      assert (Lv : forall b, live w' b -> live w b).
      { intros b [L|L]; cbn in L; [left; assumption|].
        right. apply in_map_iff in L. destruct L as (x & Ex & Hx). apply in_map_iff. exists x.
        split; [assumption|]. eapply in_remove_nth; eauto. }
      intros b c Lb Lc. apply I; auto.
Qed.


(* Dropping takes nothing but the name of the atom from the table. *)
Lemma drop_dict : forall w i w' k n, act_on w (Drop i) = Ok w' ->
  sane w -> lookup Z.eqb k (dict (tab w')) = Some n -> lookup Z.eqb k (dict (tab w)) = Some n.
Proof.
  intros w i w' k n E G. cbn [act_on] in E. destruct (nth_error (handles w) i) as [h|] eqn:Ei; [|discriminate].
  pose proof (nth_error_In _ _ Ei) as H. unfold destroy in E.
  destruct (Nat.eqb (use_count w (hat h)) 2) eqn:E2; [apply Nat.eqb_eq in E2|].
  - destruct (sane_pointer w h G H) as (p & P1 & P2 & P3).
    rewrite (sane_last w h p G H E2 P1 P2 P3) in E. cbn [bind forget tab held next handles] in E. apply Ok_inj in E. subst w'.
    cbn [tab dict]. rewrite zl_unset. destruct (k =? key_of (hat h)); [discriminate|auto].
  - cbn [bind] in E. apply Ok_inj in E. subst w'. auto.
Qed.
