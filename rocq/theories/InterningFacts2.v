(* Interned atoms: the invariant of all histories. *)
From Coq Require Import ZArith List Bool String Lia.
From Verif Require Import Base Hash Enums Term TermFacts Maps MapsFacts Interning InterningSpec InterningFacts.
Import ListNotations.
Local Open Scope Z_scope.

(* ---- keys ---- *)
Lemma int32_inj : forall x y, int32 x = int32 y -> x mod 4294967296 = y mod 4294967296.
Proof.
  intros x y. unfold int32.
  pose proof (Z.mod_pos_bound x 4294967296 eq_refl). pose proof (Z.mod_pos_bound y 4294967296 eq_refl).
  destruct (x mod 4294967296 <? 2147483648) eqn:A, (y mod 4294967296 <? 2147483648) eqn:B; lia.
Qed.

Lemma int32_mod : forall x y, x mod 4294967296 = y mod 4294967296 -> int32 x = int32 y.
Proof. intros x y E. unfold int32. rewrite E. reflexivity. Qed.

Lemma lxor_low : forall x y, 0 <= x -> 0 <= y ->
  (Z.lxor x y) mod 2 ^ 32 = Z.lxor (x mod 2 ^ 32) (y mod 2 ^ 32).
Proof.
  intros x y Hx Hy. apply Z.bits_inj'. intros n Hn.
  destruct (Z_lt_dec n 32) as [L|L].
  - rewrite Z.mod_pow2_bits_low, !Z.lxor_spec, !Z.mod_pow2_bits_low by lia. reflexivity.
  - rewrite Z.mod_pow2_bits_high, Z.lxor_spec, !Z.mod_pow2_bits_high by lia. reflexivity.
Qed.

Lemma low_of_64 : forall x, (x mod two64) mod 4294967296 = x mod 4294967296.
Proof.
  intros x. unfold two64.
  replace 18446744073709551616 with (4294967296 * 4294967296) by reflexivity.
  rewrite Z.rem_mul_r by lia. rewrite (Z.mul_comm 4294967296 (_ mod _)), Z.mod_add by lia. apply Z.mod_mod. lia.
Qed.

Lemma key_inj : forall a b, key_of a = key_of b -> a mod 4294967296 = b mod 4294967296.
Proof.
  intros a b E. unfold key_of in E. apply int32_inj in E. rewrite !atom_hash in E.
  change 4294967296 with (2 ^ 32) in E.
  rewrite !lxor_low in E by (try apply Z.mod_pos_bound; unfold golden; lia || reflexivity).
  apply lxor_cancel in E. change (2 ^ 32) with 4294967296 in E. rewrite !low_of_64 in E. unfold size_t in E.
  rewrite <- !(Zplus_mod_idemp_l (_ mod two64)), !low_of_64, !Zplus_mod_idemp_l in E.
  replace a with (a + atomK - atomK) by lia. replace b with (b + atomK - atomK) by lia.
  rewrite (Zminus_mod (a + atomK)), (Zminus_mod (b + atomK)), E. reflexivity.
Qed.

Lemma key_mod : forall a b, a mod 4294967296 = b mod 4294967296 -> key_of a = key_of b.
Proof.
  intros a b E. unfold key_of. apply int32_mod. rewrite !atom_hash.
  change 4294967296 with (2 ^ 32). rewrite !lxor_low by (try apply Z.mod_pos_bound; unfold golden; lia || reflexivity).
  change (2 ^ 32) with 4294967296. rewrite !low_of_64. unfold size_t.
  rewrite <- !(Zplus_mod_idemp_l (_ mod two64)), !low_of_64, E. reflexivity.
Qed.

(* ---- counting ---- *)
Lemma occ_zero : forall a l, occurrences a l = 0%nat <-> ~ In a l.
Proof.
  intros a l. unfold occurrences. induction l as [|x l IH]; simpl; [tauto|].
  destruct (a =? x) eqn:E; simpl; [apply Z.eqb_eq in E|apply Z.eqb_neq in E].
  - split; [discriminate|]. intros H. exfalso. apply H. auto.
  - rewrite IH. split; intros H; intuition congruence.
Qed.

Lemma occ_one : forall a l, NoDup l -> In a l -> occurrences a l = 1%nat.
Proof.
  intros a l N. unfold occurrences. induction N as [|x l Hx N IH]; simpl; intros H; [contradiction|].
  destruct (a =? x) eqn:E; [apply Z.eqb_eq in E|apply Z.eqb_neq in E].
  - subst. simpl. f_equal. apply (occ_zero x l). assumption.
  - destruct H; [congruence|auto].
Qed.

Lemma occ_remove_nth : forall i a (l : list handle) h, nth_error l i = Some h -> hat h = a ->
  occurrences a (map hat l) = S (occurrences a (map hat (remove_nth i l))).
Proof.
  unfold occurrences. induction i as [|i IH]; intros a l h H E; destruct l as [|x l]; simpl in *; try discriminate.
  - inversion H; subst. rewrite Z.eqb_refl. reflexivity.
  - destruct (a =? hat x); simpl; rewrite (IH a l h H E); reflexivity.
Qed.

Lemma in_remove_nth : forall A i (l : list A) x, In x (remove_nth i l) -> In x l.
Proof.
  induction i as [|i IH]; intros [|y l] x; simpl; auto. intros [H|H]; auto.
Qed.

Lemma in_split_nth : forall A i (l : list A) x y, nth_error l i = Some y -> In x l -> x = y \/ In x (remove_nth i l).
Proof.
  induction i as [|i IH]; intros [|z l] x y H Hx; simpl in *; try discriminate.
  - inversion H; subst. destruct Hx; auto.
  - destruct Hx as [Hx|Hx]; [auto|]. destruct (IH l x y H Hx); auto.
Qed.

(* ---- the invariant ---- *)
Record good (w : world) : Prop := {
  g_handles : forall h, In h (handles w) -> lookup Z.eqb (key_of (hat h)) (dict (tab w)) = Some (hname h);
  g_dict : forall k n, lookup Z.eqb k (dict (tab w)) = Some n ->
    exists p a, lookup Z.eqb k (objs (tab w)) = Some p /\ lookup Z.eqb p (held w) = Some a
      /\ key_of a = k;
  g_inv : inverse_tables (tab w);
  g_objs : forall k p, lookup Z.eqb k (objs (tab w)) = Some p -> lookup Z.eqb k (dict (tab w)) <> None;
  g_cnt : forall k, lookup Z.eqb k (cnt (tab w))
    = match lookup Z.eqb k (dict (tab w)) with Some _ => Some 1 | None => None end;
  g_held : forall p a, lookup Z.eqb p (held w) = Some a -> lookup Z.eqb (key_of a) (objs (tab w)) = Some p;
  g_nodup : NoDup (map fst (held w));
  g_next : forall p a, lookup Z.eqb p (held w) = Some a -> 0 < p < next w;
  g_pos : 0 < next w;
  g_inj : forall a b, live w a -> live w b -> key_of a = key_of b -> a = b
}.

(* Every registered name has a handle. *)
Definition tight (w : world) : Prop :=
  forall k n, lookup Z.eqb k (dict (tab w)) = Some n -> exists a, key_of a = k /\ In (Hd a n) (handles w).

Lemma held_live : forall w p a, lookup Z.eqb p (held w) = Some a -> live w a.
Proof. intros w p a E. left. apply (lookup_in _ zok) in E. apply (in_map snd) in E. assumption. Qed.

Lemma nodup_snd : forall (m : list (Z * Z)), NoDup (map fst m) ->
  (forall p q a, lookup Z.eqb p m = Some a -> lookup Z.eqb q m = Some a -> p = q) -> NoDup (map snd m).
Proof.
  intros m N H.
  assert (G : forall l, incl l m -> NoDup (map fst l) -> NoDup (map snd l)).
  { induction l as [|[p a] l IH]; simpl; intros I Nl; [constructor|]. inversion Nl; subst.
    constructor; [|apply IH; [intros x Hx; apply I; simpl; auto|assumption]].
    intros Ha. apply in_map_iff in Ha. destruct Ha as ([q b] & E & Hq). simpl in E. subst b.
    assert (p = q).
    { apply (H p q a); apply (in_lookup _ zok); auto; apply I; simpl; auto. }
    subst q. apply H2. apply (in_map fst) in Hq. assumption. }
  apply G; [apply incl_refl|assumption].
Qed.

Lemma good_held_once : forall w p a, good w -> lookup Z.eqb p (held w) = Some a ->
  occurrences a (map snd (held w)) = 1%nat.
Proof.
  intros w p a G E. apply occ_one.
  - apply nodup_snd; [apply G|]. intros q q' b E1 E2.
    apply (g_held _ G) in E1. apply (g_held _ G) in E2. congruence.
  - apply (lookup_in _ zok) in E. apply (in_map snd) in E. assumption.
Qed.

Lemma good_pointer : forall w h, good w -> In h (handles w) ->
  exists p, lookup Z.eqb (key_of (hat h)) (objs (tab w)) = Some p /\ lookup Z.eqb p (held w) = Some (hat h) /\ p <> 0.
Proof.
  intros w h G H. destruct (g_dict _ G _ _ (g_handles _ G _ H)) as (p & a & E1 & E2 & E3).
  assert (a = hat h).
  { apply (g_inj _ G); [| |assumption].
    - eapply held_live; eauto.
    - right. apply in_map. assumption. }
  subst a. exists p. pose proof (g_next _ G _ _ E2). repeat split; auto. lia.
Qed.

Lemma good_use : forall w h, good w -> In h (handles w) ->
  use_count w (hat h) = S (occurrences (hat h) (map hat (handles w))).
Proof.
  intros w h G H. destruct (good_pointer w h G H) as (p & _ & E & _).
  unfold use_count. rewrite (good_held_once w p _ G E). reflexivity.
Qed.

Lemma good_same_name : forall w h h', good w -> In h (handles w) -> In h' (handles w) ->
  (hname h = hname h' <-> hat h = hat h').
Proof.
  intros w h h' G H H'. pose proof (g_handles _ G _ H) as E. pose proof (g_handles _ G _ H') as E'. split; intros X.
  - apply (g_inj _ G); [right; apply in_map; assumption|right; apply in_map; assumption|].
    rewrite X in E. apply (g_inv _ G) in E. apply (g_inv _ G) in E'. congruence.
  - rewrite X in E. congruence.
Qed.

Lemma good_start : good world0.
Proof.
  constructor; cbn; try (intros; discriminate); try (intros; contradiction); auto; try lia.
  - intros k n. cbn. split; discriminate.
  - constructor.
  - intros a b [H|H]; cbn in H; contradiction.
Qed.

Lemma good_add : forall w h, good w -> lookup Z.eqb (key_of (hat h)) (dict (tab w)) = Some (hname h) ->
  live w (hat h) -> good (add_handle w h).
Proof.
  intros w h G H L. destruct G as [A B C D E F N X P I]. constructor; cbn [add_handle tab held next handles]; auto.
  - intros h' [<-|H']; auto.
  - assert (Lv : forall a, live (add_handle w h) a -> live w a).
    { intros a [La|La]; [left; assumption|]. simpl in La. destruct La as [<-|La]; [assumption|right; assumption]. }
    intros a b La Lb. apply I; auto.
Qed.

Lemma tight_add : forall w h, tight w -> tight (add_handle w h).
Proof. intros w h T k n E. destruct (T k n E) as (a & Ea & Ha). exists a. simpl. auto. Qed.

Lemma good_create : forall w n a, good w -> apart w a -> exists w' h,
  create w n a = Ok w' /\ handles w' = h :: handles w /\ hname h = n /\ good w' /\ (tight w -> tight w').
Proof.
  intros w n a G Ap. unfold create, check_by_name, has.
  destruct (lookup String.eqb n (inv (tab w))) as [k|] eqn:En.
  - unfold get_by_name. rewrite En. pose proof (proj2 (g_inv _ G k n) En) as Ek.
    destruct (g_dict _ G _ _ Ek) as (p & b & E1 & E2 & E3).
    unfold get_object. rewrite E1. unfold deref. pose proof (g_next _ G _ _ E2).
    destruct (p =? 0) eqn:E0; [lia|]. cbn [with_tab held]. rewrite E2. cbn [bind].
    replace (with_tab w (tab w)) with w by (destruct w; reflexivity).
    exists (add_handle w (Hd b n)), (Hd b n). split; [reflexivity|]. split; [reflexivity|]. split; [reflexivity|].
    split; [|apply tight_add]. apply good_add; [assumption|cbn [hat hname]; rewrite E3; assumption|].
    eapply held_live; eauto.
  - exists (add_handle (register w n a) (Hd a n)), (Hd a n). split; [reflexivity|]. split; [reflexivity|].
    split; [reflexivity|].
    assert (Tg : tight w -> tight (add_handle (register w n a) (Hd a n))).
    { intros T k m. cbn [add_handle register tab handles].
      rewrite (proj1 (put_entries (tab w) (key_of a) n (next w))). destruct (k =? key_of a) eqn:Ek.
      - apply Z.eqb_eq in Ek. intros Em. inversion Em; subst. exists a. simpl. auto.
      - intros Em. destruct (T k m Em) as (b & Eb & Hb). exists b. simpl. auto. }
    split; [clear Tg|exact Tg].
    assert (Nk : lookup Z.eqb (key_of a) (dict (tab w)) = None).
    { destruct (lookup Z.eqb (key_of a) (dict (tab w))) as [m|] eqn:E; [|reflexivity]. exfalso.
      destruct (g_dict _ G _ _ E) as (p & b & _ & E2 & E3).
      apply (Ap b); [eapply held_live; eauto|]. symmetry. apply key_inj. assumption. }
    assert (Np : lookup Z.eqb (next w) (held w) = None).
    { destruct (lookup Z.eqb (next w) (held w)) eqn:E; [|reflexivity]. pose proof (g_next _ G _ _ E). lia. }
    destruct (put_entries (tab w) (key_of a) n (next w)) as (P1 & P2 & P3 & P4).
    destruct G as [A B C D E F N X P I].
    constructor; cbn [add_handle register tab held next handles].
    + intros h [<-|H]; cbn [hat hname]; rewrite P1; [rewrite Z.eqb_refl; reflexivity|].
      destruct (key_of (hat h) =? key_of a) eqn:Ek; [|auto]. apply Z.eqb_eq in Ek. specialize (A h H). congruence.
    + intros k m. rewrite P1, P2. destruct (k =? key_of a) eqn:Ek.
      * apply Z.eqb_eq in Ek. intros Em. inversion Em; subst m k. exists (next w), a.
        split; [reflexivity|]. split; [apply (lookup_set_same _ zok)|]. reflexivity.
      * intros Em. destruct (B k m Em) as (p & b & B1 & B2 & B3). exists p, b.
        split; [assumption|]. split; [|assumption].
        rewrite zl_set. destruct (p =? next w) eqn:Ep; [|assumption]. specialize (X p b B2). lia.
    + intros k m. rewrite P1, P3. destruct (k =? key_of a) eqn:Ek, (String.eqb m n) eqn:Em; eqs; subst.
      * split; reflexivity.
      * split; intros H; [congruence|]. apply C in H. congruence.
      * split; intros H; [apply C in H; congruence|]. congruence.
      * apply C.
    + intros k p. rewrite P1, P2. destruct (k =? key_of a); [congruence|]. apply D.
    + intros k. rewrite P4, P1, !E, Nk. destruct (k =? key_of a); reflexivity.
    + intros p b. rewrite zl_set, P2. destruct (p =? next w) eqn:Ep.
      * apply Z.eqb_eq in Ep. intros Eb. inversion Eb; subst. rewrite Z.eqb_refl. reflexivity.
      * intros Eb. specialize (F p b Eb). destruct (key_of b =? key_of a) eqn:Ek; [|assumption].
        apply Z.eqb_eq in Ek. rewrite Ek in F. destruct (D _ _ F). assumption.
    + apply (set_keys _ zok). assumption.
    + intros p b. rewrite zl_set. destruct (p =? next w) eqn:Ep; [lia|]. intros Eb. specialize (X p b Eb). lia.
    + lia.
    + set (w' := add_handle _ _).
      assert (Lv : forall b, live w' b -> b = a \/ live w b).
      { intros b [L|L]; cbn in L.
        - destruct L as [L|L]; [auto|]. right. left. apply in_map_iff in L. destruct L as (x & Ex & Hx).
          apply filter_In in Hx. destruct Hx as (Hx & _). apply in_map_iff. exists x. auto.
        - destruct L as [L|L]; [auto|]. right. right. assumption. }
      intros b c Lb Lc Ek. apply Lv in Lb. apply Lv in Lc.
      destruct Lb as [->|Lb], Lc as [->|Lc]; auto.
      * exfalso. apply (Ap c Lc). apply key_inj. assumption.
      * exfalso. apply (Ap b Lb). symmetry. apply key_inj. assumption.
Qed.

(* what is left when the last handle to the atom a, interned as n through p, goes *)
Definition forget (w : world) (a : Z) (n : string) (p : Z) : world :=
  let t := tab w in let k := key_of a in
  World (Tab (unset Z.eqb k (dict t)) (unset Z.eqb k (objs t)) (unset String.eqb n (inv t)) (unset Z.eqb k (cnt t)))
    (unset Z.eqb p (held w)) (next w) (handles w).

Lemma remove_last : forall w h p, good w -> In h (handles w) -> use_count w (hat h) = 2%nat ->
  lookup Z.eqb (key_of (hat h)) (objs (tab w)) = Some p -> lookup Z.eqb p (held w) = Some (hat h) -> p <> 0 ->
  remove_atom 3 w (key_of (hat h)) = Ok (forget w (hat h) (hname h) p).
Proof.
  intros w h p G H U E1 E2 Np. pose proof (g_handles _ G _ H) as Ed.
  cbn [remove_atom]. rewrite Ed. cbn [objs]. rewrite E1.
  destruct (p =? 0) eqn:E0; [lia|]. cbn [with_tab held tab dict]. rewrite E2.
  match goal with |- context [use_count ?x (hat h)] => assert (U1 : use_count x (hat h) = 2%nat) by exact U end.
  rewrite U1. cbn [Nat.eqb]. cbn [with_tab held tab dict].
  rewrite zl_unset, Z.eqb_refl. cbn [bind tab held next handles]. reflexivity.
Qed.

Lemma good_drop : forall w i h, good w -> nth_error (handles w) i = Some h ->
  exists w', act_on w (Drop i) = Ok w' /\ handles w' = remove_nth i (handles w) /\ good w' /\ (tight w -> tight w').
Proof.
  intros w i h G Hi. pose proof (nth_error_In _ _ Hi) as H. cbn [act_on]. rewrite Hi. unfold destroy.
  pose proof (good_use w h G H) as U. pose proof (occ_remove_nth i _ _ h Hi eq_refl) as O.
  destruct (Nat.eqb (use_count w (hat h)) 2) eqn:E2; [apply Nat.eqb_eq in E2|apply Nat.eqb_neq in E2].
  - destruct (good_pointer w h G H) as (p & P1 & P2 & P3).
    rewrite (remove_last w h p G H E2 P1 P2 P3). cbn [bind forget tab held next handles].
    eexists. split; [reflexivity|]. split; [reflexivity|].
    assert (Z0 : occurrences (hat h) (map hat (remove_nth i (handles w))) = 0%nat) by lia.
    rewrite occ_zero in Z0.
    pose proof (g_handles _ G _ H) as Ed. pose proof (good_held_once _ _ _ G P2) as Once.
    assert (K : forall x, In x (remove_nth i (handles w)) -> key_of (hat x) <> key_of (hat h)).
    { intros x Hx Ek. apply Z0. assert (hat x = hat h) as <-; [|apply in_map; assumption].
      apply (g_inj _ G); [right; apply in_map; eapply in_remove_nth; eauto|right; apply in_map; assumption|assumption]. }
    split.
    2: { intros T k n. cbn [tab dict handles]. rewrite zl_unset. destruct (k =? key_of (hat h)) eqn:Ek; [discriminate|].
         intros En. destruct (T k n En) as (b & Eb & Hb). exists b. split; [assumption|]. apply Z.eqb_neq in Ek.
         destruct (in_split_nth _ _ _ _ _ Hi Hb) as [<-|Hn]; [|assumption]. cbn [hat] in Ek. congruence. }
    destruct G as [A B C D E F N X P I].
    constructor; cbn [tab held next handles dict objs inv cnt].
    + intros x Hx. rewrite zl_unset. pose proof (K x Hx) as Nk. apply Z.eqb_neq in Nk. rewrite Nk.
      apply A. eapply in_remove_nth; eauto.
    + intros k n. rewrite !zl_unset. destruct (k =? key_of (hat h)) eqn:Ek; [discriminate|]. apply Z.eqb_neq in Ek.
      intros En. destruct (B k n En) as (q & b & B1 & B2 & B3). exists q, b. split; [assumption|].
      split; [|assumption].
      rewrite zl_unset. destruct (q =? p) eqn:Eq; [|assumption]. apply Z.eqb_eq in Eq. subst q.
      rewrite P2 in B2. inversion B2. subst b. congruence.
    + intros k n. cbn [dict inv]. rewrite zl_unset, sl_unset.
      destruct (k =? key_of (hat h)) eqn:Ek, (String.eqb n (hname h)) eqn:En; eqs; subst.
      * split; discriminate.
      * split; [discriminate|]. intros Hn. apply C in Hn. congruence.
      * split; [|discriminate]. intros Hn. apply C in Hn. apply C in Ed. congruence.
      * apply C.
    + intros k q. rewrite !zl_unset. destruct (k =? key_of (hat h)); [discriminate|]. apply D.
    + intros k. rewrite !zl_unset. destruct (k =? key_of (hat h)); [reflexivity|]. apply E.
    + intros q b. rewrite !zl_unset. destruct (q =? p) eqn:Eq; [discriminate|]. apply Z.eqb_neq in Eq. intros Hq.
      pose proof (F q b Hq) as Fq. destruct (key_of b =? key_of (hat h)) eqn:Ek; [|assumption].
      apply Z.eqb_eq in Ek. rewrite Ek in Fq. congruence.
    + apply unset_keys. assumption.
    + intros q b. rewrite zl_unset. destruct (q =? p); [discriminate|]. apply X.
    + assumption.
    + set (w' := World _ _ _ _).
      assert (Lv : forall b, live w' b -> live w b).
      { intros b [L|L]; cbn in L.
        - left. apply in_map_iff in L. destruct L as (x & Ex & Hx). apply filter_In in Hx.
          apply in_map_iff. exists x. tauto.
        - right. apply in_map_iff in L. destruct L as (x & Ex & Hx). apply in_map_iff. exists x.
          split; [assumption|]. eapply in_remove_nth; eauto. }
      intros b c Lb Lc. apply I; auto.
  - cbn [bind]. eexists. split; [reflexivity|]. split; [reflexivity|].
    split.
    2: { assert (Still : In (hat h) (map hat (remove_nth i (handles w)))).
         { destruct (in_dec Z.eq_dec (hat h) (map hat (remove_nth i (handles w)))) as [Y|Y]; [assumption|].
           apply occ_zero in Y. lia. }
         assert (Same : In h (remove_nth i (handles w))).
         { apply in_map_iff in Still. destruct Still as (x & Ex & Hx).
           pose proof (in_remove_nth _ _ _ _ Hx) as Hx'.
           pose proof (proj2 (good_same_name w x h G Hx' H) Ex) as En.
           replace h with x; [assumption|]. destruct x, h. cbn in *. congruence. }
         intros T k n Hk. destruct (T k n Hk) as (b & Eb & Hb). exists b. split; [assumption|].
         cbn [handles]. destruct (in_split_nth _ _ _ _ _ Hi Hb) as [<-|Hn]; assumption. }
    destruct G as [A B C D E F N X P I].
    constructor; cbn [tab held next handles]; auto.
    + intros x Hx. apply A. eapply in_remove_nth; eauto.
    + set (w' := World _ _ _ _).
      assert (Lv : forall b, live w' b -> live w b).
      { intros b [L|L]; cbn in L; [left; assumption|].
        right. apply in_map_iff in L. destruct L as (x & Ex & Hx). apply in_map_iff. exists x.
        split; [assumption|]. eapply in_remove_nth; eauto. }
      intros b c Lb Lc. apply I; auto.
Qed.

Lemma in_replace : forall A i (l : list A) x y, In y (firstn i l ++ x :: skipn (S i) l) -> y = x \/ In y l.
Proof.
  intros A i l x y H. apply in_app_or in H. destruct H as [H|[H|H]]; auto; right.
  - rewrite <- (firstn_skipn i l). apply in_or_app. auto.
  - rewrite <- (firstn_skipn (S i) l). apply in_or_app. auto.
Qed.

Lemma good_assign : forall w i j w', good w -> act_on w (Assign i j) = Ok w' -> good w'.
Proof.
  intros w i j w' G E. cbn [act_on] in E. destruct (nth_error (handles w) i) as [h0|] eqn:Ei; [|discriminate].
  destruct (nth_error (handles w) j) as [h|] eqn:Ej; [|discriminate]. apply nth_error_In in Ej.
  apply Ok_inj in E.
  assert (Hh : forall x, In x (handles w') -> In x (handles w)).
  { intros x Hx. subst w'. cbn [handles] in Hx. apply in_replace in Hx. destruct Hx as [->|Hx]; assumption. }
  destruct G as [A B C D Ec F N X P I]. subst w'. constructor; cbn [tab held next]; auto.
  set (w' := World _ _ _ _) in *.
  assert (Lv : forall b, live w' b -> live w b).
  { intros b [L|L]; [left; assumption|]. right. apply in_map_iff in L. destruct L as (x & Ex & Hx).
    apply in_map_iff. exists x. auto. }
  intros b c Lb Lc. apply I; auto.
Qed.

Lemma history_good : forall w, history no_op apart w -> good w.
Proof.
  induction 1 as [|w x w' Hw G Bx Pl E]; [apply good_start|].
  destruct x as [n a|i|i|i j|n a]; cbn [no_op] in Bx; try contradiction.
  - destruct (good_create w n a G) as (w2 & h & E2 & _ & _ & G2 & _); [apply (Pl n); auto|].
    cbn [act_on] in E. rewrite E2 in E. apply Ok_inj in E. subst. assumption.
  - cbn [act_on] in E. destruct (nth_error (handles w) i) as [h|] eqn:Ei; [|discriminate].
    apply nth_error_In in Ei. apply Ok_inj in E. subst. apply good_add; [assumption|apply G; assumption|].
    right. apply in_map. assumption.
  - destruct (nth_error (handles w) i) as [h|] eqn:Ei.
    + destruct (good_drop w i h G Ei) as (w2 & E2 & _ & G2 & _). rewrite E2 in E. apply Ok_inj in E. subst. assumption.
    + cbn [act_on] in E. rewrite Ei in E. discriminate.
  - eapply good_assign; eauto.
Qed.

Lemma history_more : forall (P Q : act -> Prop) place w, (forall x, P x -> Q x) -> history P place w -> history Q place w.
Proof. intros P Q place w H. induction 1; [constructor|]. eapply hist_step; eauto. Qed.

Lemma basic_good : forall w, history basic apart w -> good w.
Proof. intros w H. apply history_good. eapply history_more; [|exact H]. intros [] B; try contradiction; exact I. Qed.

Lemma history_tight : forall w, history basic apart w -> tight w.
Proof.
  induction 1 as [|w x w' Hw T Bx Pl E]; [intros k n H; discriminate|]. pose proof (basic_good w Hw) as G.
  destruct x as [n a|i|i|i j|n a]; cbn [basic] in Bx; try contradiction.
  - destruct (good_create w n a G) as (w2 & h & E2 & _ & _ & _ & T2); [apply (Pl n); auto|].
    cbn [act_on] in E. rewrite E2 in E. apply Ok_inj in E. subst. auto.
  - cbn [act_on] in E. destruct (nth_error (handles w) i) as [h|] eqn:Ei; [|discriminate].
    apply Ok_inj in E. subst. apply tight_add. assumption.
  - destruct (nth_error (handles w) i) as [h|] eqn:Ei.
    + destruct (good_drop w i h G Ei) as (w2 & E2 & _ & _ & T2). rewrite E2 in E. apply Ok_inj in E. subst. auto.
    + cbn [act_on] in E. rewrite Ei in E. discriminate.
Qed.

(* ---- C29 ---- *)
Lemma one_atom_per_name : forall w, history no_op apart w ->
  (forall h h', In h (handles w) -> In h' (handles w) -> (hname h = hname h' <-> hat h = hat h'))
  /\ (forall n a, apart w a -> exists w' h, act_on w (Create n a) = Ok w'
        /\ handles w' = h :: handles w /\ hname h = n)
  /\ (forall i, (i < List.length (handles w))%nat -> exists w', act_on w (Drop i) = Ok w'
        /\ handles w' = remove_nth i (handles w)).
Proof.
  intros w Hw. pose proof (history_good w Hw) as G. split; [|split].
  - intros h h' H H'. apply (good_same_name w); assumption.
  - intros n a Ap. destruct (good_create w n a G Ap) as (w' & h & E1 & E2 & E3 & _). exists w', h. auto.
  - intros i Hi. destruct (nth_error (handles w) i) as [h|] eqn:Ei.
    + destruct (good_drop w i h G Ei) as (w' & E1 & E2 & _). eauto.
    + apply nth_error_None in Ei. lia.
Qed.

(* ---- C31 ---- *)
Lemma table_exact : forall w, history basic apart w ->
  (forall n, check_by_name (tab w) n = true <-> exists h, In h (handles w) /\ hname h = n)
  /\ (forall k, check (tab w) k = true <-> exists h, In h (handles w) /\ key_of (hat h) = k)
  /\ (forall k p, lookup Z.eqb k (objs (tab w)) = Some p ->
        exists h, In h (handles w) /\ key_of (hat h) = k /\ lookup Z.eqb p (held w) = Some (hat h))
  /\ (forall k c, lookup Z.eqb k (cnt (tab w)) = Some c -> c = 1 /\ check (tab w) k = true)
  /\ (forall a, live w a <-> exists h, In h (handles w) /\ hat h = a)
  /\ (handles w = [] -> tab w = empty_table /\ held w = []).
Proof.
  intros w Hw. pose proof (basic_good w Hw) as G. pose proof (history_tight w Hw) as T. clear Hw.
  assert (Hk : forall k, check (tab w) k = true <-> exists h, In h (handles w) /\ key_of (hat h) = k).
  { intros k. unfold check. rewrite has_iff. split.
    - intros (n & En). destruct (T _ _ En) as (a & E3 & E4). exists (Hd a n). auto.
    - intros (h & H & <-). exists (hname h). apply (g_handles _ G). assumption. }
  assert (Hn : forall n, check_by_name (tab w) n = true <-> exists h, In h (handles w) /\ hname h = n).
  { intros n. unfold check_by_name. rewrite has_iff. split.
    - intros (k & Ek). apply (g_inv _ G) in Ek.
      destruct (T _ _ Ek) as (a & E3 & E4). exists (Hd a n). auto.
    - intros (h & H & <-). exists (key_of (hat h)). apply (g_inv _ G). apply (g_handles _ G). assumption. }
  assert (Ho : forall k p, lookup Z.eqb k (objs (tab w)) = Some p ->
        exists h, In h (handles w) /\ key_of (hat h) = k /\ lookup Z.eqb p (held w) = Some (hat h)).
  { intros k p E. destruct (lookup Z.eqb k (dict (tab w))) as [n|] eqn:En.
    - destruct (T _ _ En) as (a & E3 & E4). exists (Hd a n). cbn [hat].
      split; [assumption|]. split; [assumption|].
      destruct (good_pointer w _ G E4) as (q & Q1 & Q2 & _). cbn [hat] in *. rewrite E3 in Q1. congruence.
    - destruct (g_objs _ G _ _ E). assumption. }
  assert (Hc : forall k c, lookup Z.eqb k (cnt (tab w)) = Some c -> c = 1 /\ check (tab w) k = true).
  { intros k c E. rewrite (g_cnt _ G) in E. unfold check, has.
    destruct (lookup Z.eqb k (dict (tab w))); [|discriminate]. inversion E. auto. }
  assert (Hl : forall a, live w a <-> exists h, In h (handles w) /\ hat h = a).
  { intros a. split.
    - intros [L|L].
      + apply in_map_iff in L. destruct L as ([p b] & Eb & L). cbn in Eb. subst b.
        apply (in_lookup _ zok) in L; [|apply G]. pose proof (g_held _ G _ _ L) as Eo.
        destruct (Ho _ _ Eo) as (h & H & _ & E2). exists h. split; [assumption|]. congruence.
      + apply in_map_iff in L. destruct L as (h & E & H). eauto.
    - intros (h & H & <-). right. apply in_map. assumption. }
  split; [exact Hn|]. split; [exact Hk|]. split; [exact Ho|]. split; [exact Hc|]. split; [exact Hl|].
  intros Hh.
  assert (Nk : forall k, lookup Z.eqb k (dict (tab w)) = None).
  { intros k. destruct (lookup Z.eqb k (dict (tab w))) as [n|] eqn:En; [|reflexivity].
    destruct (T _ _ En) as (a & _ & E4). rewrite Hh in E4. destruct E4. }
  assert (E1 : dict (tab w) = []) by (apply (lookup_none_empty _ zok); exact Nk).
  assert (E2 : objs (tab w) = []).
  { apply (lookup_none_empty _ zok). intros k. destruct (lookup Z.eqb k (objs (tab w))) eqn:Ek; [|reflexivity].
    destruct (g_objs _ G _ _ Ek). apply Nk. }
  assert (E3 : inv (tab w) = []).
  { apply (lookup_none_empty _ sok). intros n. destruct (lookup String.eqb n (inv (tab w))) eqn:Ek; [|reflexivity].
    apply (g_inv _ G) in Ek. rewrite Nk in Ek. discriminate. }
  assert (E4 : cnt (tab w) = []).
  { apply (lookup_none_empty _ zok). intros k. rewrite (g_cnt _ G), Nk. reflexivity. }
  assert (E5 : held w = []).
  { apply (lookup_none_empty _ zok). intros p. destruct (lookup Z.eqb p (held w)) eqn:Ek; [|reflexivity].
    apply (g_held _ G) in Ek. rewrite E2 in Ek. discriminate. }
  split; [|assumption]. destruct (tab w). cbn in *. subst. reflexivity.
Qed.
