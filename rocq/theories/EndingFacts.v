(* Proofs about edited tables: what stays true of every program. *)
From Coq Require Import ZArith List Bool String Lia.
From Verif Require Import Base Maps MapsFacts Interning InterningSpec InterningFacts InterningFacts2 Ending EndingSpec.
Import ListNotations.
Local Open Scope Z_scope.

Record loose (w : world) : Prop := {
  l_handles : forall h n, In h (handles w) -> lookup Z.eqb (key_of (hat h)) (dict (tab w)) = Some n -> n = hname h;
  l_dict : forall k n, lookup Z.eqb k (dict (tab w)) = Some n ->
    exists p a, lookup Z.eqb k (objs (tab w)) = Some p /\ lookup Z.eqb p (held w) = Some a /\ key_of a = k;
  l_inv : inverse_tables (tab w);
  l_objs : forall k p, lookup Z.eqb k (objs (tab w)) = Some p -> lookup Z.eqb k (dict (tab w)) <> None;
  l_cnt : forall k, lookup Z.eqb k (cnt (tab w))
    = match lookup Z.eqb k (dict (tab w)) with Some _ => Some 1 | None => None end;
  l_once : forall p q a, lookup Z.eqb p (held w) = Some a -> lookup Z.eqb q (held w) = Some a -> p = q;
  l_nodup : NoDup (map fst (held w));
  l_keys : NoDup (map fst (objs (tab w)));
  l_next : forall p a, lookup Z.eqb p (held w) = Some a -> 0 < p < next w;
  l_pos : 0 < next w;
  l_inj : forall a b, live w a -> live w b -> key_of a = key_of b -> a = b
}.

Lemma loose_start : loose world0.
Proof.
  constructor; cbn; try (intros; discriminate); try (intros; contradiction); auto; try lia; try constructor.
  - discriminate.
  - discriminate.
  - intros a b [H|H]; cbn in H; contradiction.
Qed.

Lemma loose_held_once w p a : loose w -> lookup Z.eqb p (held w) = Some a -> occurrences a (map snd (held w)) = 1%nat.
Proof.
  intros G E. apply occ_one.
  - apply nodup_snd; [apply G|]. exact (l_once _ G).
  - apply (lookup_in _ zok) in E. apply (in_map snd) in E. assumption.
Qed.

Lemma on_heap_lookup w a : loose w -> (on_heap w a <-> exists p, lookup Z.eqb p (held w) = Some a).
Proof.
  intros G. unfold on_heap. rewrite in_map_iff. split.
  - intros ([p b] & E & H). cbn in E. subst b. exists p. apply (in_lookup _ zok); [apply G|assumption].
  - intros (p & E). exists (p, a). split; [reflexivity|]. apply (lookup_in _ zok). assumption.
Qed.

(* the table's entry for a living atom *)
Lemma known_pointer w a n : loose w -> live w a -> lookup Z.eqb (key_of a) (dict (tab w)) = Some n ->
  exists p, lookup Z.eqb (key_of a) (objs (tab w)) = Some p /\ lookup Z.eqb p (held w) = Some a /\ p <> 0.
Proof.
  intros G L E. destruct (l_dict _ G _ _ E) as (p & b & E1 & E2 & E3).
  assert (b = a) by (apply (l_inj _ G); [eapply held_live; eauto|assumption|assumption]). subst b.
  exists p. pose proof (l_next _ G _ _ E2). repeat split; auto. lia.
Qed.

Lemma registered_key w a : loose w -> live w a ->
  (registered w a <-> lookup Z.eqb (key_of a) (dict (tab w)) <> None).
Proof.
  intros G L. split.
  - intros (k & p & E1 & E2). pose proof (l_objs _ G _ _ E1) as N.
    destruct (lookup Z.eqb k (dict (tab w))) as [n|] eqn:En; [|congruence].
    destruct (l_dict _ G _ _ En) as (q & b & F1 & F2 & F3).
    assert (q = p) by congruence. subst q. assert (b = a) by congruence. subst b. rewrite F3, En. discriminate.
  - intros N. destruct (lookup Z.eqb (key_of a) (dict (tab w))) as [n|] eqn:En; [|congruence].
    destruct (known_pointer w a n G L En) as (p & E1 & E2 & _). exists (key_of a), p. auto.
Qed.

Lemma registered_heap w a : registered w a -> on_heap w a.
Proof. intros (k & p & _ & E). apply (lookup_in _ zok) in E. apply (in_map snd) in E. assumption. Qed.

Lemma registered_live w a : registered w a -> live w a.
Proof. intros R. left. apply registered_heap. assumption. Qed.

Lemma registered_named w a : loose w ->
  (registered w a <-> exists p n, lookup Z.eqb (key_of a) (objs (tab w)) = Some p
     /\ lookup Z.eqb p (held w) = Some a /\ lookup Z.eqb (key_of a) (dict (tab w)) = Some n).
Proof.
  intros G. split.
  - intros R. pose proof (registered_live w a R) as L. pose proof (proj1 (registered_key w a G L) R) as N.
    destruct (lookup Z.eqb (key_of a) (dict (tab w))) as [n|] eqn:En; [|congruence].
    destruct (known_pointer w a n G L En) as (p & E1 & E2 & _). exists p, n. auto.
  - intros (p & n & E1 & E2 & _). exists (key_of a), p. auto.
Qed.

(* ---- fewer handles, more handles of living atoms ---- *)
Lemma loose_handles w hs : loose w -> (forall h, In h hs -> In h (handles w)) ->
  loose (World (tab w) (held w) (next w) hs).
Proof.
  intros [A B C D E F N K X P I] H. constructor; cbn [tab held next handles]; auto.
  intros a b La Lb. apply I.
  - destruct La as [La|La]; [left; exact La|right]. cbn in La. apply in_map_iff in La. destruct La as (x & Ex & Hx).
    apply in_map_iff. exists x. auto.
  - destruct Lb as [Lb|Lb]; [left; exact Lb|right]. cbn in Lb. apply in_map_iff in Lb. destruct Lb as (x & Ex & Hx).
    apply in_map_iff. exists x. auto.
Qed.

Lemma loose_add w h : loose w -> live w (hat h) ->
  (forall n, lookup Z.eqb (key_of (hat h)) (dict (tab w)) = Some n -> n = hname h) -> loose (add_handle w h).
Proof.
  intros [A B C D E F N K X P I] L Hn. constructor; cbn [add_handle tab held next handles]; auto.
  - intros h' n [<-|H']; auto.
  - assert (Lv : forall a, live (add_handle w h) a -> live w a).
    { intros a [La|La]; [left; assumption|]. simpl in La. destruct La as [<-|La]; [assumption|right; assumption]. }
    intros a b La Lb. apply I; auto.
Qed.

(* ---- Create ---- *)
Lemma loose_register w n a : loose w -> apart w a -> lookup String.eqb n (inv (tab w)) = None ->
  loose (add_handle (register w n a) (Hd a n)).
Proof.
  intros G Ap En.
  assert (Nk : lookup Z.eqb (key_of a) (dict (tab w)) = None).
  { destruct (lookup Z.eqb (key_of a) (dict (tab w))) as [m|] eqn:E; [|reflexivity]. exfalso.
    destruct (l_dict _ G _ _ E) as (p & b & _ & E2 & E3).
    apply (Ap b); [eapply held_live; eauto|]. symmetry. apply key_inj. assumption. }
  assert (Nl : ~ live w a).
  { intros L. apply (Ap a L). reflexivity. }
  assert (Np : lookup Z.eqb (next w) (held w) = None).
  { destruct (lookup Z.eqb (next w) (held w)) eqn:E; [|reflexivity]. pose proof (l_next _ G _ _ E). lia. }
  destruct (put_entries (tab w) (key_of a) n (next w)) as (P1 & P2 & P3 & P4).
  destruct (put_eq (tab w) (key_of a) n (next w)) as (cc & Ep & _).
  destruct G as [A B C D E F N K X P I].
  constructor; cbn [add_handle register tab held next handles].
  - intros h m [<-|H]; cbn [hat hname]; rewrite P1; [rewrite Z.eqb_refl; congruence|].
    destruct (key_of (hat h) =? key_of a) eqn:Ek; [|apply A; assumption]. apply Z.eqb_eq in Ek. exfalso.
    apply (Ap (hat h)); [right; apply in_map; assumption|]. symmetry. apply key_inj. assumption.
  - intros k m. rewrite P1, P2. destruct (k =? key_of a) eqn:Ek.
    + apply Z.eqb_eq in Ek. intros Em. exists (next w), a.
      split; [reflexivity|]. split; [apply (lookup_set_same _ zok)|]. congruence.
    + intros Em. destruct (B k m Em) as (p & b & B1 & B2 & B3). exists p, b.
      split; [assumption|]. split; [|assumption].
      rewrite zl_set. destruct (p =? next w) eqn:Epp; [|assumption]. specialize (X p b B2). lia.
  - intros k m. rewrite P1, P3. destruct (k =? key_of a) eqn:Ek, (String.eqb m n) eqn:Em; eqs; subst.
    + split; reflexivity.
    + split; intros H; [congruence|]. apply C in H. congruence.
    + split; intros H; [apply C in H; congruence|]. congruence.
    + apply C.
  - intros k p. rewrite P1, P2. destruct (k =? key_of a); [congruence|]. apply D.
  - intros k. rewrite P4, P1, !E, Nk. destruct (k =? key_of a); reflexivity.
  - intros p q b. rewrite !zl_set. destruct (p =? next w) eqn:E1, (q =? next w) eqn:E2.
    + intros. lia.
    + intros Hp Hq. exfalso. assert (b = a) by congruence. subst b. apply Nl. eapply held_live; eauto.
    + intros Hp Hq. exfalso. assert (b = a) by congruence. subst b. apply Nl. eapply held_live; eauto.
    + apply F.
  - apply (set_keys _ zok). assumption.
  - rewrite Ep. cbn [objs]. apply (set_keys _ zok). assumption.
  - intros p b. rewrite zl_set. destruct (p =? next w) eqn:E1; [lia|]. intros Eb. specialize (X p b Eb). lia.
  - lia.
  - set (w' := add_handle _ _).
    assert (Lv : forall b, live w' b -> b = a \/ live w b).
    { intros b [L|L]; cbn in L.
      - destruct L as [L|L]; [auto|]. right. left. apply in_map_iff in L. destruct L as (x & Ex & Hx).
        apply filter_In in Hx. destruct Hx as (Hx & _). apply in_map_iff. exists x. auto.
      - destruct L as [L|L]; [auto|]. right. right. assumption. }
    intros b c Lb Lc Ek. apply Lv in Lb. apply Lv in Lc.
    destruct Lb as [->|Lb], Lc as [->|Lc]; auto.
    + exfalso. apply (Ap c Lc). apply key_inj. assumption.
    + exfalso. apply (Ap b Lb). symmetry. apply key_inj. assumption.
Qed.

(* creating: an old atom or a new one *)
Lemma create_either w n a : loose w -> apart w a ->
  (exists k p b, lookup String.eqb n (inv (tab w)) = Some k /\ lookup Z.eqb k (dict (tab w)) = Some n
     /\ lookup Z.eqb k (objs (tab w)) = Some p /\ lookup Z.eqb p (held w) = Some b /\ key_of b = k
     /\ create w n a = Ok (add_handle w (Hd b n)) /\ loose (add_handle w (Hd b n)))
  \/ (lookup String.eqb n (inv (tab w)) = None /\ create w n a = Ok (add_handle (register w n a) (Hd a n))
     /\ loose (add_handle (register w n a) (Hd a n))).
Proof.
  intros G Ap. unfold create, check_by_name, has.
  destruct (lookup String.eqb n (inv (tab w))) as [k|] eqn:En.
  - left. unfold get_by_name. rewrite En. pose proof (proj2 (l_inv _ G k n) En) as Ek.
    destruct (l_dict _ G _ _ Ek) as (p & b & E1 & E2 & E3).
    unfold get_object. rewrite E1. unfold deref. pose proof (l_next _ G _ _ E2).
    destruct (p =? 0) eqn:E0; [lia|]. cbn [with_tab held]. rewrite E2. cbn [bind].
    replace (with_tab w (tab w)) with w by (destruct w; reflexivity).
    exists k, p, b. split; [reflexivity|]. do 4 (split; [assumption|]). split; [reflexivity|]. apply loose_add; [assumption|eapply held_live; eauto|].
    cbn [hat hname]. rewrite E3. congruence.
  - right. split; [reflexivity|]. split; [reflexivity|]. apply loose_register; assumption.
Qed.

(* ---- an entry taken out of the table ---- *)
Lemma loose_forget w a n p : loose w ->
  lookup Z.eqb (key_of a) (dict (tab w)) = Some n ->
  lookup Z.eqb (key_of a) (objs (tab w)) = Some p -> lookup Z.eqb p (held w) = Some a ->
  loose (forget w a n p).
Proof.
  intros G Ed P1 P2. destruct G as [A B C D E F N K X P I].
  constructor; cbn [forget tab held next handles dict objs inv cnt].
  - intros h m H. rewrite zl_unset. destruct (key_of (hat h) =? key_of a); [discriminate|]. apply A. assumption.
  - intros k m. rewrite !zl_unset. destruct (k =? key_of a) eqn:Ek; [discriminate|]. apply Z.eqb_neq in Ek.
    intros En. destruct (B k m En) as (q & b & B1 & B2 & B3). exists q, b. split; [assumption|].
    split; [|assumption].
    rewrite zl_unset. destruct (q =? p) eqn:Eq; [|assumption]. apply Z.eqb_eq in Eq. subst q. congruence.
  - intros k m. cbn [dict inv]. rewrite zl_unset, sl_unset.
    destruct (k =? key_of a) eqn:Ek, (String.eqb m n) eqn:En; eqs; subst.
    + split; discriminate.
    + split; [discriminate|]. intros Hn. apply C in Hn. congruence.
    + split; [|discriminate]. intros Hn. apply C in Hn. apply C in Ed. congruence.
    + apply C.
  - intros k q. rewrite !zl_unset. destruct (k =? key_of a); [discriminate|]. apply D.
  - intros k. rewrite !zl_unset. destruct (k =? key_of a); [reflexivity|]. apply E.
  - intros q r b. rewrite !zl_unset. destruct (q =? p), (r =? p); try discriminate. apply F.
  - apply unset_keys. assumption.
  - apply unset_keys. assumption.
  - intros q b. rewrite zl_unset. destruct (q =? p); [discriminate|]. apply X.
  - assumption.
  - assert (Lv : forall b, live (forget w a n p) b -> live w b).
    { intros b [L|L]; cbn in L; [left|right; assumption].
      apply in_map_iff in L. destruct L as (x & Ex & Hx). apply filter_In in Hx.
      apply in_map_iff. exists x. tauto. }
    intros b c Lb Lc. apply I; auto.
Qed.

Lemma remove_unknown fuel w k : lookup Z.eqb k (dict (tab w)) = None -> remove_atom (S fuel) w k = Ok w.
Proof. intros E. cbn [remove_atom]. rewrite E. reflexivity. Qed.

Lemma remove_known w k n p a : loose w -> lookup Z.eqb k (dict (tab w)) = Some n ->
  lookup Z.eqb k (objs (tab w)) = Some p -> lookup Z.eqb p (held w) = Some a -> key_of a = k ->
  remove_atom 3 w k = Ok (forget w a n p).
Proof.
  intros G Ed E1 E2 Ek. pose proof (l_next _ G _ _ E2) as Np.
  cbn [remove_atom]. rewrite Ed. cbn [objs]. rewrite E1.
  destruct (p =? 0) eqn:E0; [lia|]. cbn [with_tab held tab dict]. rewrite E2.
  destruct (Nat.eqb _ 2).
  - cbn [with_tab held tab dict]. rewrite Ek, zl_unset, Z.eqb_refl. cbn [bind tab held next handles].
    unfold forget. rewrite Ek. reflexivity.
  - cbn [bind tab held next handles]. unfold forget. rewrite Ek. reflexivity.
Qed.

Lemma remove_either w k : loose w ->
  (lookup Z.eqb k (dict (tab w)) = None /\ remove_atom 3 w k = Ok w)
  \/ (exists n p a, lookup Z.eqb k (dict (tab w)) = Some n /\ lookup Z.eqb k (objs (tab w)) = Some p
        /\ lookup Z.eqb p (held w) = Some a /\ key_of a = k
        /\ remove_atom 3 w k = Ok (forget w a n p) /\ loose (forget w a n p)).
Proof.
  intros G. destruct (lookup Z.eqb k (dict (tab w))) as [n|] eqn:Ed.
  - right. destruct (l_dict _ G _ _ Ed) as (p & a & E1 & E2 & E3). exists n, p, a.
    split; [reflexivity|]. do 3 (split; [assumption|]). split; [eapply remove_known; eauto|]. subst k. apply loose_forget; assumption.
  - left. split; [reflexivity|]. apply remove_unknown. assumption.
Qed.

Lemma named_either w n : loose w ->
  (lookup String.eqb n (inv (tab w)) = None /\ remove_named w n = Ok w)
  \/ (exists p a, lookup String.eqb n (inv (tab w)) = Some (key_of a)
        /\ lookup Z.eqb (key_of a) (dict (tab w)) = Some n /\ lookup Z.eqb (key_of a) (objs (tab w)) = Some p
        /\ lookup Z.eqb p (held w) = Some a
        /\ remove_named w n = Ok (forget w a n p) /\ loose (forget w a n p)).
Proof.
  intros G. unfold remove_named. destruct (lookup String.eqb n (inv (tab w))) as [k|] eqn:En.
  - right. pose proof (proj2 (l_inv _ G k n) En) as Ed. destruct (l_dict _ G _ _ Ed) as (p & a & E1 & E2 & E3).
    subst k. exists p, a. split; [reflexivity|]. do 3 (split; [assumption|]). split; [|apply loose_forget; assumption].
    unfold check, has. rewrite Ed, E1. unfold delete_pterm. pose proof (l_next _ G _ _ E2) as Np.
    destruct (p =? 0) eqn:E0; [lia|]. cbn [with_tab held tab dict]. rewrite E2.
    destruct (Nat.eqb _ 2).
    + rewrite remove_unknown; [|cbn [with_tab tab dict]; rewrite zl_unset, Z.eqb_refl; reflexivity].
      cbn [bind tab held next handles dict objs inv cnt]. reflexivity.
    + cbn [bind tab held next handles dict objs inv cnt]. reflexivity.
  - left. auto.
Qed.

(* a table with another count for one key *)
Lemma forget_count w k c a n p : key_of a = k ->
  forget (with_tab w (Tab (dict (tab w)) (objs (tab w)) (inv (tab w)) (set Z.eqb k c (cnt (tab w))))) a n p
  = forget w a n p.
Proof.
  intros E. unfold forget. cbn [with_tab tab dict objs inv cnt held next handles]. rewrite E.
  f_equal. f_equal. unfold set, unset. cbn [filter fst]. rewrite Z.eqb_refl. cbn [negb].
  induction (cnt (tab w)) as [|[x y] m IH]; cbn [filter fst]; [reflexivity|].
  destruct (k =? x) eqn:Ex; cbn [negb filter fst]; [exact IH|]. rewrite Ex. cbn [negb]. f_equal. exact IH.
Qed.

Lemma erase_either w k : loose w ->
  (lookup Z.eqb k (dict (tab w)) = None /\ erase_key w k = Ok w)
  \/ (exists n p a, lookup Z.eqb k (dict (tab w)) = Some n /\ lookup Z.eqb k (objs (tab w)) = Some p
        /\ lookup Z.eqb p (held w) = Some a /\ key_of a = k
        /\ erase_key w k = Ok (forget w a n p) /\ loose (forget w a n p)).
Proof.
  intros G. unfold erase_key, check_count. rewrite (l_cnt _ G).
  destruct (lookup Z.eqb k (dict (tab w))) as [n|] eqn:Ed.
  - right. destruct (l_dict _ G _ _ Ed) as (p & a & E1 & E2 & E3). exists n, p, a.
    split; [reflexivity|]. do 3 (split; [assumption|]). split; [|subst k; apply loose_forget; assumption].
    cbn [Z.eqb Z.ltb Z.compare Z.sub Z.add Z.opp Z.pos_sub Pos.compare Pos.compare_cont].
    change (1 - 1 =? 0) with true. cbv iota.
    pose proof (l_next _ G _ _ E2) as Np.
    rewrite <- (forget_count w k (1 - 1) a n p E3).
    cbn [remove_atom]. cbn [with_tab tab dict objs inv cnt held]. rewrite Ed, E1.
    destruct (p =? 0) eqn:E0; [lia|]. cbn [with_tab held tab dict]. rewrite E2.
    destruct (Nat.eqb _ 2).
    + cbn [with_tab held tab dict]. rewrite E3, zl_unset, Z.eqb_refl. cbn [bind tab held next handles].
      unfold forget. rewrite E3. reflexivity.
    + cbn [bind tab held next handles]. unfold forget. rewrite E3. reflexivity.
  - left. split; [reflexivity|]. cbn. destruct w as [[? ? ? ?] ? ? ?]. reflexivity.
Qed.
