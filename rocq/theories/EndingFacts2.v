(* Proofs about edited tables: every program keeps the invariant. *)
From Coq Require Import ZArith List Bool String Lia.
From Verif Require Import Base Maps MapsFacts Interning InterningSpec InterningFacts InterningFacts2 Ending EndingSpec
  EndingFacts.
Import ListNotations.
Local Open Scope Z_scope.

(* ---- what forgetting an entry leaves ---- *)
Lemma registered_forget w b n p a : loose w ->
  lookup Z.eqb (key_of b) (objs (tab w)) = Some p -> lookup Z.eqb p (held w) = Some b ->
  (registered (forget w b n p) a <-> registered w a /\ a <> b).
Proof.
  intros G E1 E2. unfold registered. cbn [forget tab held objs]. split.
  - intros (k & q & F1 & F2). rewrite zl_unset in F1. rewrite zl_unset in F2.
    destruct (k =? key_of b) eqn:Ek; [discriminate|]. destruct (q =? p) eqn:Eq; [discriminate|].
    split; [exists k, q; auto|]. intros ->. apply Z.eqb_neq in Eq. apply Eq. apply (l_once _ G q p b); assumption.
  - intros ((k & q & F1 & F2) & N). exists k, q. rewrite !zl_unset.
    destruct (k =? key_of b) eqn:Ek; eqs; [subst; congruence|].
    destruct (q =? p) eqn:Eq; eqs; [subst; congruence|]. auto.
Qed.

Lemma heap_forget w b n p a : loose w -> loose (forget w b n p) -> lookup Z.eqb p (held w) = Some b ->
  (on_heap (forget w b n p) a <-> on_heap w a /\ a <> b).
Proof.
  intros G G' E. rewrite !on_heap_lookup by assumption. cbn [forget held]. split.
  - intros (q & F). rewrite zl_unset in F. destruct (q =? p) eqn:Eq; [discriminate|]. split; [eauto|].
    intros ->. apply Z.eqb_neq in Eq. apply Eq. apply (l_once _ G q p b); assumption.
  - intros ((q & F) & N). exists q. rewrite zl_unset. destruct (q =? p) eqn:Eq; eqs; [subst; congruence|assumption].
Qed.

(* ---- Drop ---- *)
Lemma remove_nth_is A i (l : list A) : remove_nth i l = firstn i l ++ skipn (S i) l.
Proof.
  revert l. induction i as [|i IH]; intros [|x l]; try reflexivity.
  cbn [remove_nth]. rewrite IH. reflexivity.
Qed.

Definition shed (w : world) (i : nat) : world := World (tab w) (held w) (next w) (remove_nth i (handles w)).

Lemma loose_shed w i : loose w -> loose (shed w i).
Proof. intros G. apply loose_handles; [assumption|]. intros h. apply in_remove_nth. Qed.

Lemma drop_either w i h : loose w -> nth_error (handles w) i = Some h ->
  (act_on w (Drop i) = Ok (shed w i) /\ (registered w (hat h) -> in_hand (shed w i) (hat h)))
  \/ (exists n p, lookup Z.eqb (key_of (hat h)) (dict (tab w)) = Some n
        /\ lookup Z.eqb (key_of (hat h)) (objs (tab w)) = Some p /\ lookup Z.eqb p (held w) = Some (hat h)
        /\ act_on w (Drop i) = Ok (shed (forget w (hat h) n p) i) /\ ~ in_hand (shed w i) (hat h)
        /\ loose (forget w (hat h) n p)).
Proof.
  intros G Hi. pose proof (nth_error_In _ _ Hi) as H. cbn [act_on]. rewrite Hi. unfold destroy.
  assert (L : live w (hat h)) by (right; apply in_map; assumption).
  pose proof (occ_remove_nth i _ _ h Hi eq_refl) as O.
  destruct (lookup Z.eqb (key_of (hat h)) (dict (tab w))) as [n|] eqn:Ed.
  - destruct (known_pointer w (hat h) n G L Ed) as (p & P1 & P2 & P3).
    assert (U : use_count w (hat h) = S (S (occurrences (hat h) (map hat (remove_nth i (handles w)))))).
    { unfold use_count. rewrite (loose_held_once w p _ G P2), O. reflexivity. }
    destruct (Nat.eqb (use_count w (hat h)) 2) eqn:E2; [apply Nat.eqb_eq in E2|apply Nat.eqb_neq in E2].
    + right. exists n, p. split; [reflexivity|]. split; [assumption|]. split; [assumption|].
      rewrite (remove_known w _ n p (hat h) G Ed P1 P2 eq_refl). cbn [bind]. split; [reflexivity|].
      split; [|apply loose_forget; assumption]. unfold in_hand. cbn [shed handles]. apply occ_zero. lia.
    + left. cbn [bind]. split; [reflexivity|]. intros _. unfold in_hand. cbn [shed handles].
      destruct (in_dec Z.eq_dec (hat h) (map hat (remove_nth i (handles w)))) as [Y|Y]; [assumption|].
      apply occ_zero in Y. lia.
  - left. split.
    + destruct (Nat.eqb _ 2); [rewrite remove_unknown by assumption|]; reflexivity.
    + intros R. exfalso. apply (proj1 (registered_key w _ G L) R). assumption.
Qed.

(* ---- reset ---- *)
Lemma sweep_ok : forall l w, NoDup (map fst (held w)) ->
  (forall p q a, lookup Z.eqb p (held w) = Some a -> lookup Z.eqb q (held w) = Some a -> p = q) ->
  NoDup (map snd l) -> (forall p, In p (map snd l) -> p <> 0 /\ lookup Z.eqb p (held w) <> None) ->
  exists m, sweep l w = Ok (World (tab w) m (next w) (handles w)) /\ NoDup (map fst m)
    /\ forall p a, lookup Z.eqb p m = Some a <->
         lookup Z.eqb p (held w) = Some a /\ (In p (map snd l) -> in_hand w a).
Proof.
  induction l as [|[k p] l IH]; intros w N O Nl H.
  - exists (held w). split; [destruct w; reflexivity|]. split; [assumption|]. intros p a. cbn. tauto.
  - cbn [sweep map snd] in *. destruct (H p (or_introl eq_refl)) as (Np & Fp). inversion Nl as [|? ? Nin Nl']; subst.
    destruct (p =? 0) eqn:E0; [lia|]. destruct (lookup Z.eqb p (held w)) as [a|] eqn:Ea; [|congruence].
    assert (O1 : occurrences a (map snd (held w)) = 1%nat).
    { apply occ_one; [apply nodup_snd; assumption|]. apply (lookup_in _ zok) in Ea. apply (in_map snd) in Ea. assumption. }
    destruct (Nat.eqb (use_count w a) 1) eqn:Eu; [apply Nat.eqb_eq in Eu|apply Nat.eqb_neq in Eu];
      unfold use_count in Eu; rewrite O1 in Eu.
    + assert (Na : ~ in_hand w a) by (apply occ_zero; lia).
      destruct (IH (World (tab w) (unset Z.eqb p (held w)) (next w) (handles w))) as (m & E & Nm & Hm);
        cbn [tab held next handles] in *.
      * apply unset_keys. assumption.
      * intros q r b. rewrite !zl_unset. destruct (q =? p), (r =? p); try discriminate. apply O.
      * assumption.
      * intros q Hq. destruct (H q (or_intror Hq)) as (Nq & Fq). split; [assumption|].
        rewrite zl_unset. destruct (q =? p) eqn:Eq; [|assumption]. apply Z.eqb_eq in Eq. subst q. contradiction.
      * exists m. split; [assumption|]. split; [assumption|]. intros q b. rewrite Hm, zl_unset.
        unfold in_hand. cbn [handles]. fold (in_hand w b).
        destruct (q =? p) eqn:Eq; eqs.
        -- subst q. split; [intros (X & _); discriminate|]. intros (X & Y). exfalso. apply Na.
           assert (b = a) by congruence. subst b. apply Y. left. reflexivity.
        -- split; intros (X & Y); (split; [assumption|]); [intros [Z|Z]; [congruence|auto]|intros Z; apply Y; right; exact Z].
    + assert (Ia : in_hand w a).
      { unfold in_hand. destruct (in_dec Z.eq_dec a (map hat (handles w))) as [Y|Y]; [assumption|]. apply occ_zero in Y. lia. }
      destruct (IH w N O Nl') as (m & E & Nm & Hm).
      { intros q Hq. apply H. right. exact Hq. }
      exists m. split; [assumption|]. split; [assumption|]. intros q b. rewrite Hm.
      split; intros (X & Y); (split; [assumption|]); [intros [Z|Z]; [subst q; congruence|auto]|intros Z; apply Y; right; exact Z].
Qed.

Lemma objs_lookup w k p : loose w -> (In (k, p) (objs (tab w)) <-> lookup Z.eqb k (objs (tab w)) = Some p).
Proof.
  intros G. split.
  - intros H. apply (in_lookup _ zok); [apply G|assumption].
  - apply (lookup_in _ zok).
Qed.

Lemma entry_atom w k p : loose w -> lookup Z.eqb k (objs (tab w)) = Some p ->
  exists a, lookup Z.eqb p (held w) = Some a /\ key_of a = k.
Proof.
  intros G E. destruct (lookup Z.eqb k (dict (tab w))) as [n|] eqn:En; [|destruct (l_objs _ G _ _ E En)].
  destruct (l_dict _ G _ _ En) as (q & a & F1 & F2 & F3). exists a. split; congruence.
Qed.

Lemma reset_ok w : loose w -> exists w', reset_world w = Ok w' /\ tab w' = empty_table /\ handles w' = handles w
  /\ next w' = next w /\ loose w' /\ forall a, on_heap w' a <-> on_heap w a /\ (registered w a -> in_hand w a).
Proof.
  intros G. unfold reset_world. destruct (sweep_ok (objs (tab w)) w) as (m & E & Nm & Hm).
  - apply G.
  - exact (l_once _ G).
  - apply nodup_snd; [apply G|]. intros k k' p E1 E2.
    destruct (entry_atom w k p G E1) as (a & A1 & A2). destruct (entry_atom w k' p G E2) as (b & B1 & B2). congruence.
  - intros p Hp. apply in_map_iff in Hp. destruct Hp as ([k q] & Eq & Hp). cbn in Eq. subst q.
    apply (objs_lookup w k p G) in Hp. destruct (entry_atom w k p G Hp) as (a & A1 & A2).
    pose proof (l_next _ G _ _ A1). split; [lia|congruence].
  - rewrite E. cbn [bind]. eexists. split; [reflexivity|]. cbn [with_tab tab handles next held].
    split; [reflexivity|]. split; [reflexivity|]. split; [reflexivity|].
    assert (G' : loose (with_tab (World (tab w) m (next w) (handles w)) empty_table)).
    { constructor; cbn [with_tab tab held next handles empty_table dict objs inv cnt lookup]; try discriminate; try constructor.
      - discriminate.
      - discriminate.
      - intros p q a Ep Eq. apply Hm in Ep. apply Hm in Eq. apply (l_once _ G p q a); tauto.
      - assumption.
      - apply Hm in H. pose proof (l_next _ G p a (proj1 H)). lia.
      - apply Hm in H. pose proof (l_next _ G p a (proj1 H)). lia.
      - apply G.
      - assert (Lv : forall x, live (with_tab (World (tab w) m (next w) (handles w)) empty_table) x -> live w x).
        { intros x [L|L]; [left|right; exact L]. cbn in L. apply in_map_iff in L. destruct L as ([p b] & Eb & L).
          cbn in Eb. subst b. apply (in_lookup _ zok) in L; [|assumption]. apply Hm in L. destruct L as (L & _).
          apply (lookup_in _ zok) in L. apply (in_map snd) in L. assumption. }
        intros a b La Lb. apply (l_inj _ G); auto. }
    split; [exact G'|]. intros a. rewrite (on_heap_lookup _ a G'), (on_heap_lookup w a G). cbn [with_tab held]. split.
    + intros (p & Ep). apply Hm in Ep. destruct Ep as (Ep & Hp). split; [eauto|]. intros (k & q & Ek & Eq).
      apply Hp. assert (q = p) by (apply (l_once _ G q p a); assumption). subst q.
      apply (lookup_in _ zok) in Ek. apply (in_map snd) in Ek. assumption.
    + intros ((p & Ep) & R). exists p. apply Hm. split; [assumption|]. intros Hp. apply R.
      apply in_map_iff in Hp. destruct Hp as ([k q] & Eq & Hp). cbn in Eq. subst q.
      apply (objs_lookup w k p G) in Hp. exists k, p. auto.
Qed.

(* ---- any move ---- *)
Lemma loose_move w m w' : loose w -> proper w m -> move_on w m = Ok w' -> loose w'.
Proof.
  intros G Pm E. destruct m as [x|k|n|k|]; cbn [move_on proper] in *.
  - destruct Pm as (Nx & Px). destruct x as [n a|i|i|i j|n a]; cbn [no_op] in Nx; try contradiction.
    + cbn [act_on] in E. destruct (create_either w n a G (Px n a (or_introl eq_refl)))
        as [(k & p & b & _ & _ & _ & _ & _ & E' & G')|(_ & E' & G')];
        rewrite E' in E; apply Ok_inj in E; subst; assumption.
    + cbn [act_on] in E. destruct (nth_error (handles w) i) as [h|] eqn:Ei; [|discriminate].
      apply nth_error_In in Ei. apply Ok_inj in E. subst. apply loose_add; [assumption|right; apply in_map; assumption|].
      intros n. apply (l_handles _ G). assumption.
    + destruct (nth_error (handles w) i) as [h|] eqn:Ei; [|cbn [act_on] in E; rewrite Ei in E; discriminate].
      destruct (drop_either w i h G Ei) as [(E' & _)|(n & p & _ & _ & _ & E' & _ & G')];
        rewrite E' in E; apply Ok_inj in E; subst; apply loose_shed; assumption.
    + cbn [act_on] in E. destruct (nth_error (handles w) i) as [h0|] eqn:Ei; [|discriminate].
      destruct (nth_error (handles w) j) as [h|] eqn:Ej; [|discriminate]. apply nth_error_In in Ej.
      apply Ok_inj in E. subst w'. apply loose_handles; [assumption|]. intros y Hy. apply in_replace in Hy.
      destruct Hy as [->|Hy]; assumption.
  - destruct (remove_either w k G) as [(_ & E')|(n & p & a & _ & _ & _ & _ & E' & G')];
      rewrite E' in E; apply Ok_inj in E; subst; assumption.
  - destruct (named_either w n G) as [(_ & E')|(p & a & _ & _ & _ & _ & E' & G')];
      rewrite E' in E; apply Ok_inj in E; subst; assumption.
  - destruct (erase_either w k G) as [(_ & E')|(n & p & a & _ & _ & _ & _ & E' & G')];
      rewrite E' in E; apply Ok_inj in E; subst; assumption.
  - destruct (reset_ok w G) as (w2 & E' & _ & _ & _ & G' & _). rewrite E' in E. apply Ok_inj in E. subst. assumption.
Qed.

Lemma course_loose w left : course w left -> loose w.
Proof.
  induction 1 as [|w left m w' _ G Pm _ E|w left w' _ G E]; [apply loose_start| |].
  - eapply loose_move; eauto.
  - eapply loose_move; eauto. exact I.
Qed.
