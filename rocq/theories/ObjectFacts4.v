(* All objects a program can make satisfy the invariant. *)
From Coq Require Import ZArith List Bool Lia Sorting.
From Verif Require Import Base Hash Enums Term TermSpec TermFacts CompoundSpec Terms
  IndexVar Object ObjectSpec ObjectFacts ObjectFacts2 ObjectFacts3.
Import ListNotations.

Lemma lists_empty : forall h n, empty_node h n -> lists_are h n [] [].
Proof. intros h n (A & B & _). unfold lists_are. rewrite A, B. repeat split. constructor. Qed.

Lemma empty_iv_empty : forall h n, node h n = empty_iv -> empty_node h n.
Proof. intros h n E. unfold empty_node. rewrite E. repeat split. Qed.

Lemma new_atom_spec : forall h b, ext h (fst (new_atom h b)) /\ wf (fst (new_atom h b)) (snd (new_atom h b)).
Proof.
  intros h b. unfold new_atom. destruct (new_term h) as [[h1 id] ivs] eqn:En.
  destruct (new_term_spec _ _ _ _ En) as (X & Eid & Enx & Ec & Ei & L & N). cbn [fst snd].
  split; [exact X|]. constructor; [|intros x []].
  assert (Em : forall n, length (nodes h) <= n -> lists_are h1 n [] []).
  { intros n Hn. apply lists_empty, empty_iv_empty, N, Hn. }
  constructor; cbn [hdr h_id h_has_ivar h_has_var h_has_dvar h_has_qvar]; unfold iv_ind, iv_dep, iv_qry; cbn [h_ivs]; rewrite ?Ei; cbn [fst snd].
  - lia.
  - lia.
  - right. rewrite N by lia. reflexivity.
  - apply Em. lia.
  - apply Em. lia.
  - apply Em. lia.
  - exact I.
  - reflexivity.
  - reflexivity.
  - reflexivity.
Qed.

Lemma new_itv_spec : forall h n, ext h (fst (new_itv h n)) /\ wf (fst (new_itv h n)) (snd (new_itv h n)).
Proof.
  intros h n. unfold new_itv. destruct (new_term h) as [[h1 id] ivs] eqn:En.
  destruct (new_term_spec _ _ _ _ En) as (X & Eid & Enx & Ec & Ei & L & N). cbn [fst snd].
  split; [exact X|]. constructor; [|intros x []].
  assert (Em : forall n, length (nodes h) <= n -> lists_are h1 n [] []).
  { intros m Hm. apply lists_empty, empty_iv_empty, N, Hm. }
  constructor; cbn [hdr h_id h_has_ivar h_has_var h_has_dvar h_has_qvar]; unfold iv_ind, iv_dep, iv_qry; cbn [h_ivs]; rewrite ?Ei; cbn [fst snd].
  - lia.
  - lia.
  - right. rewrite N by lia. reflexivity.
  - apply Em. lia.
  - apply Em. lia.
  - apply Em. lia.
  - exact I.
  - reflexivity.
  - reflexivity.
  - reflexivity.
Qed.

Lemma add_here_spec : forall h n i, n < length (nodes h) -> empty_node h n ->
  let h' := add_here h n i in
  frame (apart n) h h' /\ lists_are h' n [i] [[]] /\ iv_successors (node h' n) = []
  /\ iv_indices (node h' n) = [length (cells h)] /\ next_id h' = next_id h
  /\ length (nodes h') = length (nodes h) /\ (forall m, m <> n -> node h' m = node h m)
  /\ cell h' (length (cells h)) = i.
Proof.
  intros h n i Hn (A & B & C) h'.
  assert (Ch : cells h' = cells h ++ [i]) by reflexivity.
  assert (Lh : length (nodes h') = length (nodes h)) by (unfold h', add_here; rewrite set_node_length; reflexivity).
  assert (Off : forall m, m <> n -> node h' m = node h m).
  { intros m Hm. unfold h', add_here. rewrite node_set_other by congruence. reflexivity. }
  assert (Nn : node h' n = IV None [[]] [length (cells h)] (iv_hash (node h n)) false (iv_successors (node h n)) (iv_built (node h n))).
  { unfold h', add_here. rewrite node_set_same by exact Hn. reflexivity. }
  assert (Cc : cell h' (length (cells h)) = i).
  { unfold cell. rewrite Ch, app_nth2, Nat.sub_diag by lia. reflexivity. }
  split.
  { split; [eexists; exact Ch|]. split; [apply Z.le_refl|]. split; [lia|].
    intros m Hm Pm. rewrite Off by assumption. apply lists_same_refl. }
  rewrite Nn. cbn [iv_successors iv_indices].
  split; [|auto 10].
  unfold lists_are. rewrite Nn. cbn [iv_indices iv_positions]. split; [|split; [reflexivity|]].
  - simpl. rewrite Cc. reflexivity.
  - constructor; [|constructor]. rewrite Ch, app_length. simpl. lia.
Qed.

Lemma new_var_spec : forall h k i, ext h (fst (new_var h k i)) /\ wf (fst (new_var h k i)) (snd (new_var h k i)).
Proof.
  intros h k i. unfold new_var. destruct (new_term h) as [[h1 id] ivs] eqn:En.
  destruct (new_term_spec _ _ _ _ En) as (X & Eid & Enx & Ec & Ei & L & N). cbn [fst snd].
  set (d := Hdr _ _ _ _ _ _ _ _ _ _).
  assert (Lk : iv_of k d < length (nodes h1) /\ length (nodes h) <= iv_of k d).
  { unfold iv_of, iv_ind, iv_dep, iv_qry, d. cbn [h_ivs]. rewrite Ei, L. destruct k; cbn; lia. }
  destruct Lk as (Lk & Gk).
  destruct (add_here_spec h1 (iv_of k d) i Lk (empty_iv_empty _ _ (N _ Gk))) as (Fr & La & Ss & Ii & Nx & Ll & Off & Cc).
  set (h2 := add_here h1 (iv_of k d) i) in *.
  split.
  { eapply frame_after; [exact X|exact Fr|]. intros n Hn _. unfold apart. lia. }
  assert (Em : forall n, length (nodes h) <= n -> n <> iv_of k d -> lists_are h2 n [] []).
  { intros n Hn Hm. apply lists_empty, empty_iv_empty. rewrite Off by assumption. apply N, Hn. }
  assert (De : denote h2 (OVar d k) = Var k i).
  { cbn [denote]. rewrite Ii. cbn [hd]. rewrite Cc. reflexivity. }
  constructor; [|intros x []].
  assert (Ea : iv_ind d = length (nodes h)) by (unfold iv_ind, d; cbn [h_ivs]; rewrite Ei; reflexivity).
  assert (Eb : iv_dep d = S (length (nodes h))) by (unfold iv_dep, d; cbn [h_ivs]; rewrite Ei; reflexivity).
  assert (Eq : iv_qry d = S (S (length (nodes h)))) by (unfold iv_qry, d; cbn [h_ivs]; rewrite Ei; reflexivity).
  constructor; cbn [hdr].
  - rewrite Ea, Eb, Eq, Ll. lia.
  - rewrite Nx. unfold d. cbn. lia.
  - right. destruct k; cbn [iv_of] in *; [exact Ss| |]; rewrite Off, Ea, N by lia; reflexivity.
  - rewrite De. destruct k; cbn [iv_of] in *; [exact La|apply Em; lia|apply Em; lia].
  - unfold other_lists. rewrite De. destruct k; cbn [iv_of] in *; [apply Em; lia|exact La|apply Em; lia].
  - unfold other_lists. rewrite De. destruct k; cbn [iv_of] in *; [apply Em; lia|apply Em; lia|exact La].
  - rewrite Ii. discriminate.
  - rewrite De. unfold d. cbn. destruct k; cbn; intros; try reflexivity; discriminate.
  - rewrite De. reflexivity.
  - unfold d. cbn. auto.
Qed.

(* Every part of q' is a copy of a part of q. *)
Definition corr (h h' : heap) (q q' : obj) : Prop :=
  same_fields (hdr q) (hdr q') /\
  (well_ordered (denote h q) -> denote h' q' = denote h q) /\
  forall x, reach q' x -> exists y, reach q y /\ same_fields (hdr y) (hdr x)
    /\ (well_ordered (denote h y) -> denote h' x = denote h y).

Lemma cloned_corr : forall h h' q q', cloned h h' q q' -> corr h h' q q'.
Proof. intros h h' q q' C. split; [exact (cl_fields _ _ _ _ C)|split; [exact (cl_denote _ _ _ _ C)|exact (cl_corr _ _ _ _ C)]]. Qed.

Lemma corr_ext : forall h h1 h2 h3 q q', ext h h1 -> wf h q -> corr h1 h2 q q' ->
  (forall x, reach q' x -> denote h3 x = denote h2 x) -> corr h h3 q q'.
Proof.
  intros h h1 h2 h3 q q' X W (T & D & C) K. split; [assumption|]. split.
  { rewrite K by constructor. rewrite <- (denote_ext h h1 q X W). exact D. }
  intros x R. clear D. destruct (C x R) as (y & Ry & Sf & D).
  exists y. split; [assumption|]. split; [assumption|].
  rewrite K by assumption. rewrite <- (denote_ext h h1 y X) by (eapply wf_reach; eauto). exact D.
Qed.

Lemma corr_refl : forall h q, corr h h q q.
Proof. intros h q. split; [repeat split|]. split; [auto|]. intros x R. exists x. split; [assumption|]. split; [repeat split|]. auto. Qed.

Lemma construct : forall h h0 id ivs h2 o ts,
  new_term h = (h0, id, ivs) -> ext h0 h2 ->
  (forall t, In t ts -> wf h2 t /\ covers (unless3 ivs) t) ->
  h_id (hdr o) = id -> h_ivs (hdr o) = ivs ->
  (exists c, o = OComp (hdr o) c ts) \/ (exists c s p, o = OStmt (hdr o) c s p /\ ts = [s; p]) ->
  h_has_ivar (hdr o) = existsb (fun t => h_has_ivar (hdr t)) ts ->
  h_has_var (hdr o) = existsb (fun t => h_has_var (hdr t)) ts ->
  exists h3, build_indexvars (init_indexvars h2 ivs ts) (hdr o) = Ok h3 /\ ext h h3 /\ wf h3 o
    /\ denote h3 o = denote h2 o
    /\ (forall t x, In t ts -> reach t x -> denote h3 x = denote h2 x).
Proof.
  intros h h0 id ivs h2 o ts En X Hts Eid Eivs Ho Hi Hv.
  destruct (new_term_spec _ _ _ _ En) as (Xh0 & Eid0 & Enx & Ec0 & Eivs0 & L0 & N0).
  destruct (new_term_fresh _ _ _ _ En) as (Fr & Lo & Up & Em).
  assert (Fr2 : fresh3 h2 (h_ivs (hdr o))).
  { rewrite Eivs. pose proof (ext_nodes _ _ X). clear - Fr H. destruct ivs as [[a b] c]. unfold fresh3 in *. lia. }
  assert (En2 : forall n, ~ unless3 (h_ivs (hdr o)) n -> empty_node h2 n).
  { rewrite Eivs. intros n Hn. destruct (Em n Hn) as (_ & Ee). eapply empty_node_ext; [exact X| |exact Ee].
    destruct (lt_dec n (length (nodes h0))) as [|G]; [assumption|]. exfalso. apply Hn. apply Up. lia. }
  destruct (assemble h2 (hdr o) ts Fr2) as (h3 & E3 & _ & _).
  { intros n Hn. apply En2. unfold unless3. fold (iv_ind (hdr o)) (iv_dep (hdr o)) (iv_qry (hdr o)). tauto. }
  { intros t Ht. destruct (Hts t Ht) as (W & C). destruct (wf_here _ _ W) as [(N & _) _ S _ _ _ _ _ _ _].
    split; [assumption|]. split; [|assumption]. rewrite Eivs. apply (C t (reach_self _)). }
  destruct (finish h2 h3 o ts) as (T & W & De & _); auto.
  { rewrite Eivs. exact Hts. }
  { rewrite Eid, Eid0. pose proof (ext_id _ _ X). lia. }
  { rewrite Hi. intros E. assert (G : forall t, In t ts -> indices_in Independent (denote h2 t) = []).
    { intros t Ht. apply (wf_has_ivar _ _ (wf_here _ _ (proj1 (Hts t Ht)))).
      destruct (h_has_ivar (hdr t)) eqn:Et; [|reflexivity].
      rewrite <- E. symmetry. apply existsb_exists. eauto. }
    clear - G. induction ts as [|t ts IH]; [reflexivity|]. simpl. rewrite G by (simpl; auto).
    apply IH. intros; apply G; simpl; auto. }
  { rewrite Hv. clear - Hts. induction ts as [|t ts IH]; [reflexivity|]. simpl.
    rewrite IH by (intros; apply Hts; simpl; auto).
    rewrite (wf_has_var _ _ (wf_here _ _ (proj1 (Hts t (or_introl eq_refl))))). reflexivity. }
  exists h3. rewrite Eivs in E3. split; [exact E3|].
  split; [|split; [assumption|split; [assumption|]]].
  2: { intros t x Ht R. destruct (Hts t Ht) as (Wt & Ct). rewrite Eivs in T.
       apply (denote_frame (unless3 ivs)); [exact (touch_frame _ _ _ T)|eapply wf_reach; eauto|].
       intros w Rw. apply Ct. eapply reach_trans; eauto. }
  eapply frame_after; [eapply ext_trans; [exact Xh0|exact X]|exact (touch_frame _ _ _ T)|].
  intros n Ln _. rewrite Eivs. apply Lo. assumption.
Qed.

Lemma wf_covers : forall h h0 id ivs o, new_term h = (h0, id, ivs) -> wf h o -> covers (unless3 ivs) o.
Proof.
  intros h h0 id ivs o En W x R. destruct (new_term_fresh _ _ _ _ En) as (_ & Lo & _).
  destruct (wf_here _ _ (wf_reach _ _ _ W R)) as [(N1 & N2 & N3) _ _ _ _ _ _ _ _ _]. auto.
Qed.

Lemma new_stmt_spec : forall h c s p b, wf h s -> wf h p ->
  exists h' d s' p', new_stmt h c s p b = Ok (h', OStmt d c s' p') /\ ext h h' /\ wf h' (OStmt d c s' p')
    /\ corr h h' s s' /\ corr h h' p p' /\ (b = true -> s' = s /\ p' = p)
    /\ h_hash d = hash_container [1; 60; h_hash (hdr s'); cop_code c; h_hash (hdr p'); 60; 40; 41; 40; 41; 40; 41]%Z
    /\ h_complexity d = (1 + (h_complexity (hdr s') + h_complexity (hdr p')))%Z
    /\ h_has_var d = h_has_var (hdr s') || h_has_var (hdr p')
    /\ h_has_ivar d = h_has_ivar (hdr s') || h_has_ivar (hdr p')
    /\ h_has_dvar d = h_has_dvar (hdr s') || h_has_dvar (hdr p')
    /\ h_has_qvar d = h_has_qvar (hdr s') || h_has_qvar (hdr p')
    /\ h_is_operation d = h_is_operation (hdr p)
    /\ h_is_higher_order d = cop_higher_order c.
Proof.
  intros h c s p b Ws Wp. unfold new_stmt.
  destruct (new_term h) as [[h0 id] ivs] eqn:En.
  pose proof (new_term_spec _ _ _ _ En) as (Xh0 & _).
  assert (G : exists h2 s' p',
     (bind (if b then Ok (h0, s) else clone h0 s) (fun r1 =>
      bind (if b then Ok (fst r1, p) else clone (fst r1) p) (fun r2 => Ok (fst r2, snd r1, snd r2))))
       = Ok (h2, s', p')
     /\ ext h0 h2 /\ (wf h2 s' /\ covers (unless3 ivs) s') /\ (wf h2 p' /\ covers (unless3 ivs) p')
     /\ (b = true -> s' = s /\ p' = p) /\ corr h h2 s s' /\ corr h h2 p p').
  { destruct b.
    - exists h0, s, p. cbn [bind fst snd]. split; [reflexivity|]. split; [apply frame_refl|].
      split; [split; [eapply wf_ext; eauto|eapply wf_covers; eauto]|].
      split; [split; [eapply wf_ext; eauto|eapply wf_covers; eauto]|].
      split; [auto|]. split; (eapply corr_ext; [exact Xh0|assumption|apply corr_refl|reflexivity]).
    - destruct (clone_spec s h0 (wf_ext _ _ _ Xh0 Ws)) as (h1 & s' & E1 & C1).
      rewrite E1. cbn [bind fst snd]. pose proof (cl_ext _ _ _ _ C1) as X1.
      destruct (clone_spec p h1 (wf_ext _ _ _ (ext_trans _ _ _ Xh0 X1) Wp)) as (h2 & p' & E2 & C2).
      rewrite E2. cbn [bind fst snd]. pose proof (cl_ext _ _ _ _ C2) as X2.
      exists h2, s', p'. split; [reflexivity|]. split; [eapply ext_trans; eauto|].
      split; [split|split; [split|split; [discriminate|split]]].
      + eapply wf_ext; [exact X2|apply C1].
      + eapply cloned_covers; [exact En|exact Ws|apply frame_refl|exact C1].
      + apply C2.
      + eapply cloned_covers; [exact En|exact Wp|exact X1|exact C2].
      + eapply corr_ext; [exact Xh0|assumption|exact (cloned_corr _ _ _ _ C1)|].
        intros x R. apply denote_ext; [assumption|]. eapply wf_reach; [apply C1|assumption].
      + eapply corr_ext; [eapply ext_trans; [exact Xh0|exact X1]|assumption|exact (cloned_corr _ _ _ _ C2)|reflexivity]. }
  destruct G as (h2 & s' & p' & E & X2 & Hs & Hp & Hb & Cs & Cp).
  destruct (if b then Ok (h0, s) else clone h0 s) as [[h1 s1]| | |]; try discriminate E. cbn [bind fst snd] in *.
  destruct (if b then Ok (h1, p) else clone h1 p) as [[h2' p1]| | |]; try discriminate E. cbn [bind fst snd] in *.
  inversion E; subst h2' s1 p1; clear E.
  set (d := Hdr _ _ _ _ _ _ _ _ _ _).
  destruct (construct h h0 id ivs h2 (OStmt d c s' p') [s'; p'] En X2) as (h3 & E3 & X3 & W3 & D3 & K3).
  - intros t [<-|[<-|[]]]; assumption.
  - reflexivity.
  - reflexivity.
  - right. exists c, s', p'. auto.
  - unfold d. cbn. rewrite orb_false_r. reflexivity.
  - unfold d. cbn. rewrite orb_false_r. reflexivity.
  - cbn [hdr] in E3. rewrite E3. cbn [bind]. exists h3, d, s', p'. split; [reflexivity|].
    split; [assumption|]. split; [assumption|].
    split; [|split; [|split; [assumption|repeat split]]].
    + eapply corr_ext; [apply frame_refl|assumption|exact Cs|]. intros x R. apply (K3 s'); simpl; auto.
    + eapply corr_ext; [apply frame_refl|assumption|exact Cp|]. intros x R. apply (K3 p'); simpl; auto.
Qed.

Lemma new_comp_spec : forall h c l b, (forall x, In x l -> wf h x) ->
  exists h' d l', new_comp h c l b = Ok (h', OComp d c l') /\ ext h h' /\ wf h' (OComp d c l')
    /\ (forall t, In t l' -> exists x, In x l /\ corr h h' x t) /\ (b = true -> l' = l)
    /\ h_hash d = hash_container ([2; 40; con_code c] ++ map (fun o => h_hash (hdr o)) l' ++ [41; 40; 41; 40; 41; 40; 41])%Z
    /\ h_complexity d = fold_left (fun sum x => sum + x)%Z (map (fun o => h_complexity (hdr o)) l') 0%Z
    /\ h_has_var d = existsb (fun o => h_has_var (hdr o)) l'
    /\ h_has_ivar d = existsb (fun o => h_has_ivar (hdr o)) l'
    /\ h_has_dvar d = existsb (fun o => h_has_dvar (hdr o)) l'
    /\ h_has_qvar d = existsb (fun o => h_has_qvar (hdr o)) l'
    /\ h_is_operation d = false /\ h_is_higher_order d = false.
Proof.
  intros h c l b Wl. unfold new_comp.
  destruct (new_term h) as [[h0 id] ivs] eqn:En.
  pose proof (new_term_spec _ _ _ _ En) as (Xh0 & _).
  assert (G : exists h2 ts,
     (if b then Ok (h0, l)
      else bind (map_heap clone h0 l) (fun r =>
             Ok (fst r, push_all (fst r) (is_commutative c) (snd r)))) = Ok (h2, ts)
     /\ ext h0 h2 /\ (forall t, In t ts -> wf h2 t /\ covers (unless3 ivs) t)
     /\ (b = true -> ts = l) /\ (forall t, In t ts -> exists x, In x l /\ corr h h2 x t)).
  { destruct b.
    - exists h0, l. split; [reflexivity|]. split; [apply frame_refl|]. split; [|split; [auto|]].
      + intros t Ht. split; [eapply wf_ext; eauto|eapply wf_covers; eauto].
      + intros t Ht. exists t. split; [assumption|].
        eapply corr_ext; [exact Xh0|auto|apply corr_refl|reflexivity].
    - destruct (map_heap_spec clone l h0) as (h2 & l2 & E2 & X2 & C2).
      { intros x Hx. apply clone_spec. }
      { intros x Hx. eapply wf_ext; eauto. }
      rewrite E2. cbn [bind fst snd]. eexists _, _. split; [reflexivity|]. split; [assumption|].
      split; [|split; [discriminate|]];
        intros t Ht; apply push_all_incl in Ht; destruct (Forall2_In_r _ _ _ _ _ _ C2 Ht) as (x & Hx & C).
      + split; [apply C|]. eapply cloned_covers; [exact En|apply Wl, Hx|apply frame_refl|exact C].
      + exists x. split; [assumption|].
        eapply corr_ext; [exact Xh0|auto|exact (cloned_corr _ _ _ _ C)|reflexivity]. }
  destruct G as (h2 & ts & E & X2 & Hts & Hb & Hc). rewrite E. cbn [bind fst snd]. clear E.
  set (d := Hdr _ _ _ _ _ _ _ _ _ _).
  destruct (construct h h0 id ivs h2 (OComp d c ts) ts En X2 Hts) as (h3 & E3 & X3 & W3 & D3 & K3).
  - reflexivity.
  - reflexivity.
  - left. exists c. reflexivity.
  - reflexivity.
  - reflexivity.
  - cbn [hdr] in E3. rewrite E3. cbn [bind]. exists h3, d, ts. split; [reflexivity|].
    split; [assumption|]. split; [assumption|].
    split; [|split; [assumption|repeat split]].
    intros t Ht. destruct (Hc t Ht) as (x & Hx & C). exists x. split; [assumption|].
    eapply corr_ext; [apply frame_refl|auto|exact C|]. intros y R. apply (K3 t); assumption.
Qed.

Lemma step_spec : forall h x, (forall o, In o (uses x) -> wf h o) ->
  exists h' o', step h x = Ok (h', o') /\ ext h h' /\ wf h' o'.
Proof.
  intros h x Hu. destruct x as [b|n|k i|c s p b|c l b|o]; cbn [step uses] in *.
  - destruct (new_atom_spec h b) as (X & W). exists (fst (new_atom h b)), (snd (new_atom h b)).
    rewrite <- surjective_pairing. auto.
  - destruct (new_itv_spec h n) as (X & W). exists (fst (new_itv h n)), (snd (new_itv h n)).
    rewrite <- surjective_pairing. auto.
  - destruct (new_var_spec h k i) as (X & W). exists (fst (new_var h k i)), (snd (new_var h k i)).
    rewrite <- surjective_pairing. auto.
  - destruct (new_stmt_spec h c s p b) as (h' & d & s' & p' & E & X & W & _).
    + apply Hu; simpl; auto.
    + apply Hu; simpl; auto.
    + eexists _, _. eauto.
  - destruct (new_comp_spec h c l b Hu) as (h' & d & l' & E & X & W & _). eexists _, _. eauto.
  - destruct (clone_spec o h (Hu o (or_introl eq_refl))) as (h' & o' & E & C).
    exists h', o'. split; [assumption|]. split; apply C.
Qed.

Lemma gap_ext : forall h n, (next_id h <= n)%Z -> ext h (Heap (cells h) (nodes h) n).
Proof.
  intros h n L. split; [exists []; rewrite app_nil_r; reflexivity|]. split; [assumption|].
  split; [cbn [nodes]; lia|]. intros k _ _. repeat split; auto.
Qed.

Lemma made_wf : forall h pool, made h pool -> forall o, In o pool -> wf h o.
Proof.
  induction 1 as [|h pool x h' o M IH Hu E|h pool n M IH L|h pool o o' M IH Ho Hp]; intros q Hq.
  - contradiction.
  - destruct (step_spec h x) as (h2 & o2 & E2 & X & W).
    + intros y Hy. apply IH, Hu, Hy.
    + rewrite E in E2. inversion E2; subst h2 o2. destruct Hq as [<-|Hq]; [assumption|].
      eapply wf_ext; eauto.
  - eapply wf_ext; [apply gap_ext; assumption|auto].
  - destruct Hq as [<-|Hq]; [|auto]. eapply wf_parts; [apply IH, Ho|assumption].
Qed.

(* ---- consequences used in the properties ---- *)

Lemma made_total : forall h pool x, made h pool -> incl (uses x) pool ->
  exists h' o', step h x = Ok (h', o').
Proof.
  intros h pool x M Hu. destruct (step_spec h x) as (h' & o' & E & _).
  - intros o Ho. eapply made_wf; eauto.
  - eauto.
Qed.

Lemma made_independent : forall h pool o, made h pool -> In o pool ->
  let n := node h (iv_ind (hdr o)) in
  values h (iv_indices n) = indices_in Independent (denote h o)
  /\ map (follow (denote h o)) (iv_positions n)
     = map (fun i => Some (Var Independent i)) (values h (iv_indices n)).
Proof.
  intros h pool o M Ho n. destruct (wf_here _ _ (made_wf _ _ M o Ho)) as [_ _ _ (A & B & _) _ _ _ _ _ _].
  fold n in A, B. split; [assumption|]. rewrite B, A. apply follow_paths.
Qed.

(* What the dependent and query lists really hold. *)
Lemma made_others : forall h pool o, made h pool -> In o pool -> parts o <> [] ->
  values h (iv_indices (node h (iv_dep (hdr o))))
    = (if h_has_dvar (hdr o) then indices_in Independent (denote h o) else [])
  /\ values h (iv_indices (node h (iv_qry (hdr o))))
    = (if h_has_qvar (hdr o) then indices_in Independent (denote h o) else []).
Proof.
  intros h pool o M Ho Hp. destruct (wf_here _ _ (made_wf _ _ M o Ho)) as [_ _ _ _ Ld Lq _ _ _ _].
  unfold other_lists in *. destruct o; simpl in Hp; try congruence; (split; [apply Ld|apply Lq]).
Qed.

Lemma denote_ext_nodes : forall h h' o, nodes h' = nodes h ->
  (forall c, cell_of h o c -> cell h' c = cell h c) -> wf h o -> denote h' o = denote h o.
Proof.
  intros h h' o En. induction o as [o IH] using obj_ind'. intros Hc W.
  assert (IH' : forall x, In x (parts o) -> denote h' x = denote h x).
  { intros x Hx. apply IH; [assumption| |eapply wf_parts; eauto].
    intros c (y & Hy & Hi). apply Hc. exists y. split; [|assumption]. apply reach_cases. right. eauto. }
  destruct o as [d b|d k|d n|d c s p|d c l]; cbn [denote]; auto.
  - destruct (var_cell _ _ _ (wf_here _ _ W)) as (c & Hi & Hh & _ & _).
    assert (Enn : node h' (iv_of k d) = node h (iv_of k d)) by (unfold node; rewrite En; reflexivity).
    rewrite Enn, Hh. f_equal. apply Hc. exists (OVar d k). split; [constructor|].
    unfold own_cells. cbn [hdr]. rewrite !in_app_iff. destruct k; auto.
  - rewrite !IH' by (simpl; auto). reflexivity.
  - f_equal. apply map_ext_in. exact IH'.
Qed.

Lemma wf_cells : forall h o c, wf h o -> cell_of h o c -> c < length (cells h).
Proof.
  intros h o c W (x & R & Hc). destruct (wf_here _ _ (wf_reach _ _ _ W R)) as [_ _ _ Li Ld Lq _ _ _ _].
  unfold own_cells in Hc. rewrite !in_app_iff in Hc.
  assert (B : forall n is ps, lists_are h n is ps -> In c (iv_indices (node h n)) -> c < length (cells h)).
  { intros n is ps (_ & _ & F) Hi. rewrite Forall_forall in F. auto. }
  unfold other_lists in *. destruct Hc as [Hc|[Hc|Hc]].
  - eapply B; [exact Li|exact Hc].
  - destruct x; (eapply B; [exact Ld|exact Hc]).
  - destruct x; (eapply B; [exact Lq|exact Hc]).
Qed.

Lemma cell_set_other : forall h c v c', c' <> c -> cell (set_cell h c v) c' = cell h c'.
Proof. intros. unfold cell, set_cell. cbn [cells]. apply nth_replace_other. congruence. Qed.

Lemma clone_cells_new : forall h h' o o' c, cloned h h' o o' -> cell_of h' o' c -> length (cells h) <= c.
Proof.
  intros h h' o o' c C (x & R & Hc). destruct (cl_share _ _ _ _ C x R) as [(_ & Nv)|[_ _ F _]].
  - rewrite (no_var_no_cells h' x) in Hc; [contradiction|eapply wf_reach; [apply C|exact R]|].
    destruct (has_var (denote h' x)) eqn:E; [|reflexivity]. exfalso. apply Nv. apply (variable_inside_iff h'). assumption.
  - rewrite Forall_forall in F. auto.
Qed.

Lemma cell_of_ext : forall h h' o c, ext h h' -> wf h o -> (cell_of h' o c <-> cell_of h o c).
Proof.
  intros h h' o c X W.
  assert (E : forall x, reach o x -> own_cells h' x = own_cells h x).
  { intros x R. destruct (wf_here _ _ (wf_reach _ _ _ W R)) as [(N1 & N2 & N3) _ _ _ _ _ _ _ _ _].
    destruct X as (_ & _ & _ & D). unfold own_cells. f_equal; [|f_equal]; apply D; auto; exact I. }
  split; intros (x & R & Hc); exists x; (split; [assumption|]); [rewrite <- E|rewrite E]; assumption.
Qed.

Lemma made_clone : forall h pool o h' o',
  made h pool -> In o pool -> step h (Clone o) = Ok (h', o') ->
  same_fields (hdr o) (hdr o')
  /\ (well_ordered (denote h o) -> denote h' o' = denote h o)
  /\ denote h' o = denote h o
  /\ (~ variable_inside o -> o' = o /\ h' = h)
  /\ (forall x, reach o' x -> variable_inside x -> ~ reach o x /\
        forall y q, In q pool -> reach q y -> h_id (hdr x) <> h_id (hdr y))
  /\ (forall x, reach o' x -> ~ variable_inside x -> reach o x)
  /\ (forall c v, cell_of h' o' c -> forall q, In q pool -> denote (set_cell h' c v) q = denote h q)
  /\ (forall c v q, In q pool -> cell_of h' q c -> denote (set_cell h' c v) o' = denote h' o').
Proof.
  intros h pool o h' o' M Ho E. cbn [step] in E.
  pose proof (made_wf _ _ M) as Wp. pose proof (Wp o Ho) as W.
  destruct (clone_spec o h W) as (h2 & o2 & E2 & C). rewrite E in E2. inversion E2; subst h2 o2; clear E2.
  pose proof (cl_ext _ _ _ _ C) as X.
  split; [apply C|]. split; [apply C|]. split; [apply denote_ext; assumption|].
  split.
  { intros Nv. assert (Hv : h_has_var (hdr o) = false).
    { rewrite (wf_has_var _ _ (wf_here _ _ W)). destruct (has_var (denote h o)) eqn:Ev; [|reflexivity].
      exfalso. apply Nv. apply (variable_inside_iff h). assumption. }
    assert (Ec : clone h o = Ok (h, o)) by (destruct o; cbn [hdr] in Hv; cbn [clone hdr]; rewrite Hv; reflexivity).
    rewrite E in Ec. inversion Ec; auto. }
  split.
  { intros x R V. destruct (cl_share _ _ _ _ C x R) as [(_ & Nv)|[A _ _ _]]; [contradiction|].
    assert (G : forall y q, In q pool -> reach q y -> h_id (hdr x) <> h_id (hdr y)).
    { intros y q Hq Ry. pose proof (wf_id _ _ (wf_here _ _ (wf_reach _ _ _ (Wp q Hq) Ry))). lia. }
    split; [|exact G]. intros R'. apply (G x o Ho R'). reflexivity. }
  split.
  { intros x R Nv. destruct (cl_share _ _ _ _ C x R) as [(Rx & _)|[_ _ _ V]]; [assumption|contradiction]. }
  split.
  - intros c v Hc q Hq. pose proof (clone_cells_new _ _ _ _ _ C Hc) as Lc.
    rewrite <- (denote_ext h h' q X (Wp q Hq)).
    apply denote_ext_nodes; [reflexivity| |eapply wf_ext; eauto].
    intros c' Hc'. apply cell_set_other. intros ->.
    apply (cell_of_ext h h' q c X (Wp q Hq)) in Hc'.
    pose proof (wf_cells _ _ _ (Wp q Hq) Hc'). lia.
  - intros c v q Hq Hc. apply denote_ext_nodes; [reflexivity| |apply C].
    intros c' Hc'. apply cell_set_other. intros ->.
    pose proof (clone_cells_new _ _ _ _ _ C Hc') as Lc.
    apply (cell_of_ext h h' q c X (Wp q Hq)) in Hc.
    pose proof (wf_cells _ _ _ (Wp q Hq) Hc). lia.
Qed.
