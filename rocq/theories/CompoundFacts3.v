(* Facts about the construction of compounds: tidy arguments, sequences, set
   rules, leaves. *)
From Coq Require Import ZArith List Bool Lia Sorting Permutation.
From Verif Require Import Base Hash Enums Term TermSpec TermFacts Terms TermsFacts Compound
  CompoundFacts CompoundSpec CompoundFacts2.
Import ListNotations.
Local Open Scope Z_scope.

(* ---- what Step 2 makes of one term on its own ---- *)
Definition entry_of (t : term) : option connector * list term :=
  match category t with Some c => (Some c, components t) | None => (None, [t]) end.

Lemma ascending_sorted l : ascending l <-> sorted l.
Proof. reflexivity. Qed.

Lemma Forall_vf l : Forall var_free l <-> Forall vf l.
Proof. split; intro H; eapply Forall_impl; try exact H; intro; apply vf_iff. Qed.

Lemma fits_faithful c l : fits c l -> faithful (fun x => In x l).
Proof.
  intros [S V _ _ _]. split.
  - intros x Hx. apply vf_iff. eapply Forall_In; eassumption.
  - intros x y Hx Hy E. clear V. induction S as [|z l S IH F]; [destruct Hx|].
    rewrite Forall_forall in F.
    destruct Hx as [->|Hx], Hy as [->|Hy]; [reflexivity | | | apply IH; assumption].
    + apply F in Hy. lia.
    + apply F in Hx. lia.
Qed.

Lemma terms_set_one t : terms_set [t] = [t].
Proof. reflexivity. Qed.

(* The map, flattened back to a list of terms. *)
Definition unmap (m : cmap) : list term := flat_map snd m.

Lemma cat_add_unmap k t m : Permutation (unmap (cat_add k t m)) (t :: unmap m).
Proof.
  induction m as [|[k' l] m IH]; simpl; [reflexivity|].
  destruct (okey_eqb k k'); simpl.
  - rewrite <- app_assoc. simpl. symmetry. apply Permutation_middle.
  - unfold unmap in IH. rewrite IH. symmetry. apply Permutation_middle.
Qed.

Lemma fold_cat_unmap l : forall m,
  Permutation (unmap (fold_left (fun m t => cat_add (category t) t m) l m)) (l ++ unmap m).
Proof.
  induction l as [|t l IH]; simpl; intro m; [reflexivity|].
  rewrite IH. rewrite cat_add_unmap. symmetry. apply Permutation_middle.
Qed.

Lemma categories_unmap l : Permutation (unmap (categories l)) l.
Proof. unfold categories. rewrite fold_cat_unmap. simpl. rewrite app_nil_r. reflexivity. Qed.

Lemma unmap_perm m1 m2 : Permutation m1 m2 -> Permutation (unmap m1) (unmap m2).
Proof.
  induction 1; unfold unmap in *; simpl.
  - reflexivity.
  - apply Permutation_app_head. assumption.
  - rewrite !app_assoc. apply Permutation_app_tail, Permutation_app_comm.
  - etransitivity; eassumption.
Qed.

(* Within a category whose merge does nothing, Step 2 yields the entries of the
   terms one by one. *)
Lemma norm_all_entries parent m :
  Forall (fun e => norm_entry parent e = Ok (map entry_of (snd e))) m ->
  norm_all parent m = Ok (map entry_of (unmap m)).
Proof.
  induction 1 as [|e m He Hm IH]; [reflexivity|]. cbn [norm_all]. rewrite He, IH. cbn [bind].
  unfold unmap. simpl. rewrite map_app. reflexivity.
Qed.

Lemma list_all_equal {A} (l : list A) : NoDup l -> (forall x y, In x l -> In y l -> x = y) ->
  l = [] \/ exists x, l = [x].
Proof.
  intros N H. destruct l as [|x [|y l]]; [left; reflexivity | right; exists x; reflexivity|].
  exfalso. inversion N; subst. assert (x = y) by (apply H; simpl; tauto). subst.
  match goal with H : ~ In _ _ |- _ => apply H; left; reflexivity end.
Qed.

Lemma NoDup_app_both {A} (l1 l2 : list A) : NoDup (l1 ++ l2) -> NoDup l1 /\ NoDup l2.
Proof.
  induction l1 as [|x l1 IH]; simpl; intro N; [split; [constructor | exact N]|].
  inversion N as [|? ? Hx N']; subst. destruct (IH N') as [H1 H2]. split; [| exact H2].
  constructor; [| exact H1]. intro Hin. apply Hx. apply in_or_app. left; exact Hin.
Qed.

Lemma NoDup_entry k l m : NoDup (unmap m) -> In (k, l) m -> NoDup l.
Proof.
  induction m as [|e m IH]; simpl; intros N H; [destruct H|].
  unfold unmap in N. simpl in N. apply NoDup_app_both in N. destruct N as [N1 N2].
  destruct H as [->|H]; [exact N1 | apply IH; assumption].
Qed.

(* The merge of a category leaves a fitting component list alone. *)
Lemma norm_entry_fits parent l (Hf : fits parent l) (Ht : Forall tidy l) e :
  is_commutative parent = true ->
  entry_ok (fun t => In t l) e -> NoDup (snd e) ->
  norm_entry parent e = Ok (map entry_of (snd e)).
Proof.
  intros Hp [H1 [H2 H3]] N. destruct e as [[con|] cs]; simpl in *.
  2: { f_equal. apply map_ext_in. intros t Hin. unfold entry_of.
       rewrite Forall_forall in H2. rewrite (H2 t Hin). reflexivity. }
  assert (Hmap : map entry_of cs = map (fun t => (Some con, components t)) cs).
  { apply map_ext_in. intros t Hin. unfold entry_of.
    rewrite Forall_forall in H2. rewrite (H2 t Hin). reflexivity. }
  assert (Hcon : is_commutative con = true).
  { destruct cs as [|t cs]; [congruence|]. inversion H2; subst.
    match goal with H : category t = _ |- _ => apply category_some in H; destruct H as [? [_ ?]] end.
    assumption. }
  assert (Hne : con <> parent).
  { intros ->. destruct cs as [|t cs]; [congruence|]. inversion H1; inversion H2; subst.
    match goal with H : category t = _ |- _ => apply category_some in H; destruct H as [l' [-> _]] end.
    eapply (fits_unlike _ _ Hf). eassumption. }
  assert (Hsingle : intersection parent -> con = ExtensionalSet \/ con = IntensionalSet ->
            exists c', cs = [Comp con c'] /\ sorted c' /\ Forall vf c').
  { intros Hi Hs. destruct (list_all_equal cs N) as [->|[x ->]].
    - rewrite Forall_forall in H1, H2. intros x y Hx Hy.
      pose proof (H1 x Hx) as Lx. pose proof (H1 y Hy) as Ly.
      apply H2 in Hx, Hy. apply category_some in Hx, Hy.
      destruct Hx as [a [-> _]], Hy as [b [-> _]]. f_equal. eapply (fits_sets _ _ Hf); eauto.
    - congruence.
    - inversion H2; inversion H1; subst.
      match goal with H : category x = _ |- _ => apply category_some in H; destruct H as [a [-> _]] end.
      exists a. split; [reflexivity|].
      assert (T : tidy (Comp con a)) by (eapply Forall_In; [exact Ht|]; assumption).
      inversion T as [t Hn|c l' Hc Hf' _ _]; subst.
      + exfalso. apply Hn. exists con, a. split; [reflexivity|]. destruct Hs as [->| ->]; constructor.
      + split; [apply (fits_ascending _ _ Hf') | apply Forall_vf, (fits_var_free _ _ Hf')]. }
  assert (Hop : forall op c', sorted c' -> Forall vf c' ->
            terms_op op (map (as_terms con) [Comp con c']) = Ok c').
  { intros op c' S V. simpl. unfold terms_unordered. simpl.
    rewrite Hcon, (terms_set_id c') by assumption; reflexivity. }
  assert (G : merge_compounds parent con cs = Ok None \/
              exists c', cs = [Comp con c'] /\ merge_compounds parent con cs = Ok (Some c')).
  { destruct parent, con; try discriminate Hp; try (left; reflexivity); try congruence; right;
    (destruct Hsingle as (c' & -> & S & V); [unfold intersection; tauto | tauto |];
     exists c'; split; [reflexivity|];
     match goal with |- merge_compounds _ ?c _ = _ =>
       unfold merge_compounds; unfold terms_intersection, terms_union;
       change (fun t => {| t_comm := is_commutative c; t_elems := components t |}) with (as_terms c);
       rewrite Hop by assumption; reflexivity end). }
  destruct G as [->|(c' & -> & ->)]; cbn [bind]; rewrite Hmap; reflexivity.
Qed.

(* tidy compounds have a valid length *)
Lemma tidy_valid c l : tidy (Comp c l) -> is_commutative c = true ->
  check_valid c (Z.of_nat (length l)) = true.
Proof.
  intros T Hc. inversion T as [t Hn|c' l' Hs Hf _ Hlen]; subst.
  - exfalso. apply Hn. exists c, l. split; [reflexivity | apply set_like_iff; exact Hc].
  - assert (L1 : (1 <= length l)%nat).
    { destruct (fits_many _ _ Hf) as [H|[t [-> _]]]; simpl; lia. }
    destruct Hlen as [H|[->| ->]].
    + destruct c; try discriminate Hc; unfold check_valid; simpl;
        repeat (match goal with |- context [?a <? ?b] => destruct (Z.ltb_spec a b) end); try lia; reflexivity.
    + unfold check_valid; simpl. destruct (Z.ltb_spec 0 (Z.of_nat (length l))); [reflexivity | lia].
    + unfold check_valid; simpl. destruct (Z.ltb_spec 0 (Z.of_nat (length l))); [reflexivity | lia].
Qed.

Lemma expand_none c l : (forall l', ~ In (Comp c l') l) -> expand_seq c l = l.
Proof.
  induction l as [|t l IH]; simpl; intro H; [reflexivity|].
  destruct (has_connector c t) eqn:E.
  - apply has_connector_iff in E. destruct E as [l' ->]. exfalso. eapply H. left; reflexivity.
  - rewrite IH; [reflexivity|]. intros l' Hin. eapply H. right; exact Hin.
Qed.

Section Tidy.
  Variable ord : cmap -> cmap.
  Hypothesis Ho : any_order ord.

  Lemma collect_entries mk parent : forall l,
    (forall l', ~ In (Comp parent l') l) ->
    Forall tidy l ->
    (forall c l', is_commutative c = true -> In (Comp c l') l -> mk c l' = Ok (Comp c l')) ->
    collect mk parent (map entry_of l) = Ok l.
  Proof.
    induction l as [|t l IH]; intros Hu Ht Hmk; [reflexivity|].
    cbn [map]. rewrite collect_cons. inversion Ht; subst.
    rewrite IH; try assumption.
    2: { intros l' Hin. apply (Hu l'). right; exact Hin. }
    2: { intros c l' Hc Hin. apply Hmk; [exact Hc | right; exact Hin]. }
    assert (E : collect1 mk parent (entry_of t) = Ok [t]); [| rewrite E; reflexivity].
    unfold entry_of, collect1. destruct (category t) as [c|] eqn:C; [|reflexivity].
    apply category_some in C. destruct C as [l' [-> Hc]]. simpl.
    destruct (con_eqb c parent) eqn:Ec.
    { exfalso. apply con_eqb_eq in Ec. subst. apply (Hu l'). left; reflexivity. }
    rewrite tidy_valid by assumption.
    rewrite Hmk; [reflexivity | exact Hc | left; reflexivity].
  Qed.

  (* Building a set-like compound whose flattened arguments fit. *)
  Lemma build_fits : forall n b con ts l, below n ts ->
    set_like con -> flatten_set con ts = l -> fits con l -> Forall tidy l ->
    compound_of_terms ord b con ts = Ok (Comp con l).
  Proof.
    induction n as [n IH] using (well_founded_induction lt_wf).
    intros b con ts l B Hs Hl Hf Ht. apply set_like_iff in Hs as Hc.
    rewrite compound_of_terms_eq by exact Ho. unfold preprocess.
    rewrite (commutative_reducible con Hc), Hc, Hl. cbn [negb].
    assert (Sl : sorted l) by apply (fits_ascending _ _ Hf).
    assert (Vl : Forall vf l) by (apply Forall_vf, (fits_var_free _ _ Hf)).
    assert (Fin : bind (Ok (con, l)) (fun r => let '(c, l0) := r in
              Ok (Comp c (if b then l0 else mk_terms (is_commutative c) l0))) = Ok (Comp con l)).
    { cbn [bind]. destruct b; [reflexivity|]. unfold mk_terms. rewrite Hc, terms_set_id by assumption.
      reflexivity. }
    assert (Hcat : Forall (entry_ok (fun t => In t l)) (ord (categories l))).
    { apply any_order_forall; [exact Ho|]. apply categories_ok. apply Forall_forall. auto. }
    assert (Pu : Permutation (unmap (ord (categories l))) l).
    { etransitivity; [apply unmap_perm, Ho | apply categories_unmap]. }
    assert (Nd : NoDup (unmap (ord (categories l)))).
    { eapply Permutation_NoDup; [apply Permutation_sym; exact Pu | apply sorted_nodup; exact Sl]. }
    assert (Hn : norm_all con (ord (categories l)) = Ok (map entry_of (unmap (ord (categories l))))).
    { apply norm_all_entries. apply Forall_forall. intros [k cs] Hin.
      eapply norm_entry_fits; [exact Hf | exact Ht | exact Hc | |].
      - eapply Forall_In; [exact Hcat | exact Hin].
      - simpl. eapply NoDup_entry; eassumption. }
    rewrite Hn. cbn [bind]. rewrite map_length, (Permutation_length Pu).
    destruct (Nat.ltb 1 (length l)) eqn:L.
    - set (u := unmap (ord (categories l))) in *.
      assert (Hcol : collect (compound_of_terms ord false) con (map entry_of u) = Ok u).
      { apply collect_entries.
        - intros l' Hin. apply (fits_unlike _ _ Hf l'). eapply Permutation_in; eassumption.
        - eapply Permutation_Forall; [apply Permutation_sym; exact Pu | exact Ht].
        - intros c l' Hc' Hin. apply (Permutation_in _ Pu) in Hin.
          assert (T : tidy (Comp c l')) by (eapply Forall_In; [exact Ht | exact Hin]).
          inversion T as [t Hnt|c'' l'' Hs' Hf' Ht' _]; subst.
          { exfalso. apply Hnt. exists c, l'. split; [reflexivity | apply set_like_iff; exact Hc']. }
          destruct n as [|n].
          { apply below_zero in B. subst ts. destruct Hin. }
          pose proof (below_flat con n ts B) as Hd.
          eapply Forall_In in Hd; [| exact Hin]. cbv beta in Hd.
          apply (IH n); [lia | | exact Hs' | | exact Hf' | exact Ht'].
          + apply Forall_forall. intros x Hx. pose proof (depth_component c l' x Hx). lia.
          + rewrite flatten_expand, expand_none by apply (fits_unlike _ _ Hf').
            apply terms_set_id; [apply (fits_ascending _ _ Hf') | apply Forall_vf, (fits_var_free _ _ Hf')]. }
      rewrite Hcol. cbn [bind]. rewrite (Permutation_length Pu), L.
      replace (terms_set u) with l; [exact Fin|].
      rewrite <- (terms_set_id l Sl Vl).
      apply (terms_set_ext (fun x => In x l)); [eapply fits_faithful; exact Hf | | |].
      + apply Forall_forall; auto.
      + apply Forall_forall. intros x Hx. eapply Permutation_in; eassumption.
      + intro x. split; [apply Permutation_in, Permutation_sym; exact Pu | apply Permutation_in; exact Pu].
    - apply Nat.ltb_ge in L.
      destruct (fits_many _ _ Hf) as [H|[t [E Hnt]]]; [lia|].
      rewrite E in *. apply Permutation_sym, Permutation_length_1_inv in Pu. rewrite Pu.
      cbn [map]. unfold entry_of. rewrite (proj2 (category_none t) Hnt). cbn [step4].
      exact Fin.
  Qed.

  Lemma build_fits_args b con args l :
    set_like con -> unfolds con args l -> collision_free (fun t => In t l) -> Forall var_free args ->
    (forall x y, In x args -> In y args -> thash x = thash y -> x = y) ->
    fits con (terms_set l) -> Forall tidy l ->
    compound ord b con args = Ok (Comp con (terms_set l)).
  Proof.
    intros Hs Hu Hcf Hv Hi Hf Ht. apply collision_free_iff in Hcf. apply set_like_iff in Hs as Hc.
    unfold compound, mk_terms. rewrite Hc.
    eapply build_fits; [apply below_fuel_for | exact Hs | | exact Hf | apply terms_set_forall; exact Ht].
    apply unfolds_fun in Hu. subst l. rewrite flatten_expand.
    apply (terms_set_ext (fun t => In t (expand_seq con args))); [exact Hcf | | |].
    - apply Forall_forall. intros x Hx. apply in_flat_map in Hx. destruct Hx as [t [Hin Hx]].
      apply terms_set_in in Hin. apply in_flat_map. exists t; auto.
    - apply Forall_forall; auto.
    - assert (Fa : faithful (fun t => In t args)).
      { split; [| exact Hi]. intros x Hx. apply vf_iff. eapply Forall_In; eassumption. }
      assert (Ea : forall t, In t (terms_set args) <-> In t args).
      { intro t. apply (terms_set_iff (fun t => In t args)); [exact Fa | apply Forall_forall; auto]. }
      intro x. unfold expand_seq. rewrite !in_flat_map.
      split; intros [t [Hin Hx]]; exists t; (split; [apply Ea; exact Hin | exact Hx]).
  Qed.

  (* ---- union rule ---- *)
  Lemma union_rule b par st U sets :
    (par = IntensionalIntersection /\ st = ExtensionalSet) \/
    (par = ExtensionalIntersection /\ st = IntensionalSet) ->
    faithful U -> sets <> [] ->
    Forall (fun t => U t /\ exists m, t = Comp st m /\ Forall U m /\ sorted m) sets ->
    exists l, compound ord b par sets = Ok (Comp st l) /\ sorted l /\
      forall z, In z l <-> exists m, In (Comp st m) sets /\ In z m.
  Proof.
    intros Hp F Hne Hs.
    assert (Hpc : is_commutative par = true) by (destruct Hp as [[-> _]|[-> _]]; reflexivity).
    assert (Hsc : is_commutative st = true) by (destruct Hp as [[_ ->]|[_ ->]]; reflexivity).
    assert (US : Forall U sets) by (eapply Forall_impl; [| exact Hs]; intros t [H _]; exact H).
    unfold compound, mk_terms. rewrite Hpc.
    assert (Est : forall t, In t (terms_set sets) <-> In t sets)
      by (intro t; apply (terms_set_iff U); assumption).
    set (ts := terms_set sets) in *.
    assert (Hts : Forall (fun t => U t /\ exists m, t = Comp st m /\ Forall U m /\ sorted m) ts)
      by (apply terms_set_forall; exact Hs).
    assert (Uts : Forall U ts) by (eapply Forall_impl; [| exact Hts]; intros t [H _]; exact H).
    assert (Sts : sorted ts) by (apply terms_set_sorted; eapply Forall_impl; [apply F | exact US]).
    assert (Nts : ts <> []).
    { destruct sets as [|t sets']; [congruence|]. intro E.
      assert (In t ts) as Hin by (apply Est; left; reflexivity). rewrite E in Hin. destruct Hin. }
    assert (Hflat : flatten_set par ts = ts).
    { rewrite flatten_expand, expand_none.
      - apply terms_set_id; [exact Sts | eapply Forall_impl; [apply F | exact Uts]].
      - intros l' Hin. eapply Forall_In in Hts; [| exact Hin]. destruct Hts as [_ (m & E & _)].
        destruct Hp as [[-> ->]|[-> ->]]; discriminate E. }
    assert (Hcat : categories ts = [(Some st, ts)]).
    { apply categories_single; [exact Nts|]. eapply Forall_impl; [| exact Hts].
      intros t [_ (m & -> & _)]. simpl. rewrite Hsc. reflexivity. }
    rewrite compound_of_terms_eq by exact Ho. unfold preprocess.
    rewrite (commutative_reducible par Hpc), Hpc, Hflat, Hcat, any_order_single by exact Ho.
    cbn [negb norm_all norm_entry].
    assert (Hm : merge_compounds par st ts = bind (terms_union (map (as_terms st) ts)) (fun s => Ok (Some s)))
      by (destruct Hp as [[-> ->]|[-> ->]]; reflexivity).
    rewrite Hm.
    destruct ts as [|t0 ts'] eqn:Ets; [congruence|].
    destruct (terms_union_spec U F (as_terms st t0) (map (as_terms st) ts')) as (s & Eu & Ss & Us & Hin).
    - exact Hsc.
    - apply Forall_forall. intros x Hx. apply in_map_iff in Hx. destruct Hx as [y [<- _]]. exact Hsc.
    - inversion Hts as [|? ? [_ (m & -> & Um & Sm)] _]; subst. split; assumption.
    - apply Forall_forall. intros x Hx. apply in_map_iff in Hx. destruct Hx as [y [<- Hy]].
      inversion Hts as [|? ? _ Hr]; subst. eapply Forall_In in Hr; [| exact Hy].
      destruct Hr as [_ (m & -> & Um & Sm)]. split; assumption.
    - change (map (as_terms st) (t0 :: ts')) with (as_terms st t0 :: map (as_terms st) ts').
      rewrite Eu. cbn [bind app length]. change (Nat.ltb 1 1) with false. cbv iota.
      assert (Vs : Forall vf s) by (eapply Forall_impl; [apply F | exact Us]).
      assert (E4 : step4 par [(Some st, s)] = Ok (st, s)).
      { destruct Hp as [[-> ->]|[-> ->]]; simpl; rewrite terms_set_id by assumption; reflexivity. }
      rewrite E4. cbn [bind]. exists s. split; [|split; [exact Ss|]].
      + destruct b; [reflexivity|]. unfold mk_terms. rewrite Hsc, terms_set_id by assumption. reflexivity.
      + intro z. rewrite Hin. split.
        * intros (u & Hu & Hz).
          assert (Hu' : In u (map (as_terms st) (t0 :: ts'))) by exact Hu.
          apply in_map_iff in Hu'. destruct Hu' as [y [<- Hy]].
          eapply Forall_In in Hts; [| exact Hy]. destruct Hts as [_ (m & -> & _)].
          exists m. split; [apply Est; exact Hy | exact Hz].
        * intros (m & Hm' & Hz). apply Est in Hm'. exists (as_terms st (Comp st m)).
          split; [| exact Hz]. change (In (as_terms st (Comp st m)) (map (as_terms st) (t0 :: ts'))).
          apply in_map. exact Hm'.
  Qed.

  (* ---- intersection rule: right members, wrong connector ---- *)
  Lemma intersection_rule b par st U sets :
    (par = ExtensionalIntersection /\ st = ExtensionalSet) \/
    (par = IntensionalIntersection /\ st = IntensionalSet) ->
    faithful U -> sets <> [] ->
    Forall (fun t => U t /\ exists m, t = Comp st m /\ Forall U m /\ sorted m) sets ->
    exists l, compound ord b par sets = Ok (Comp par l) /\ sorted l /\
      forall z, In z l <-> (forall m, In (Comp st m) sets -> In z m).
  Proof.
    intros Hp F Hne Hs.
    assert (Hpc : is_commutative par = true) by (destruct Hp as [[-> _]|[-> _]]; reflexivity).
    assert (Hsc : is_commutative st = true) by (destruct Hp as [[_ ->]|[_ ->]]; reflexivity).
    assert (US : Forall U sets) by (eapply Forall_impl; [| exact Hs]; intros t [H _]; exact H).
    unfold compound, mk_terms. rewrite Hpc.
    assert (Est : forall t, In t (terms_set sets) <-> In t sets)
      by (intro t; apply (terms_set_iff U); assumption).
    set (ts := terms_set sets) in *.
    assert (Hts : Forall (fun t => U t /\ exists m, t = Comp st m /\ Forall U m /\ sorted m) ts)
      by (apply terms_set_forall; exact Hs).
    assert (Uts : Forall U ts) by (eapply Forall_impl; [| exact Hts]; intros t [H _]; exact H).
    assert (Sts : sorted ts) by (apply terms_set_sorted; eapply Forall_impl; [apply F | exact US]).
    assert (Nts : ts <> []).
    { destruct sets as [|t sets']; [congruence|]. intro E.
      assert (In t ts) as Hin by (apply Est; left; reflexivity). rewrite E in Hin. destruct Hin. }
    assert (Hflat : flatten_set par ts = ts).
    { rewrite flatten_expand, expand_none.
      - apply terms_set_id; [exact Sts | eapply Forall_impl; [apply F | exact Uts]].
      - intros l' Hin. eapply Forall_In in Hts; [| exact Hin]. destruct Hts as [_ (m & E & _)].
        destruct Hp as [[-> ->]|[-> ->]]; discriminate E. }
    assert (Hcat : categories ts = [(Some st, ts)]).
    { apply categories_single; [exact Nts|]. eapply Forall_impl; [| exact Hts].
      intros t [_ (m & -> & _)]. simpl. rewrite Hsc. reflexivity. }
    rewrite compound_of_terms_eq by exact Ho. unfold preprocess.
    rewrite (commutative_reducible par Hpc), Hpc, Hflat, Hcat, any_order_single by exact Ho.
    cbn [negb norm_all norm_entry].
    assert (Hm : merge_compounds par st ts =
                 bind (terms_intersection (map (as_terms st) ts)) (fun s => Ok (Some s)))
      by (destruct Hp as [[-> ->]|[-> ->]]; reflexivity).
    rewrite Hm.
    destruct ts as [|t0 ts'] eqn:Ets; [congruence|].
    destruct (terms_intersection_spec U F (as_terms st t0) (map (as_terms st) ts')) as (s & Eu & Ss & Us & Hin).
    - exact Hsc.
    - apply Forall_forall. intros x Hx. apply in_map_iff in Hx. destruct Hx as [y [<- _]]. exact Hsc.
    - inversion Hts as [|? ? [_ (m & -> & Um & Sm)] _]; subst. split; assumption.
    - apply Forall_forall. intros x Hx. apply in_map_iff in Hx. destruct Hx as [y [<- Hy]].
      inversion Hts as [|? ? _ Hr]; subst. eapply Forall_In in Hr; [| exact Hy].
      destruct Hr as [_ (m & -> & Um & Sm)]. split; assumption.
    - change (map (as_terms st) (t0 :: ts')) with (as_terms st t0 :: map (as_terms st) ts').
      rewrite Eu. cbn [bind app length]. change (Nat.ltb 1 1) with false. cbv iota.
      assert (Vs : Forall vf s) by (eapply Forall_impl; [apply F | exact Us]).
      assert (E4 : step4 par [(Some st, s)] = Ok (par, s)).
      { destruct Hp as [[-> ->]|[-> ->]]; simpl; rewrite terms_set_id by assumption; reflexivity. }
      rewrite E4. cbn [bind]. exists s. split; [|split; [exact Ss|]].
      + destruct b; [reflexivity|]. unfold mk_terms. rewrite Hpc, terms_set_id by assumption. reflexivity.
      + intro z. rewrite Hin. split.
        * intros H m Hm'. apply Est in Hm'. apply (H (as_terms st (Comp st m))).
          change (In (as_terms st (Comp st m)) (map (as_terms st) (t0 :: ts'))). apply in_map. exact Hm'.
        * intros H u Hu. assert (Hu' : In u (map (as_terms st) (t0 :: ts'))) by exact Hu.
          apply in_map_iff in Hu'. destruct Hu' as [y [<- Hy]].
          pose proof Hts as Hts'. eapply Forall_In in Hts'; [| exact Hy]. destruct Hts' as [_ (m & -> & _)].
          apply H. apply Est. exact Hy.
  Qed.

  (* ---- plain connectors and sequences ---- *)
  Lemma plain_build b con args : plain con -> compound ord b con args = Ok (Comp con args).
  Proof.
    intro Hp. apply plain_iff in Hp as Hr.
    assert (Hc : is_commutative con = false) by (destruct Hp; reflexivity).
    unfold compound, compound_of_terms, fuel_for, mk_terms. rewrite Hc, compound_fuel_S.
    unfold preprocess. rewrite Hr. cbn [negb bind]. rewrite Hc. unfold mk_terms.
    destruct b; reflexivity.
  Qed.

  Lemma sequence_build b args :
    compound ord b SequentialEvents args = Ok (Comp SequentialEvents (expand_seq SequentialEvents args)).
  Proof.
    unfold compound, compound_of_terms, fuel_for, mk_terms. rewrite compound_fuel_S.
    unfold preprocess. simpl. destruct b; reflexivity.
  Qed.

  Lemma compound_preserves (P : term -> Prop) :
    down_closed P -> up_closed P -> (forall c l, plain c -> Forall P l -> P (Comp c l)) ->
    (forall l, Forall P l -> P (Comp SequentialEvents (expand_seq SequentialEvents l))) ->
    forall b con args t, Forall P args -> compound ord b con args = Ok t -> P t.
  Proof.
    intros Hd Hu Hp Hq b con args t Ha E.
    destruct (is_commutative con) eqn:Hc.
    - unfold compound, compound_of_terms in E.
      assert (Forall P (mk_terms (is_commutative con) args)) as Hm.
      { rewrite Hc. apply terms_set_forall. exact Ha. }
      destruct (compound_fuel_comm ord Ho P Hd Hu _ _ _ _ _ Hc Hm E) as (c & l & -> & Hc' & Hl).
      apply Hu; assumption.
    - destruct (is_reducible con) eqn:Hr.
      + assert (con = SequentialEvents) as -> by (destruct con; discriminate || reflexivity).
        rewrite sequence_build in E. injection E as <-. apply Hq. exact Ha.
      + apply plain_iff in Hr. rewrite plain_build in E by exact Hr. injection E as <-. apply Hp; assumption.
  Qed.

  Lemma leaves_incl b con args t : compound ord b con args = Ok t ->
    incl (leaves t) (flat_map leaves args).
  Proof.
    intro E. assert (D : forall l (L : list term), Forall (fun t => incl (leaves t) L) l ->
              incl (flat_map leaves l) L).
    { intros l L H x Hx. apply in_flat_map in Hx. destruct Hx as [y [Hy Hx]].
      eapply Forall_In in H; [| exact Hy]. apply H. exact Hx. }
    apply (compound_preserves (fun t => incl (leaves t) (flat_map leaves args))) with (b := b) (con := con) (args := args);
      [ | | | | | exact E].
    - intros c l H. apply Forall_forall. intros x Hx y Hy. apply H. simpl. apply in_flat_map. eauto.
    - intros c l _ H. simpl. apply D. exact H.
    - intros c l _ H. simpl. apply D. exact H.
    - intros l H. simpl. apply D. unfold expand_seq. apply flat_map_forall; [| exact H].
      intros c l0 H0. apply Forall_forall. intros x Hx y Hy. apply H0. simpl. apply in_flat_map. eauto.
    - apply Forall_forall. intros x Hx y Hy. apply in_flat_map. eauto.
  Qed.

  (* Terms made only through the constructors of the library. *)
  Inductive built : term -> Prop :=
  | blt_atom op a : built (Atom op a)
  | blt_var k i : built (Var k i)
  | blt_itv n : built (Itv n)
  | blt_stmt c s p : built s -> built p -> built (Stmt c s p)
  | blt_comp b con args t : Forall built args -> compound ord b con args = Ok t -> built t.

  Lemma built_ind' (P : term -> Prop) :
    (forall op a, P (Atom op a)) -> (forall k i, P (Var k i)) -> (forall n, P (Itv n)) ->
    (forall c s p, P s -> P p -> P (Stmt c s p)) ->
    (forall b con args t, Forall P args -> compound ord b con args = Ok t -> P t) ->
    forall t, built t -> P t.
  Proof.
    intros Ha Hv Hi Hs Hc. fix IH 2. intros t H. destruct H as [op a|k i|n|c s p H1 H2|b con args t H E].
    - apply Ha.
    - apply Hv.
    - apply Hi.
    - apply Hs; apply IH; assumption.
    - eapply Hc; [| exact E]. clear E. induction H; constructor; [apply IH; assumption | assumption].
  Qed.

  Lemma sequences_flat_down : down_closed sequences_flat.
  Proof.
    intros c l H. apply Forall_forall. intros x Hx l1 l2 Hocc. apply H.
    econstructor; eassumption.
  Qed.

  Lemma sequences_flat_comp c l : c <> SequentialEvents -> Forall sequences_flat l ->
    sequences_flat (Comp c l).
  Proof.
    intros Hc H l1 l2 Hocc. inversion Hocc; subst; [congruence|].
    eapply Forall_In in H; [| eassumption]. eapply H. eassumption.
  Qed.

  Lemma built_sequences_flat t : built t -> sequences_flat t.
  Proof.
    revert t. apply built_ind'.
    - intros op a l l' H. inversion H.
    - intros k i l l' H. inversion H.
    - intros n l l' H. inversion H.
    - intros c s p Hs Hp l l' H. inversion H; subst; [eapply Hs | eapply Hp]; eassumption.
    - intros b con args t Ha E.
      eapply (compound_preserves sequences_flat); [apply sequences_flat_down | | | | exact Ha | exact E].
      + intros c l Hc H. apply sequences_flat_comp; [intros ->; discriminate Hc | exact H].
      + intros c l Hc H. apply sequences_flat_comp; [intros ->; inversion Hc | exact H].
      + clear. intros l H.
        assert (Hf : Forall sequences_flat (expand_seq SequentialEvents l))
          by (apply flat_map_forall; [apply sequences_flat_down | exact H]).
        intros l1 l2 Hocc. inversion Hocc; subst.
        * clear Hf Hocc. intro Hin. apply in_flat_map in Hin. destruct Hin as [t [Ht Hx]].
          eapply Forall_In in H; [| exact Ht].
          destruct (has_connector SequentialEvents t) eqn:E.
          -- apply has_connector_iff in E. destruct E as [l' ->]. simpl in Hx.
             apply (H l' l2); [constructor | exact Hx].
          -- destruct Hx as [->|[]]. simpl in E. discriminate E.
        * eapply Forall_In in Hf; [| eassumption]. eapply Hf. eassumption.
  Qed.
End Tidy.
