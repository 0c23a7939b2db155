(* Compounds of solid terms are defined. *)
From Coq Require Import ZArith List Bool Lia Sorting Permutation.
From Verif Require Import Base Hash Enums Term TermSpec TermFacts Terms TermsFacts Compound
  CompoundFacts CompoundSpec CompoundSpec2 CompoundFacts2 CompoundFacts3 TermCases CompoundCases.
Import ListNotations.
Local Open Scope nat_scope.

(* ---- sets with an element ---- *)
Lemma sinsert_some x s : sinsert x s <> [].
Proof. destruct s as [|y s]; cbn [sinsert]; [discriminate|]. destruct (tlt x y), (tlt y x); discriminate. Qed.

Lemma terms_set_some l : l <> [] -> terms_set l <> [].
Proof.
  intro N. unfold terms_set.
  assert (G : forall l s, (l <> [] \/ s <> []) -> fold_left (fun s x => sinsert x s) l s <> []).
  { induction l0 as [|x l0 IH]; intros s H; cbn [fold_left]; [destruct H; [congruence|assumption]|].
    apply IH. right. apply sinsert_some. }
  apply G. left. exact N.
Qed.

Lemma set_union_some l1 l2 : l1 <> [] -> set_union l1 l2 <> [].
Proof.
  intro N. destruct l1 as [|x l1]; [congruence|]. destruct l2 as [|y l2]; [cbn; discriminate|].
  change (set_union (x :: l1) (y :: l2)) with (if tlt x y then x :: set_union l1 (y :: l2)
    else if tlt y x then y :: set_union (x :: l1) l2 else x :: set_union l1 l2).
  destruct (tlt x y); [discriminate|]. destruct (tlt y x); discriminate.
Qed.

Lemma fold_union_some rest : forall acc s, acc <> [] -> fold_terms set_union acc rest = Ok s -> s <> [].
Proof.
  induction rest as [|t rest IH]; intros acc s N E; cbn [fold_terms] in E.
  - injection E as <-. exact N.
  - destruct (t_comm t); [|discriminate E]. eapply IH; [|exact E].
    apply terms_set_some, set_union_some, N.
Qed.

Lemma union_some con cs s : is_commutative con = true -> Forall (fun t => components t <> []) cs ->
  terms_union (map (as_terms con) cs) = Ok s -> s <> [].
Proof.
  intros Hc H E. unfold terms_union, terms_op in E. destruct cs as [|t cs]; [discriminate E|].
  inversion H as [|? ? Ht _]; subst. cbn [map] in E.
  destruct (fold_terms set_union _ _) as [a| | |] eqn:F; try discriminate E. cbn [bind] in E.
  injection E as <-. apply terms_set_some. eapply fold_union_some; [|exact F].
  unfold terms_unordered, as_terms. cbn [t_comm t_elems]. rewrite Hc. exact Ht.
Qed.

(* ---- solid terms ---- *)
Lemma solid_inside c l : is_commutative c = true -> solid (Comp c l) ->
  Forall solid l /\ l <> [] /\ check_valid c (Z.of_nat (length l)) = true.
Proof.
  intros Hc H. apply set_like_iff in Hc. inversion H as [t Hn|c' l' Hs Hl Hne Hm]; subst.
  - exfalso. apply Hn. exists c, l. auto.
  - split; [exact Hl|]. split; [exact Hne|].
    assert (length l <> 0) by (destruct l; [congruence|discriminate]).
    destruct Hm as [H2|[->| ->]].
    + destruct c; try solve [inversion Hs]; unfold check_valid; cbn -[Z.of_nat Z.ltb];
        repeat (match goal with |- context [(?a <? ?b)%Z] => destruct (Z.ltb_spec a b) end); try lia; reflexivity.
    + unfold check_valid; cbn -[Z.of_nat Z.ltb]. destruct (Z.ltb_spec 0 (Z.of_nat (length l))); [reflexivity | lia].
    + unfold check_valid; cbn -[Z.of_nat Z.ltb]. destruct (Z.ltb_spec 0 (Z.of_nat (length l))); [reflexivity | lia].
Qed.

Lemma flatten_solid parent ts : is_commutative parent = true -> Forall solid ts -> ts <> [] ->
  Forall solid (flatten_set parent ts) /\ flatten_set parent ts <> [].
Proof.
  intros Hc H N. unfold flatten_set. split.
  - apply terms_set_forall. apply Forall_forall. intros x Hx. apply in_flat_map in Hx.
    destruct Hx as (t & Hin & Hx). eapply Forall_In in H; [|exact Hin].
    destruct (has_connector parent t) eqn:E.
    + destruct t as [| | | |c l]; try discriminate E. apply con_eqb_eq in E. subst c.
      apply solid_inside in H; [|exact Hc]. destruct H as [H _]. eapply Forall_In; eassumption.
    + destruct Hx as [<-|[]]. exact H.
  - apply terms_set_some. destruct ts as [|t ts]; [congruence|].
    inversion H as [|? ? Ht _]; subst. cbn [flat_map]. intro E. apply app_eq_nil in E. destruct E as [E _].
    destruct (has_connector parent t) eqn:Hh; [|discriminate E].
    destruct t as [| | | |c l]; try discriminate Hh. apply con_eqb_eq in Hh. subst c.
    apply solid_inside in Ht; [|exact Hc]. destruct Ht as (_ & Hne & _). apply Hne. exact E.
Qed.

(* ---- the keys of the map differ ---- *)
Lemma cat_add_keys k t m : map fst (cat_add k t m) = map fst m \/
  (~ In k (map fst m) /\ map fst (cat_add k t m) = map fst m ++ [k]).
Proof.
  induction m as [|[k' l] m IH]; cbn [cat_add map fst]; [right; split; [intros []|reflexivity]|].
  destruct (okey_eqb k k') eqn:E; cbn [map fst]; [left; reflexivity|].
  destruct IH as [->|[N ->]]; [left; reflexivity|]. right. split; [|reflexivity].
  intros [D|D]; [|contradiction]. subst k'.
  assert (okey_eqb k k = true) by (apply okey_eqb_eq; reflexivity). congruence.
Qed.

Lemma categories_keys l : NoDup (map fst (categories l)).
Proof.
  unfold categories.
  assert (G : forall l m, NoDup (map fst m) ->
     NoDup (map fst (fold_left (fun m t => cat_add (category t) t m) l m))).
  { induction l0 as [|t l0 IH]; intros m H; cbn [fold_left]; [exact H|]. apply IH.
    destruct (cat_add_keys (category t) t m) as [->|[N ->]]; [exact H|].
    eapply Permutation_NoDup; [apply Permutation_cons_append|]. constructor; assumption. }
  apply G. constructor.
Qed.

Lemma categories_some l : l <> [] -> categories l <> [].
Proof.
  unfold categories. intro N.
  assert (G : forall l m, l <> [] \/ m <> [] -> fold_left (fun m t => cat_add (category t) t m) l m <> []).
  { induction l0 as [|t l0 IH]; intros m H; cbn [fold_left]; [destruct H; [congruence|assumption]|].
    apply IH. right. destruct m as [|[k' l'] m]; cbn [cat_add]; [discriminate|].
    destruct (okey_eqb _ _); discriminate. }
  apply G. left. exact N.
Qed.

(* ---- what Step 2 hands on ---- *)
Definition handed (e : option connector * list term) : Prop := Forall solid (snd e).

Definition kept (parent : connector) (e : option connector * list term) : Prop :=
  snd e <> [] /\
  forall c, fst e = Some c -> c = parent \/ check_valid c (Z.of_nat (length (snd e))) = true.

(* The sets whose components an intersection intersects. *)
Definition crossing (parent : connector) : option connector :=
  match parent with
  | ExtensionalIntersection => Some ExtensionalSet
  | IntensionalIntersection => Some IntensionalSet
  | _ => None
  end.

Lemma merge_kinds parent con cs : is_commutative parent = true ->
  merge_compounds parent con cs = Ok None \/
  (crossing parent = Some con) \/
  ((con = ExtensionalSet \/ con = IntensionalSet) /\
   merge_compounds parent con cs =
     bind (terms_union (map (as_terms con) cs)) (fun s => Ok (Some s))) \/
  (parent = con /\
   merge_compounds parent con cs =
     Ok (Some (mk_terms (is_commutative con) (flat_map components cs)))).
Proof.
  destruct parent; intro H; try discriminate H; destruct con;
    try (left; reflexivity);
    try (right; left; reflexivity);
    try (right; right; left; split; [tauto|reflexivity]);
    right; right; right; split; reflexivity.
Qed.

Lemma set_valid c n : c = ExtensionalSet \/ c = IntensionalSet -> n <> 0 ->
  check_valid c (Z.of_nat n) = true.
Proof.
  intros [->| ->] H; unfold check_valid; cbn -[Z.of_nat Z.ltb];
    (destruct (Z.ltb_spec 0 (Z.of_nat n)); [reflexivity | lia]).
Qed.

Lemma norm_entry_handed parent e n : is_commutative parent = true -> entry_ok solid e ->
  norm_entry parent e = Ok n ->
  Forall handed n /\ n <> [] /\
  (Forall (kept parent) n \/ (fst e <> None /\ fst e = crossing parent /\ length n = 1)).
Proof.
  intros Hp (H1 & H2 & H3) E. destruct e as [[con|] cs]; cbn [fst snd norm_entry] in *.
  - assert (Hcon : is_commutative con = true).
    { destruct cs as [|t cs]; [congruence|]. inversion H2 as [|? ? Ht _]; subst.
      apply category_some in Ht. destruct Ht as (? & _ & ?). assumption. }
    assert (Hin : Forall (fun t => Forall solid (components t) /\ components t <> [] /\
                    check_valid con (Z.of_nat (length (components t))) = true) cs).
    { rewrite Forall_forall in *. intros t Ht. specialize (H1 t Ht). specialize (H2 t Ht).
      apply category_some in H2. destruct H2 as (l & -> & _). apply solid_inside in H1; assumption. }
    assert (Hs : Forall (fun t => Forall solid (components t)) cs)
      by (eapply Forall_impl; [|exact Hin]; intros t Ht; apply Ht).
    assert (Hne : Forall (fun t => components t <> []) cs)
      by (eapply Forall_impl; [|exact Hin]; intros t Ht; apply Ht).
    destruct (merge_compounds parent con cs) as [[s|]| | |] eqn:M; try discriminate E;
      cbn [bind] in E; injection E as <-.
    + assert (Hh : Forall solid s) by (eapply merge_forall; eassumption).
      split; [repeat constructor; exact Hh|]. split; [discriminate|].
      destruct (merge_kinds parent con cs Hp) as [K|[K|[[K1 K]|[K1 K]]]].
      * congruence.
      * right. split; [discriminate|]. split; [congruence|reflexivity].
      * left. rewrite M in K. destruct (terms_union _) as [u| | |] eqn:U; try discriminate K.
        cbn [bind] in K. injection K as ->.
        pose proof (union_some con cs u Hcon Hne U) as N.
        constructor; [|constructor]. split; [exact N|]. cbn [fst snd]. intros c [= <-]. right.
        apply set_valid; [exact K1|]. destruct u; [congruence|discriminate].
      * left. rewrite M in K. injection K as ->. constructor; [|constructor]. split; cbn [fst snd].
        -- unfold mk_terms. rewrite Hcon. apply terms_set_some.
           destruct cs as [|t cs]; [congruence|]. inversion Hne as [|? ? Ht _]; subst.
           cbn [flat_map]. intro E. apply app_eq_nil in E. tauto.
        -- intros c [= <-]. left. congruence.
    + split; [|split].
      * apply Forall_forall. intros x Hx. apply in_map_iff in Hx. destruct Hx as (t & <- & Ht).
        unfold handed. cbn [snd]. eapply Forall_In in Hs; [exact Hs|exact Ht].
      * destruct cs; [congruence|discriminate].
      * left. apply Forall_forall. intros x Hx. apply in_map_iff in Hx. destruct Hx as (t & <- & Ht).
        eapply Forall_In in Hin; [|exact Ht]. cbv beta in Hin. split; cbn [fst snd]; [tauto|].
        intros c [= <-]. tauto.
  - injection E as <-. split; [|split].
    + apply Forall_forall. intros x Hx. apply in_map_iff in Hx. destruct Hx as (t & <- & Ht).
      unfold handed. cbn [snd]. apply terms_set_forall. constructor; [|constructor]. eapply Forall_In; eassumption.
    + destruct cs; [congruence|discriminate].
    + left. apply Forall_forall. intros x Hx. apply in_map_iff in Hx. destruct Hx as (t & <- & Ht).
      split; cbn [fst snd]; discriminate.
Qed.

Lemma norm_all_cons parent e m n : norm_all parent (e :: m) = Ok n ->
  exists a b, norm_entry parent e = Ok a /\ norm_all parent m = Ok b /\ n = a ++ b.
Proof.
  cbn [norm_all]. destruct (norm_entry parent e) as [a| | |]; try discriminate. cbn [bind].
  destruct (norm_all parent m) as [b| | |]; try discriminate. cbn [bind]. intros [= <-].
  exists a, b. auto.
Qed.

Lemma norm_all_handed parent m : forall n, is_commutative parent = true -> Forall (entry_ok solid) m ->
  norm_all parent m = Ok n -> Forall handed n.
Proof.
  induction m as [|e m IH]; intros n Hp H E; [injection E as <-; constructor|].
  apply norm_all_cons in E. destruct E as (a & b & Ea & Eb & ->). inversion H; subst.
  apply Forall_app. split; [|apply IH; assumption].
  eapply norm_entry_handed in Ea; [|eassumption|eassumption]. tauto.
Qed.

Lemma exists_app_l {A} (P : A -> Prop) a b : Exists P a -> Exists P (a ++ b).
Proof. intro H. apply Exists_app. left. exact H. Qed.
Lemma exists_app_r {A} (P : A -> Prop) a b : Exists P b -> Exists P (a ++ b).
Proof. intro H. apply Exists_app. right. exact H. Qed.
Lemma all_one {A} (P : A -> Prop) l : l <> [] -> Forall P l -> Exists P l.
Proof. intros N H. destruct l; [congruence|]. inversion H; subst. constructor. assumption. Qed.

Lemma norm_all_kept parent m n : is_commutative parent = true -> Forall (entry_ok solid) m ->
  NoDup (map fst m) -> norm_all parent m = Ok n -> 1 < length n -> Exists (kept parent) n.
Proof.
  intros Hp H D E L. destruct m as [|e1 m]; [injection E as <-; cbn in L; lia|].
  apply norm_all_cons in E. destruct E as (a & b & Ea & Eb & ->).
  inversion H as [|? ? H1 Hm]; subst.
  destruct (norm_entry_handed parent e1 a Hp H1 Ea) as (_ & Na & [Ka|(_ & Ka & La)]);
    [apply exists_app_l, all_one; assumption|].
  destruct m as [|e2 m].
  { injection Eb as <-. rewrite app_length in L. cbn in L. lia. }
  apply norm_all_cons in Eb. destruct Eb as (a2 & b2 & Ea2 & Eb & ->).
  inversion Hm as [|? ? H2 _]; subst.
  destruct (norm_entry_handed parent e2 a2 Hp H2 Ea2) as (_ & Na2 & [Ka2|(_ & Ka2 & _)]);
    [apply exists_app_r, exists_app_l, all_one; assumption|].
  exfalso. cbn [map] in D. inversion D as [|? ? D1 _]; subst. apply D1. left. congruence.
Qed.

Lemma norm_all_some parent m n : is_commutative parent = true -> Forall (entry_ok solid) m ->
  m <> [] -> norm_all parent m = Ok n -> n <> [].
Proof.
  intros Hp H N E. destruct m as [|e m]; [congruence|].
  apply norm_all_cons in E. destruct E as (a & b & Ea & _ & ->). inversion H; subst.
  eapply norm_entry_handed in Ea; [|eassumption|eassumption]. destruct Ea as (_ & Na & _).
  intro X. apply app_eq_nil in X. tauto.
Qed.

(* ---- Step 3 ---- *)
Lemma invalid_empty c : check_valid c 0 = false.
Proof. destruct c; reflexivity. Qed.

Lemma collect_defined mk parent norm :
  (forall c ts, ts <> [] -> Forall solid ts -> mk c ts <> UB) ->
  Forall handed norm -> collect mk parent norm <> UB.
Proof.
  intros Hmk. induction 1 as [|[k ts] norm H _ IH]; cbn [collect]; [discriminate|].
  unfold handed in H. cbn [snd] in H.
  assert (G : forall r : res (list term), r <> UB ->
    bind r (fun a => bind (collect mk parent norm) (fun b => Ok (a ++ b))) <> UB).
  { intros r R. destruct r; try discriminate; [|congruence]. cbn [bind].
    destruct (collect mk parent norm); try discriminate. congruence. }
  apply G. destruct k as [c|]; [|discriminate]. destruct (con_eqb c parent); [discriminate|].
  destruct (check_valid c _) eqn:V; [|discriminate].
  assert (Hne : ts <> []) by (intros ->; cbn in V; rewrite invalid_empty in V; discriminate V).
  specialize (Hmk c ts Hne H). destruct (mk c ts); try discriminate. congruence.
Qed.

Lemma collect_some mk parent norm all : Exists (kept parent) norm ->
  collect mk parent norm = Ok all -> all <> [].
Proof.
  intro X. revert all. induction X as [[k ts] norm K|[k ts] norm _ IH]; intros all E; cbn [collect] in E;
    match type of E with bind ?r _ = _ => destruct r as [a| | |] eqn:R; try discriminate E end;
    cbn [bind] in E; destruct (collect mk parent norm) as [b| | |] eqn:B; try discriminate E;
    cbn [bind] in E; injection E as <-; intro Z0; apply app_eq_nil in Z0; destruct Z0 as [Za Zb].
  - destruct K as [N K]. cbn [fst snd] in *. subst a. destruct k as [c|].
    + specialize (K c eq_refl). destruct (con_eqb c parent) eqn:Ec; [injection R as ->; congruence|].
      destruct K as [->|K].
      * assert (con_eqb parent parent = true) by (apply con_eqb_eq; reflexivity). congruence.
      * rewrite K in R. destruct (mk c ts); discriminate R.
    + injection R as ->. congruence.
  - apply (IH b eq_refl Zb).
Qed.

Lemma step4_defined parent norm : norm <> [] -> step4 parent norm <> UB.
Proof.
  intro N. destruct norm as [|[k ts] norm]; [congruence|].
  destruct k as [k|]; [destruct k|]; destruct parent; discriminate.
Qed.

Section Defined.
  Variable ord : cmap -> cmap.
  Hypothesis Hord : any_order ord.

  Lemma preprocess_defined mk parent ts :
    (forall c l, l <> [] -> Forall solid l -> mk c l <> UB) ->
    ts <> [] -> Forall solid ts -> preprocess ord mk parent ts <> UB.
  Proof.
    intros Hmk N H. unfold preprocess. destruct (is_reducible parent); cbn [negb]; [|discriminate].
    destruct (is_commutative parent) eqn:Hp; [|discriminate].
    destruct (flatten_solid parent ts Hp H N) as [Hf Nf].
    set (m := ord (categories (flatten_set parent ts))).
    assert (Hm : Forall (entry_ok solid) m)
      by (apply any_order_forall; [exact Hord | apply categories_ok, Hf]).
    assert (Pm : Permutation m (categories (flatten_set parent ts))) by apply Hord.
    assert (Dm : NoDup (map fst m)).
    { eapply Permutation_NoDup; [apply Permutation_map, Permutation_sym, Pm|]. apply categories_keys. }
    assert (Nm : m <> []).
    { intro E. rewrite E in Pm. apply Permutation_nil in Pm. exact (categories_some _ Nf Pm). }
    destruct (norm_all_no_error parent solid m Hm) as [norm En]. rewrite En. cbn [bind].
    pose proof (norm_all_some parent m norm Hp Hm Nm En) as Nn.
    destruct (Nat.ltb 1 (length norm)) eqn:L; [|apply step4_defined; exact Nn].
    apply Nat.ltb_lt in L.
    pose proof (norm_all_handed parent m norm Hp Hm En) as Hh.
    pose proof (norm_all_kept parent m norm Hp Hm Dm En L) as Hk.
    pose proof (collect_defined mk parent norm Hmk Hh) as Hc.
    destruct (collect mk parent norm) as [all| | |] eqn:Ec; try discriminate; [|congruence]. cbn [bind].
    pose proof (collect_some mk parent norm all Hk Ec) as Na.
    destruct (Nat.ltb 1 (length all)); [discriminate|].
    destruct all as [|t all]; [congruence|]. destruct t; cbn [single bind]; apply step4_defined; discriminate.
  Qed.

  Lemma fuel_defined fuel : forall b con ts, ts <> [] -> Forall solid ts ->
    compound_fuel ord fuel b con ts <> UB.
  Proof.
    induction fuel as [|fuel IH]; intros b con ts N H; cbn [compound_fuel]; [discriminate|].
    pose proof (preprocess_defined (compound_fuel ord fuel false) con ts (IH false) N H) as P.
    destruct (preprocess ord _ con ts) as [[c l]| | |]; try discriminate. congruence.
  Qed.

  Lemma solid_defined b con args : args <> [] -> Forall solid args ->
    exists t, compound ord b con args = Ok t.
  Proof.
    intros N H. destruct (compound_outcome ord Hord b con args) as [E|E]; [exact E|].
    exfalso. revert E. unfold compound, compound_of_terms. apply fuel_defined.
    - unfold mk_terms. destruct (is_commutative con); [apply terms_set_some|]; exact N.
    - unfold mk_terms. destruct (is_commutative con); [apply terms_set_forall|]; exact H.
  Qed.
End Defined.

Lemma tidy_solid t : tidy t -> solid t.
Proof.
  revert t. fix IH 2. intros t H. destruct H as [t Hn|c l Hs Hf Ht Hm].
  - apply solid_other. exact Hn.
  - apply solid_comp; [exact Hs | | | exact Hm].
    + clear Hf Hm. revert l Ht. fix IHl 2. intros l Ht. destruct Ht as [|x l Hx Hl]; constructor.
      * apply IH. exact Hx.
      * apply IHl. exact Hl.
    + destruct Hf as [_ _ _ Hf _]. destruct Hf as [Hf|(x & -> & _)]; [destruct l; [cbn in Hf; lia|discriminate]|discriminate].
Qed.

(* ---- C76 ---- *)
Lemma build_solid ord b con args : any_order ord ->
  compound ord b con args <> Throw /\ compound ord b con args <> OutOfFuel /\
  (plain con \/ con = SequentialEvents \/
   (set_like con /\ args <> [] /\ Forall var_free args /\ Forall solid args) ->
   exists t, compound ord b con args = Ok t) /\
  (set_like con -> compound ord b con [] = UB).
Proof.
  intro Ho. split; [|split; [|split]].
  - destruct (compound_outcome ord Ho b con args) as [[t E]|E]; rewrite E; discriminate.
  - destruct (compound_outcome ord Ho b con args) as [[t E]|E]; rewrite E; discriminate.
  - intros [H|[->|(_ & N & _ & H)]].
    + rewrite plain_build by assumption. eexists; reflexivity.
    + rewrite sequence_build. eexists; reflexivity.
    + apply solid_defined; assumption.
  - intro H. assert (E : ord [] = []) by (apply Permutation_nil, Permutation_sym, Ho).
    destruct H; unfold compound, compound_of_terms; unfold fuel_for;
      cbn [compound_fuel list_max map fold_right Nat.max]; unfold preprocess, flatten_set;
      match goal with |- context [ord ?m] => change m with (@nil (option connector * list term)) end;
      rewrite E; reflexivity.
Qed.

(* Two sets without a common component, a compound that is not normal: a
   repeated component, and a compound inside one with the same connector. *)
Definition loose : list term :=
  [set_A; set_B; Comp Conjunction [C; Comp Conjunction [B; A]; C]].
Lemma loose_solid : loose <> [] /\ Forall var_free loose /\ Forall solid loose.
Proof.
  assert (W : forall t, (forall c l, t <> Comp c l) -> solid t)
    by (intros t H; apply solid_other; intros (c & l & E & _); exact (H c l E)).
  assert (SA : solid A) by (apply W; discriminate). assert (SB : solid B) by (apply W; discriminate).
  assert (SC : solid C) by (apply W; discriminate).
  split; [discriminate|]. split; [apply forall_var_free_check; reflexivity|].
  constructor; [|constructor; [|constructor; [|constructor]]].
  - apply solid_comp; [constructor | | discriminate | right; left; reflexivity]. constructor; [exact SA|constructor].
  - apply solid_comp; [constructor | | discriminate | right; left; reflexivity]. constructor; [exact SB|constructor].
  - apply solid_comp; [constructor | | discriminate | left; cbn; lia].
    constructor; [exact SC|]. constructor; [|constructor; [exact SC|constructor]].
    apply solid_comp; [constructor | | discriminate | left; cbn; lia].
    constructor; [exact SB|]. constructor; [exact SA|constructor].
Qed.
