(* Facts about the construction of compounds. *)
From Coq Require Import ZArith List Bool Lia Sorting Permutation.
From Verif Require Import Base Hash Enums Term TermSpec TermFacts Terms TermsFacts Compound.
Import ListNotations.
Local Open Scope Z_scope.

Definition cmap : Type := list (option connector * list term).

(* Any iteration order of the hash map. *)
Definition any_order (ord : cmap -> cmap) : Prop := forall m, Permutation (ord m) m.

Lemma okey_eqb_eq a b : okey_eqb a b = true <-> a = b.
Proof.
  destruct a, b; simpl; try (split; congruence). rewrite con_eqb_eq. split; congruence.
Qed.

(* ---- categories ---- *)
Definition entry_ok (P : term -> Prop) (e : option connector * list term) : Prop :=
  Forall P (snd e) /\ Forall (fun t => category t = fst e) (snd e) /\ snd e <> [].

Lemma cat_add_ok (P : term -> Prop) k t m : P t -> category t = k ->
  Forall (entry_ok P) m -> Forall (entry_ok P) (cat_add k t m).
Proof.
  intros Ht Hk. induction m as [|[k' l] m IH]; simpl; intro H.
  - constructor; [|constructor]. repeat split; simpl; [repeat constructor; assumption
      | repeat constructor; assumption | discriminate].
  - inversion H as [|? ? [H1 [H2 H3]] Hm]; subst. simpl in *.
    destruct (okey_eqb (category t) k') eqn:E.
    + apply okey_eqb_eq in E. constructor; [|exact Hm]. repeat split; simpl.
      * apply Forall_app; split; [exact H1 | repeat constructor; exact Ht].
      * apply Forall_app; split; [exact H2 | repeat constructor; exact E].
      * destruct l; discriminate.
    + constructor; [repeat split; assumption | apply IH; exact Hm].
Qed.

Lemma fold_cat_ok (P : term -> Prop) l : forall m, Forall P l -> Forall (entry_ok P) m ->
  Forall (entry_ok P) (fold_left (fun m t => cat_add (category t) t m) l m).
Proof.
  induction l as [|t l IH]; simpl; intros m Hl Hm; [exact Hm|].
  inversion Hl; subst. apply IH; [assumption|]. apply cat_add_ok; auto.
Qed.

Lemma categories_ok (P : term -> Prop) l : Forall P l -> Forall (entry_ok P) (categories l).
Proof. intro H. apply fold_cat_ok; [exact H | constructor]. Qed.

Lemma fold_cat_single k l : forall l0, Forall (fun t => category t = k) l ->
  fold_left (fun m t => cat_add (category t) t m) l [(k, l0)] = [(k, l0 ++ l)].
Proof.
  induction l as [|t l IH]; simpl; intros l0 H; [rewrite app_nil_r; reflexivity|].
  inversion H; subst.
  replace (okey_eqb (category t) (category t)) with true
    by (symmetry; apply okey_eqb_eq; reflexivity).
  rewrite IH by assumption. rewrite <- app_assoc. reflexivity.
Qed.

Lemma categories_single k l : l <> [] -> Forall (fun t => category t = k) l ->
  categories l = [(k, l)].
Proof.
  intros Hn H. destruct l as [|t l]; [congruence|]. inversion H; subst.
  unfold categories. simpl. rewrite fold_cat_single by assumption. reflexivity.
Qed.

Lemma any_order_forall ord (P : option connector * list term -> Prop) m :
  any_order ord -> Forall P m -> Forall P (ord m).
Proof. intros Ho H. eapply Permutation_Forall; [apply Permutation_sym, Ho | exact H]. Qed.

Lemma any_order_single ord e : any_order ord -> ord [e] = [e].
Proof. intro Ho. apply Permutation_length_1_inv, Permutation_sym, Ho. Qed.

(* ---- merge ---- *)
Lemma category_some t c : category t = Some c ->
  exists l, t = Comp c l /\ is_commutative c = true.
Proof.
  destruct t as [| | | |c' l]; simpl; try discriminate.
  destruct (is_commutative c') eqn:E; [|discriminate].
  intro H; injection H as <-. exists l; auto.
Qed.

Definition as_terms (con : connector) (t : term) : terms :=
  Terms (is_commutative con) (components t).

Lemma merge_cases parent con cs :
  merge_compounds parent con cs = Ok None \/
  (exists op, op_sub op /\
     merge_compounds parent con cs =
       bind (terms_op op (map (as_terms con) cs)) (fun s => Ok (Some s))) \/
  (parent = con /\
   merge_compounds parent con cs =
     Ok (Some (mk_terms (is_commutative con) (flat_map components cs)))).
Proof.
  pose proof union_op_sub. pose proof inter_op_sub. pose proof diff_op_sub.
  destruct parent, con;
    try (left; reflexivity);
    try (right; right; split; reflexivity);
    right; left;
    first [ exists set_union; split; [assumption | reflexivity]
          | exists set_intersection; split; [assumption | reflexivity]
          | exists set_difference; split; [assumption | reflexivity] ].
Qed.

Lemma merge_forall (P : term -> Prop) parent con cs s :
  Forall (fun t => Forall P (components t)) cs ->
  merge_compounds parent con cs = Ok (Some s) -> Forall P s.
Proof.
  intros H E. destruct (merge_cases parent con cs) as [M|[[op [Hop M]]|[_ M]]];
    rewrite M in E.
  - discriminate E.
  - destruct (terms_op op _) as [s'| | |] eqn:T; try discriminate E. injection E as <-.
    eapply terms_op_forall; [exact Hop | | exact T].
    apply Forall_forall. intros x Hx. apply in_map_iff in Hx. destruct Hx as [t [<- Hin]].
    simpl. eapply Forall_In in H; [exact H | exact Hin].
  - injection E as <-.
    assert (F : Forall P (flat_map components cs)).
    { apply Forall_forall. intros x Hx. apply in_flat_map in Hx. destruct Hx as [t [Hin Hx]].
      eapply Forall_In in H; [| exact Hin]. eapply Forall_In; eassumption. }
    unfold mk_terms. destruct (is_commutative con); [apply terms_set_forall|]; exact F.
Qed.

Lemma merge_no_error parent con cs :
  is_commutative con = true -> cs <> [] -> exists o, merge_compounds parent con cs = Ok o.
Proof.
  intros Hc Hn. destruct (merge_cases parent con cs) as [M|[[op [Hop M]]|[_ M]]]; rewrite M;
    try (eexists; reflexivity).
  assert (E : exists s, terms_op op (map (as_terms con) cs) = Ok s).
  { apply terms_op_ok. destruct cs as [|t cs]; [congruence|].
    exists (as_terms con t), (map (as_terms con) cs). split; [reflexivity|].
    apply Forall_forall. intros x Hx. apply in_map_iff in Hx. destruct Hx as [t' [<- _]].
    exact Hc. }
  destruct E as [s ->]. eexists; reflexivity.
Qed.

(* ---- step 2 ---- *)
(* What Step 2 produces from entries whose compounds have components in P. *)
Definition norm_ok (P : term -> Prop) (e : option connector * list term) : Prop :=
  Forall P (snd e) /\ (forall c, fst e = Some c -> is_commutative c = true).

Lemma norm_entry_ok (P : term -> Prop) parent e n :
  (forall c l, P (Comp c l) -> Forall P l) ->
  entry_ok P e -> norm_entry parent e = Ok n -> Forall (norm_ok P) n.
Proof.
  intros Hd [H1 [H2 H3]] E. destruct e as [[con|] cs]; simpl in *.
  - assert (Hcomp : Forall (fun t => Forall P (components t)) cs).
    { rewrite Forall_forall in *. intros t Hin. specialize (H1 t Hin). specialize (H2 t Hin).
      apply category_some in H2. destruct H2 as [l [-> _]]. simpl. apply (Hd con l H1). }
    assert (Hcon : is_commutative con = true).
    { destruct cs as [|t cs]; [congruence|]. inversion H2; subst.
      match goal with H : category t = _ |- _ => apply category_some in H; destruct H as [? [_ ?]] end.
      assumption. }
    destruct (merge_compounds parent con cs) as [[s|]| | |] eqn:M; try discriminate E;
      simpl in E; injection E as <-.
    + constructor; [|constructor]. split; simpl; [eapply merge_forall; eassumption|].
      intros c Hc; congruence.
    + apply Forall_forall. intros x Hx. apply in_map_iff in Hx. destruct Hx as [t [<- Hin]].
      split; simpl; [eapply Forall_In in Hcomp; [exact Hcomp | exact Hin]|].
      intros c Hc; congruence.
  - injection E as <-. apply Forall_forall. intros x Hx. apply in_map_iff in Hx.
    destruct Hx as [t [<- Hin]]. split; simpl; [| intros c Hc; discriminate Hc].
    repeat constructor. eapply Forall_In; eassumption.
Qed.

Lemma norm_all_ok (P : term -> Prop) parent m : forall n,
  (forall c l, P (Comp c l) -> Forall P l) ->
  Forall (entry_ok P) m -> norm_all parent m = Ok n -> Forall (norm_ok P) n.
Proof.
  induction m as [|e m IH]; simpl; intros n Hd H E.
  - injection E as <-. constructor.
  - inversion H; subst.
    destruct (norm_entry parent e) as [a| | |] eqn:Ea; try discriminate E. simpl in E.
    destruct (norm_all parent m) as [b| | |] eqn:Eb; try discriminate E. simpl in E.
    injection E as <-. apply Forall_app; split.
    + eapply norm_entry_ok; eassumption.
    + apply IH; auto.
Qed.

Lemma norm_entry_no_error parent P e : entry_ok P e -> exists n, norm_entry parent e = Ok n.
Proof.
  intros [H1 [H2 H3]]. destruct e as [[con|] cs]; simpl in *; [| eexists; reflexivity].
  assert (Hcon : is_commutative con = true).
  { destruct cs as [|t cs]; [congruence|]. inversion H2; subst.
    match goal with H : category t = _ |- _ => apply category_some in H; destruct H as [? [_ ?]] end.
    assumption. }
  destruct (merge_no_error parent con cs Hcon H3) as [o ->]. simpl.
  destruct o; eexists; reflexivity.
Qed.

Lemma norm_all_no_error parent P m : Forall (entry_ok P) m -> exists n, norm_all parent m = Ok n.
Proof.
  induction 1 as [|e m He Hm IH]; simpl; [eexists; reflexivity|].
  destruct (norm_entry_no_error parent P e He) as [a ->], IH as [b ->]. eexists; reflexivity.
Qed.

(* Depth of what Step 2 hands to Compound::create. *)
Definition norm_depth (n : nat) (e : option connector * list term) : Prop :=
  fst e <> None -> Forall (fun t => (S (depth t) <= n)%nat) (snd e).

Lemma depth_component c l x : In x l -> (S (depth x) <= depth (Comp c l))%nat.
Proof.
  intro H. simpl. apply le_n_S.
  assert (list_max (map depth l) <= list_max (map depth l))%nat as L by lia.
  apply list_max_le in L. rewrite Forall_forall in L. apply L. apply in_map, H.
Qed.

Lemma norm_all_depth k parent m : forall n,
  Forall (entry_ok (fun t => (depth t <= k)%nat)) m ->
  norm_all parent m = Ok n -> Forall (norm_depth k) n.
Proof.
  induction m as [|e m IH]; simpl; intros n H E.
  - injection E as <-. constructor.
  - inversion H as [|? ? He Hm]; subst.
    destruct (norm_entry parent e) as [a| | |] eqn:Ea; try discriminate E. simpl in E.
    destruct (norm_all parent m) as [b| | |] eqn:Eb; try discriminate E. simpl in E.
    injection E as <-. apply Forall_app; split; [| apply IH; auto].
    clear IH Eb b Hm H. destruct He as [H1 [H2 H3]]. destruct e as [[con|] cs]; simpl in *.
    + assert (Hcomp : Forall (fun t => Forall (fun x => (S (depth x) <= k)%nat) (components t)) cs).
      { rewrite Forall_forall in *. intros t Hin. specialize (H1 t Hin). specialize (H2 t Hin).
        apply category_some in H2. destruct H2 as [l [-> _]]. simpl components.
        apply Forall_forall. intros x Hx. pose proof (depth_component con l x Hx). lia. }
      destruct (merge_compounds parent con cs) as [[s|]| | |] eqn:M; try discriminate Ea;
        simpl in Ea; injection Ea as <-.
      * constructor; [|constructor]. intros _. simpl. eapply merge_forall; eassumption.
      * apply Forall_forall. intros x Hx. apply in_map_iff in Hx. destruct Hx as [t [<- Hin]].
        intros _. simpl. eapply Forall_In in Hcomp; [exact Hcomp | exact Hin].
    + injection Ea as <-. apply Forall_forall. intros x Hx. apply in_map_iff in Hx.
      destruct Hx as [t [<- Hin]]. intro C. simpl in C. congruence.
Qed.

(* ---- step 3 ---- *)
Lemma collect_forall (P : term -> Prop) mk parent : forall norm all,
  (forall c ts t, is_commutative c = true -> Forall P ts -> mk c ts = Ok t -> P t) ->
  Forall (norm_ok P) norm -> collect mk parent norm = Ok all -> Forall P all.
Proof.
  induction norm as [|[k ts] norm IH]; simpl; intros all Hmk H E.
  - injection E as <-. constructor.
  - inversion H as [|? ? [H1 H2] Hn]; subst. simpl in *.
    destruct (collect mk parent norm) as [b| | |] eqn:Eb.
    2-4: destruct k as [c|]; simpl in E;
        [destruct (con_eqb c parent); [discriminate E|];
         destruct (check_valid c _); [destruct (mk c ts); discriminate E | discriminate E]
        | discriminate E].
    specialize (IH b Hmk Hn eq_refl).
    destruct k as [c|]; simpl in E; [| injection E as <-; apply Forall_app; auto].
    destruct (con_eqb c parent); [simpl in E; injection E as <-; apply Forall_app; auto|].
    destruct (check_valid c _); [| simpl in E; injection E as <-; exact IH].
    destruct (mk c ts) as [t| | |] eqn:Et; try discriminate E. simpl in E. injection E as <-.
    constructor; [| exact IH]. eapply Hmk; [apply H2; reflexivity | exact H1 | exact Et].
Qed.

Lemma collect_no_error mk parent k : forall norm,
  (forall c ts, Forall (fun t => (S (depth t) <= k)%nat) ts ->
     (exists t, mk c ts = Ok t) \/ mk c ts = UB) ->
  Forall (norm_depth k) norm ->
  (exists all, collect mk parent norm = Ok all) \/ collect mk parent norm = UB.
Proof.
  induction norm as [|[o ts] norm IH]; simpl; intros Hmk H; [left; eexists; reflexivity|].
  inversion H as [|? ? H1 Hn]; subst.
  destruct (IH Hmk Hn) as [[b ->]| ->];
    (destruct o as [c|];
     [ destruct (con_eqb c parent);
       [| destruct (check_valid c _);
          [ destruct (Hmk c ts) as [[t ->]| ->]; [apply H1; discriminate| |] |] ]
     |]); simpl; (try (left; eexists; reflexivity)); right; reflexivity.
Qed.

(* ---- flattening ---- *)
Lemma flat_map_forall (P : term -> Prop) parent l :
  (forall c l, P (Comp c l) -> Forall P l) -> Forall P l ->
  Forall P (flat_map (fun t => if has_connector parent t then components t else [t]) l).
Proof.
  intros Hd H. apply Forall_forall. intros x Hx. apply in_flat_map in Hx.
  destruct Hx as [t [Hin Hx]]. eapply Forall_In in H; [| exact Hin].
  destruct (has_connector parent t) eqn:E.
  - destruct t as [| | | |c l']; try discriminate E. simpl in Hx.
    apply Hd in H. eapply Forall_In; eassumption.
  - destruct Hx as [<-|[]]. exact H.
Qed.

Lemma flatten_forall (P : term -> Prop) parent l :
  (forall c l, P (Comp c l) -> Forall P l) -> Forall P l -> Forall P (flatten_set parent l).
Proof. intros Hd H. apply terms_set_forall, flat_map_forall; assumption. Qed.

(* ---- preservation of hereditary properties ---- *)
Definition down_closed (P : term -> Prop) : Prop := forall c l, P (Comp c l) -> Forall P l.
Definition up_closed (P : term -> Prop) : Prop :=
  forall c l, is_commutative c = true -> Forall P l -> P (Comp c l).

Lemma step4_forall (P : term -> Prop) parent norm c l :
  is_commutative parent = true -> Forall (fun e => Forall P (snd e)) norm ->
  step4 parent norm = Ok (c, l) -> is_commutative c = true /\ Forall P l.
Proof.
  intros Hp H E. destruct norm as [|[k ts] norm]; [discriminate E|].
  inversion H as [|? ? H1 _]; subst. simpl in H1.
  assert (C : (c = parent \/ c = ExtensionalSet \/ c = IntensionalSet) /\ l = terms_set ts).
  { destruct k as [k|]; [destruct k|]; destruct parent; simpl in E;
      injection E as <- <-; tauto. }
  destruct C as [Hc ->]. split; [| apply terms_set_forall; exact H1].
  destruct Hc as [->|[->| ->]]; [exact Hp | reflexivity | reflexivity].
Qed.

Section Preserve.
  Variable ord : cmap -> cmap.
  Hypothesis Hord : any_order ord.

  Lemma preprocess_comm_forall (P : term -> Prop) mk parent ts c l :
    down_closed P -> is_reducible parent = true -> is_commutative parent = true ->
    (forall c ts t, is_commutative c = true -> Forall P ts -> mk c ts = Ok t -> P t) ->
    Forall P ts -> preprocess ord mk parent ts = Ok (c, l) ->
    is_commutative c = true /\ Forall P l.
  Proof.
    intros Hd Hr Hc Hmk H E. unfold preprocess in E. rewrite Hr, Hc in E. simpl in E.
    assert (Hcat : Forall (entry_ok P) (ord (categories (flatten_set parent ts)))).
    { apply any_order_forall; [exact Hord|]. apply categories_ok, flatten_forall; assumption. }
    destruct (norm_all parent _) as [norm| | |] eqn:En; try discriminate E. simpl in E.
    pose proof (norm_all_ok P parent _ norm Hd Hcat En) as Hn.
    assert (Hn' : Forall (fun e => Forall P (snd e)) norm)
      by (eapply Forall_impl; [| exact Hn]; intros e [He _]; exact He).
    destruct (Nat.ltb 1 (length norm)); [| eapply step4_forall; eassumption].
    destruct (collect mk parent norm) as [all| | |] eqn:Ec; try discriminate E. simpl in E.
    pose proof (collect_forall P mk parent norm all Hmk Hn Ec) as Ha.
    destruct (Nat.ltb 1 (length all)).
    - injection E as <- <-. split; [exact Hc | apply terms_set_forall; exact Ha].
    - destruct (single all) as [n2| | |] eqn:Es; try discriminate E. simpl in E.
      eapply step4_forall; [exact Hc | | exact E].
      destruct all as [|t all]; [discriminate Es|]. inversion Ha as [|? ? Ht Hall]; subst.
      assert (Hs : Forall P (terms_set (t :: all))) by (apply terms_set_forall; exact Ha).
      destruct t; simpl in Es; injection Es as <-; constructor; try constructor;
        simpl; try exact Hs. eapply Hd; exact Ht.
  Qed.

  Lemma commutative_reducible c : is_commutative c = true -> is_reducible c = true.
  Proof. destruct c; intro H; (reflexivity || discriminate H). Qed.

  Lemma compound_fuel_comm (P : term -> Prop) : down_closed P -> up_closed P ->
    forall fuel b con ts t, is_commutative con = true -> Forall P ts ->
      compound_fuel ord fuel b con ts = Ok t ->
      exists c l, t = Comp c l /\ is_commutative c = true /\ Forall P l.
  Proof.
    intros Hd Hu. induction fuel as [|fuel IH]; simpl; intros b con ts t Hc H E; [discriminate E|].
    destruct (preprocess ord (compound_fuel ord fuel false) con ts) as [[c l]| | |] eqn:Ep;
      try discriminate E. simpl in E. injection E as <-.
    assert (Hl : is_commutative c = true /\ Forall P l).
    { eapply preprocess_comm_forall; [exact Hd | apply commutative_reducible; exact Hc | exact Hc
        | | exact H | exact Ep].
      intros c' ts' t' Hc' Ht' E'. destruct (IH _ _ _ _ Hc' Ht' E') as (c2 & l2 & -> & Hc2 & Hl2).
      apply Hu; assumption. }
    destruct Hl as [Hc' Hl]. exists c. eexists. split; [reflexivity|]. split; [exact Hc'|].
    destruct b; [exact Hl|]. rewrite Hc'. apply terms_set_forall. exact Hl.
  Qed.

  (* ---- the model never runs out of fuel and never throws ---- *)
  Lemma compound_fuel_outcome : forall fuel b con ts,
    Forall (fun t => (S (depth t) <= fuel)%nat) ts -> (0 < fuel)%nat ->
    (exists t, compound_fuel ord fuel b con ts = Ok t) \/ compound_fuel ord fuel b con ts = UB.
  Proof.
    induction fuel as [|fuel IH]; intros b con ts H Hf; [lia|]. simpl.
    unfold preprocess. destruct (is_reducible con) eqn:Hr; cbn [negb]; [| left; eexists; reflexivity].
    destruct (is_commutative con) eqn:Hc; [| left; eexists; reflexivity].
    assert (Hd : Forall (fun t => (depth t <= fuel)%nat) (flatten_set con ts)).
    { apply terms_set_forall. apply Forall_forall. intros x Hx. apply in_flat_map in Hx.
      destruct Hx as [t [Hin Hx]]. eapply Forall_In in H; [| exact Hin]. cbv beta in H.
      destruct (has_connector con t) eqn:E.
      - destruct t as [| | | |c' l']; try discriminate E. simpl in Hx.
        pose proof (depth_component c' l' x Hx). lia.
      - destruct Hx as [<-|[]]. lia. }
    assert (Hcat : Forall (entry_ok (fun t => (depth t <= fuel)%nat))
                     (ord (categories (flatten_set con ts))))
      by (apply any_order_forall; [exact Hord | apply categories_ok; exact Hd]).
    destruct (norm_all_no_error con _ _ Hcat) as [norm En].
    pose proof (norm_all_depth _ _ _ _ Hcat En) as Hn. rewrite En. cbn [bind].
    assert (S4 : forall n, (exists r, step4 con n = Ok r) \/ step4 con n = UB).
    { intros [|[k l] n]; [right; reflexivity|]. left.
      destruct k as [k|]; [destruct k|]; destruct con; eexists; reflexivity. }
    assert (Fin : forall r : res (connector * list term),
      ((exists x, r = Ok x) \/ r = UB) ->
      (exists t, bind r (fun r0 => let '(c, l) := r0 in
          Ok (Comp c (if b then l else mk_terms (is_commutative c) l))) = Ok t) \/
      bind r (fun r0 => let '(c, l) := r0 in
          Ok (Comp c (if b then l else mk_terms (is_commutative c) l))) = UB).
    { intros r [[[c l] ->]| ->]; [left; eexists; reflexivity | right; reflexivity]. }
    apply Fin. clear Fin.
    destruct (Nat.ltb 1 (length norm)); [| apply S4].
    destruct (Nat.eq_dec fuel 0) as [->|Hpos].
    { (* no compound among the terms: nothing is created *)
      assert (Hnone : Forall (fun e => fst e = None \/ Forall (fun _ => False) (snd e)) norm).
      { eapply Forall_impl; [| exact Hn]. intros [[c|] l] He; [right | left; reflexivity].
        simpl in *. eapply Forall_impl; [| apply He; simpl; discriminate]. cbv beta. intros; lia. }
      assert (Hcol : exists all, collect (compound_fuel ord 0 false) con norm = Ok all).
      { clear - Hnone. induction Hnone as [|[k l] n He Hn IH]; [eexists; reflexivity|].
        destruct IH as [b IH]. cbn [collect]. rewrite IH.
        destruct He as [He|He]; simpl in He; [subst k; eexists; reflexivity|].
        assert (l = []) by (destruct l; [reflexivity | inversion He; contradiction]). subst l.
        destruct k as [k|]; [| eexists; reflexivity].
        destruct (con_eqb k con); [eexists; reflexivity|].
        assert (V : check_valid k (Z.of_nat (length (@nil term))) = false)
          by (destruct k; reflexivity).
        rewrite V. eexists; reflexivity. }
      destruct Hcol as [all ->]. simpl.
      destruct (Nat.ltb 1 (length all)); [left; eexists; reflexivity|].
      destruct all as [|t all]; [right; reflexivity|]. simpl.
      destruct t; apply S4. }
    destruct (collect_no_error (compound_fuel ord fuel false) con fuel norm) as [[all ->]| ->];
      [ | exact Hn | | right; reflexivity].
    { intros c ts' Hts. apply IH; [exact Hts | lia]. }
    simpl. destruct (Nat.ltb 1 (length all)); [left; eexists; reflexivity|].
    destruct all as [|t all]; [right; reflexivity|]. simpl.
    destruct t; apply S4.
  Qed.

  Lemma compound_outcome b con l :
    (exists t, compound ord b con l = Ok t) \/ compound ord b con l = UB.
  Proof.
    apply compound_fuel_outcome; [| unfold fuel_for; lia].
    unfold fuel_for. set (ts := mk_terms (is_commutative con) l).
    assert (L : (list_max (map depth ts) <= list_max (map depth ts))%nat) by lia.
    apply list_max_le in L. rewrite Forall_forall in L. apply Forall_forall.
    intros t Ht. specialize (L (depth t) (in_map depth _ _ Ht)). lia.
  Qed.
End Preserve.
