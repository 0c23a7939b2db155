(* No leaf of solid arguments without intersections is lost. *)
From Coq Require Import ZArith List Bool Lia Sorting Permutation.
From Verif Require Import Base Hash Enums Term TermSpec TermFacts Terms TermsFacts Compound
  CompoundFacts CompoundSpec CompoundSpec2 CompoundFacts2 CompoundFacts3 TermCases CompoundCases
  CompoundFacts4.
Import ListNotations.
Local Open Scope nat_scope.

Notation lv := (flat_map leaves).

Lemma lv_incl l l' : incl l l' -> incl (lv l) (lv l').
Proof.
  intros H x Hx. apply in_flat_map in Hx. destruct Hx as (t & Ht & Hx). apply in_flat_map.
  exists t. split; [apply H; exact Ht | exact Hx].
Qed.

Lemma lv_set U l : faithful U -> Forall U l -> incl (lv l) (lv (terms_set l)).
Proof. intros F H. apply lv_incl. intros x Hx. apply (terms_set_iff U); assumption. Qed.

Lemma lv_app a b L1 : incl (lv (a ++ b)) L1 <-> incl (lv a) L1 /\ incl (lv b) L1.
Proof.
  rewrite flat_map_app. split.
  - intro H. split; intros x Hx; apply H, in_or_app; tauto.
  - intros [H1 H2] x Hx. apply in_app_or in Hx. destruct Hx; auto.
Qed.

Section Kept.
  Variable U : term -> Prop.
  Hypothesis FU : faithful U.

  (* The terms the construction goes through. *)
  Definition sane (t : term) : Prop :=
    solid t /\ (forall c l, occurs (Comp c l) t -> ~ intersection c) /\ (forall u, occurs u t -> U u).

  Lemma sane_inside c l : is_commutative c = true -> sane (Comp c l) ->
    Forall sane l /\ ~ intersection c.
  Proof.
    intros Hc (H1 & H2 & H3). split; [|apply (H2 c l); constructor].
    apply solid_inside in H1; [|exact Hc]. destruct H1 as (H1 & _).
    rewrite Forall_forall in *. intros t Ht. split; [apply H1; exact Ht|]. split.
    - intros c' l' Ho. apply (H2 c' l'). eapply occ_comp; eassumption.
    - intros u Ho. apply H3. eapply occ_comp; eassumption.
  Qed.

  Lemma sane_U l : Forall sane l -> Forall U l.
  Proof. intro H. eapply Forall_impl; [|exact H]. intros t (_ & _ & Ht). apply Ht. constructor. Qed.

  Lemma sane_solid l : Forall sane l -> Forall solid l.
  Proof. intro H. eapply Forall_impl; [|exact H]. intros t Ht. apply Ht. Qed.

  Lemma expand_sane con ts : is_commutative con = true -> Forall sane ts ->
    Forall sane (flat_map (fun t => if has_connector con t then components t else [t]) ts) /\
    incl (lv ts) (lv (flat_map (fun t => if has_connector con t then components t else [t]) ts)).
  Proof.
    intros Hc. induction 1 as [|t ts Ht _ [IH1 IH2]]; cbn [flat_map]; [split; [constructor|intros x []]|].
    split.
    - apply Forall_app. split; [|exact IH1].
      destruct (has_connector con t) eqn:E; [|constructor; [exact Ht|constructor]].
      destruct t as [| | | |c l]; try discriminate E. apply con_eqb_eq in E. subst c.
      apply sane_inside in Ht; tauto.
    - rewrite flat_map_app. intros x Hx. apply in_app_or in Hx. apply in_or_app.
      destruct Hx as [Hx|Hx]; [left|right; apply IH2; exact Hx].
      destruct (has_connector con t) eqn:E; [|cbn; rewrite app_nil_r; exact Hx].
      destruct t as [| | | |c l]; try discriminate E. exact Hx.
  Qed.

  Lemma flatten_sane con ts : is_commutative con = true -> Forall sane ts ->
    Forall sane (flatten_set con ts) /\ incl (lv ts) (lv (flatten_set con ts)).
  Proof.
    intros Hc H. destruct (expand_sane con ts Hc H) as [H1 H2]. unfold flatten_set.
    split; [apply terms_set_forall; exact H1|].
    eapply incl_tran; [exact H2|]. apply (lv_set U); [exact FU | apply sane_U; exact H1].
  Qed.

  Lemma no_merge parent con cs : is_commutative parent = true -> ~ intersection parent ->
    merge_compounds parent con cs = Ok None \/
    (parent = con /\
     merge_compounds parent con cs = Ok (Some (mk_terms (is_commutative con) (flat_map components cs)))).
  Proof.
    intros H N. destruct parent; try discriminate H;
      try (exfalso; apply N; unfold intersection; tauto);
      destruct con; try (left; reflexivity); right; split; reflexivity.
  Qed.

  Lemma norm_entry_sane parent e n : is_commutative parent = true -> ~ intersection parent ->
    entry_ok sane e -> norm_entry parent e = Ok n ->
    Forall (fun e' => Forall sane (snd e')) n /\ incl (lv (snd e)) (lv (flat_map snd n)) /\
    Forall (kept parent) n /\
    (forall c l, In (Some c, l) n -> is_commutative c = true /\ ~ intersection c).
  Proof.
    intros Hp Np (H1 & H2 & H3) E.
    assert (Hs : entry_ok solid e) by (split; [apply sane_solid; exact H1 | split; assumption]).
    assert (K : Forall (kept parent) n).
    { destruct (norm_entry_handed parent e n Hp Hs E) as (_ & _ & [K|(K1 & K2 & _)]); [exact K|].
      exfalso. destruct parent; try discriminate Hp; cbn in K2; try congruence;
        apply Np; unfold intersection; tauto. }
    destruct e as [[con|] cs]; cbn [fst snd norm_entry] in *.
    - assert (Hin : Forall (fun t => Forall sane (components t) /\ is_commutative con = true /\ ~ intersection con /\
                      leaves t = lv (components t)) cs).
      { rewrite Forall_forall in *. intros t Ht. specialize (H1 t Ht). specialize (H2 t Ht).
        apply category_some in H2. destruct H2 as (l & -> & Hc). apply sane_inside in H1; [|exact Hc].
        cbn [components leaves]. tauto. }
      assert (Hcon : is_commutative con = true /\ ~ intersection con)
        by (destruct Hin as [|t cs' (_ & Hc & Hn & _) _]; [congruence|tauto]).
      assert (Hc : Forall sane (flat_map components cs) /\ lv cs = lv (flat_map components cs)).
      { clear - Hin. induction Hin as [|t cs (Ht & _ & _ & Hl) _ [IH1 IH2]]; cbn [flat_map]; [split; constructor|].
        split; [apply Forall_app; tauto|]. rewrite flat_map_app, IH2, Hl. reflexivity. }
      destruct Hc as [Hc1 Hc2].
      destruct (no_merge parent con cs Hp Np) as [M|[-> M]]; rewrite M in E; cbn [bind] in E; injection E as <-.
      + split; [|split; [|split; [exact K|]]].
        * apply Forall_forall. intros x Hx. apply in_map_iff in Hx. destruct Hx as (t & <- & Ht). cbn [snd].
          eapply Forall_In in Hin; [|exact Ht]. cbv beta in Hin. tauto.
        * rewrite Hc2. replace (flat_map snd (map (fun t : term => (Some con, components t)) cs))
            with (flat_map components cs); [apply incl_refl|].
          clear. induction cs as [|t cs IH]; [reflexivity|]. cbn [flat_map map snd]. rewrite IH. reflexivity.
        * intros c l Hx. apply in_map_iff in Hx. destruct Hx as (t & [= <- _] & _). exact Hcon.
      + unfold mk_terms in *. rewrite (proj1 Hcon) in *. split; [|split; [|split; [exact K|]]].
        * constructor; [|constructor]. cbn [snd]. apply terms_set_forall. exact Hc1.
        * cbn [flat_map snd]. rewrite app_nil_r, Hc2. apply (lv_set U); [exact FU | apply sane_U; exact Hc1].
        * intros c l [[= <- _]|[]]. exact Hcon.
    - injection E as <-. split; [|split; [|split; [exact K|]]].
      + apply Forall_forall. intros x Hx. apply in_map_iff in Hx. destruct Hx as (t & <- & Ht).
        cbn [snd]. apply terms_set_forall. constructor; [|constructor]. eapply Forall_In; eassumption.
      + intros x Hx. apply in_flat_map in Hx. destruct Hx as (t & Ht & Hx). apply in_flat_map. exists t.
        split; [|exact Hx]. apply in_flat_map. exists (None, terms_set [t]).
        split; [apply in_map_iff; exists t; split; [reflexivity|exact Ht]|]. cbn [snd]. rewrite terms_set_one. left; reflexivity.
      + intros c l Hx. apply in_map_iff in Hx. destruct Hx as (t & Hx & _). discriminate Hx.
  Qed.

  Lemma norm_all_sane parent m : forall n, is_commutative parent = true -> ~ intersection parent ->
    Forall (entry_ok sane) m -> norm_all parent m = Ok n ->
    Forall (fun e' => Forall sane (snd e')) n /\ incl (lv (unmap m)) (lv (flat_map snd n)) /\
    Forall (kept parent) n /\
    (forall c l, In (Some c, l) n -> is_commutative c = true /\ ~ intersection c).
  Proof.
    induction m as [|e m IH]; intros n Hp Np H E.
    - injection E as <-. split; [constructor|]. split; [intros x []|]. split; [constructor|]. intros c l [].
    - apply norm_all_cons in E. destruct E as (a & b & Ea & Eb & ->). inversion H as [|? ? He Hm]; subst.
      destruct (norm_entry_sane parent e a Hp Np He Ea) as (A1 & A2 & A3 & A4).
      destruct (IH b Hp Np Hm Eb) as (B1 & B2 & B3 & B4).
      split; [apply Forall_app; tauto|]. split; [|split; [apply Forall_app; tauto|]].
      + unfold unmap in *. cbn [flat_map]. rewrite !flat_map_app. intros x Hx. apply in_app_or in Hx.
        apply in_or_app. destruct Hx as [Hx|Hx]; [left; apply A2|right; apply B2]; exact Hx.
      + intros c l Hx. apply in_app_or in Hx. destruct Hx as [Hx|Hx]; [eapply A4|eapply B4]; exact Hx.
  Qed.

  Lemma collect_kept mk parent norm : forall all,
    (forall c ts t, In (Some c, ts) norm -> c <> parent -> mk c ts = Ok t -> incl (lv ts) (leaves t)) ->
    Forall (kept parent) norm -> collect mk parent norm = Ok all ->
    incl (lv (flat_map snd norm)) (lv all).
  Proof.
    induction norm as [|[k ts] norm IH]; intros all Hmk K E; [intros x []|].
    inversion K as [|? ? [_ K1] K2]; subst. cbn [fst snd] in K1. cbn [collect] in E.
    match type of E with bind ?r _ = _ => destruct r as [a| | |] eqn:R; try discriminate E end.
    cbn [bind] in E. destruct (collect mk parent norm) as [b| | |] eqn:B; try discriminate E.
    cbn [bind] in E. injection E as <-. cbn [flat_map snd]. rewrite !flat_map_app.
    assert (IHb : incl (lv (flat_map snd norm)) (lv b)).
    { apply (IH b); [intros c ts' t Hin; apply Hmk; right; exact Hin | exact K2 | reflexivity]. }
    assert (Ha : incl (lv ts) (lv a)).
    { destruct k as [c|]; [|injection R as <-; apply incl_refl].
      destruct (con_eqb c parent) eqn:Ec; [injection R as <-; apply incl_refl|].
      destruct (K1 c eq_refl) as [->|V].
      - assert (con_eqb parent parent = true) by (apply con_eqb_eq; reflexivity). congruence.
      - rewrite V in R. destruct (mk c ts) as [t| | |] eqn:T; try discriminate R. cbn [bind] in R.
        injection R as <-. cbn [flat_map]. rewrite app_nil_r. eapply Hmk; [left; reflexivity | | exact T].
        intros ->. assert (con_eqb parent parent = true) by (apply con_eqb_eq; reflexivity). congruence. }
    intros x Hx. apply in_app_or in Hx. apply in_or_app.
    destruct Hx as [Hx|Hx]; [left; apply Ha|right; apply IHb]; exact Hx.
  Qed.

  (* Where the collected terms come from. *)
  Lemma collect_from mk parent norm : forall all t, collect mk parent norm = Ok all -> In t all ->
    (exists k ts, In (k, ts) norm /\ In t ts) \/
    (exists c ts, In (Some c, ts) norm /\ mk c ts = Ok t).
  Proof.
    induction norm as [|[k ts] norm IH]; intros all t E Ht; [injection E as <-; destruct Ht|].
    cbn [collect] in E.
    match type of E with bind ?r _ = _ => destruct r as [a| | |] eqn:R; try discriminate E end.
    cbn [bind] in E. destruct (collect mk parent norm) as [b| | |] eqn:B; try discriminate E.
    cbn [bind] in E. injection E as <-. apply in_app_or in Ht. destruct Ht as [Ht|Ht].
    - destruct k as [c|]; [|injection R as <-; left; exists None, ts; split; [left; reflexivity|exact Ht]].
      destruct (con_eqb c parent); [injection R as <-; left; exists (Some c), ts; split; [left; reflexivity|exact Ht]|].
      destruct (check_valid c _); [|injection R as <-; destruct Ht].
      destruct (mk c ts) as [t'| | |] eqn:T; try discriminate R. cbn [bind] in R. injection R as <-.
      destruct Ht as [<-|[]]. right. exists c, ts. split; [left; reflexivity|exact T].
    - destruct (IH b t eq_refl Ht) as [(k' & ts' & H1 & H2)|(c & ts' & H1 & H2)].
      + left. exists k', ts'. split; [right; exact H1|exact H2].
      + right. exists c, ts'. split; [right; exact H1|exact H2].
  Qed.

  Lemma step4_set parent norm c l : step4 parent norm = Ok (c, l) ->
    exists k ts n, norm = (k, ts) :: n /\ l = terms_set ts /\
      (c = parent \/ c = ExtensionalSet \/ c = IntensionalSet).
  Proof.
    destruct norm as [|[k ts] n]; [discriminate|]. intro E. exists k, ts, n. split; [reflexivity|].
    destruct k as [k|]; [destruct k|]; destruct parent; cbn in E; injection E as <- <-; tauto.
  Qed.

  Variable ord : cmap -> cmap.
  Hypothesis Hord : any_order ord.

  Lemma vf_down : down_closed vf.
  Proof.
    intros c l H. apply vf_iff in H. apply Forall_forall. intros x Hx. apply vf_iff. intros k i Ho.
    apply (H k i). eapply occ_comp; eassumption.
  Qed.
  Lemma vf_up : up_closed vf.
  Proof.
    intros c l _ H. apply vf_iff. intros k i Ho. inversion Ho as [|? ? ? ?|? ? ? ?|? ? x Hx Hox]; subst.
    eapply Forall_In in H; [|exact Hx]. apply vf_iff in H. exact (H k i Hox).
  Qed.

  (* What create builds is kept by a set as it is. *)
  Lemma created_set con ts t : is_commutative con = true -> Forall vf ts ->
    compound_of_terms ord false con ts = Ok t ->
    exists c l, t = Comp c l /\ is_commutative c = true /\ Forall vf l /\ terms_set l = l.
  Proof.
    intros Hc Hv E.
    destruct (compound_fuel_comm ord Hord vf vf_down vf_up _ _ _ _ _ Hc Hv E) as (c & l & -> & Hc' & Hl).
    exists c, l. split; [reflexivity|]. split; [exact Hc'|]. split; [exact Hl|].
    rewrite compound_of_terms_eq in E by exact Hord.
    destruct (preprocess ord _ con ts) as [[c0 l0]| | |] eqn:P; try discriminate E. cbn [bind] in E.
    injection E as -> El. unfold mk_terms in El. rewrite Hc' in El.
    assert (Hl0 : Forall vf l0).
    { eapply (preprocess_comm_forall ord Hord vf) in P;
        [tauto | exact vf_down | apply commutative_reducible; exact Hc | exact Hc | | exact Hv].
      intros c1 ts1 t1 Hc1 Hts1 E1.
      destruct (compound_fuel_comm ord Hord vf vf_down vf_up _ _ _ _ _ Hc1 Hts1 E1) as (c2 & l2 & -> & Hc2 & Hl2).
      apply vf_up; assumption. }
    apply terms_set_id; [|exact Hl]. rewrite <- El. apply terms_set_sorted. exact Hl0.
  Qed.

  Lemma leaves_kept : forall n b con ts t, below n ts -> is_commutative con = true -> ~ intersection con ->
    Forall sane ts -> (forall u, gathers ord con ts u -> U u) ->
    compound_of_terms ord b con ts = Ok t -> incl (lv ts) (leaves t).
  Proof.
    induction n as [n IH] using (well_founded_induction lt_wf).
    intros b con ts t Bn Hc Nc Hs HU E. rewrite compound_of_terms_eq in E by exact Hord.
    destruct (preprocess ord _ con ts) as [[c l]| | |] eqn:P; try discriminate E. cbn [bind] in E.
    injection E as <-.
    unfold preprocess in P. rewrite commutative_reducible, Hc in P by exact Hc. cbn [negb] in P.
    destruct (flatten_sane con ts Hc Hs) as [Hf Lf].
    set (m := ord (categories (flatten_set con ts))) in *.
    assert (Hm : Forall (entry_ok sane) m)
      by (apply any_order_forall; [exact Hord | apply categories_ok, Hf]).
    destruct (norm_all con m) as [norm| | |] eqn:En; try discriminate P. cbn [bind] in P.
    destruct (norm_all_sane con m norm Hc Nc Hm En) as (S1 & S2 & S3 & S4).
    assert (L : incl (lv ts) (lv (flat_map snd norm))).
    { eapply incl_tran; [exact Lf|]. eapply incl_tran; [|exact S2]. apply lv_incl. intros x Hx.
      eapply Permutation_in; [|exact Hx]. apply Permutation_sym.
      eapply Permutation_trans; [apply unmap_perm, Hord | apply categories_unmap]. }
    assert (G : incl (lv ts) (lv l) /\ is_commutative c = true /\ Forall vf l /\ sorted l).
    { assert (SV : forall l, Forall sane l -> Forall vf l).
      { intros l0 H0. eapply Forall_impl; [|apply sane_U, H0]. intros x. apply (proj1 FU). }
      assert (CS : forall c0, c0 = con \/ c0 = ExtensionalSet \/ c0 = IntensionalSet -> is_commutative c0 = true)
        by (intros c0 [->|[->| ->]]; [exact Hc|reflexivity|reflexivity]).
      destruct (Nat.ltb 1 (length norm)) eqn:Ln.
      - destruct (collect (compound_of_terms ord false) con norm) as [all| | |] eqn:Ec; try discriminate P.
        cbn [bind] in P.
        assert (UA : Forall U all) by (eapply gathers_forall_all; [exact Hc | exact HU | exact En | exact Ec]).
        assert (LA : incl (lv (flat_map snd norm)) (lv all)).
        { eapply collect_kept; [|exact S3|exact Ec]. intros c' ts' t' Hin _ Et.
          destruct (S4 c' ts' Hin) as [Hc' Nc'].
          assert (Hs' : Forall sane ts') by (eapply Forall_In in S1; [|exact Hin]; exact S1).
          assert (HU' : forall u, gathers ord c' ts' u -> U u)
            by (intros u Hu; apply HU; eapply gth_inner; eassumption).
          destruct n as [|n].
          - apply below_zero in Bn. subst ts. exfalso.
            pose proof (norm_below ord con 0 [] norm Hord (Forall_nil _) En c' ts' Hin) as B.
            apply below_zero in B. subst ts'. eapply Forall_In in S3; [|exact Hin]. destruct S3 as [S3 _].
            apply S3. reflexivity.
          - apply (IH n) with (b := false) (con := c'); try assumption; [lia|].
            eapply norm_below; [exact Hord | exact Bn | exact En | exact Hin]. }
        destruct (Nat.ltb 1 (length all)) eqn:La.
        + injection P as <- <-. split; [|split; [exact Hc|split]].
          * eapply incl_tran; [exact L|]. eapply incl_tran; [exact LA|]. apply (lv_set U); assumption.
          * apply terms_set_forall. eapply Forall_impl; [|exact UA]. intros x. apply (proj1 FU).
          * apply terms_set_sorted. eapply Forall_impl; [|exact UA]. intros x. apply (proj1 FU).
        + destruct all as [|t0 [|t1 all]]; [discriminate P| |cbn in La; discriminate La].
          inversion UA as [|? ? U0 _]; subst. pose proof (proj1 FU t0 U0) as V0.
          assert (D : exists k0 l0, single [t0] = Ok [(k0, l0)] /\ incl (leaves t0) (lv l0) /\
                        Forall vf l0 /\ incl (lv l0) (lv (terms_set l0))).
          { destruct t0 as [o a|v i|g|cp s p|c0 l0]; cbn [single];
              try (eexists; eexists; split; [reflexivity|]; rewrite !terms_set_one;
                   split; [cbn [flat_map]; rewrite app_nil_r; apply incl_refl|];
                   split; [constructor; [exact V0|constructor]|apply incl_refl]).
            exists (Some c0), l0. split; [reflexivity|]. split; [apply incl_refl|].
            split; [exact (vf_down c0 l0 V0)|].
            destruct (collect_from _ _ _ _ (Comp c0 l0) Ec (or_introl eq_refl))
              as [(k & ts' & H1 & H2)|(c' & ts' & H1 & H2)].
            - eapply Forall_In in S1; [|exact H1]. cbn [snd] in S1. eapply Forall_In in S1; [|exact H2].
              destruct S1 as (_ & _ & S1). apply (lv_set U); [exact FU|]. apply Forall_forall. intros x Hx.
              apply S1. eapply occ_comp; [exact Hx|constructor].
            - destruct (S4 c' ts' H1) as [Hc' _].
              eapply Forall_In in S1; [|exact H1]. cbn [snd] in S1.
              destruct (created_set c' ts' (Comp c0 l0) Hc' (SV _ S1) H2) as (c1 & l1 & [= <- <-] & _ & _ & Es).
              rewrite Es. apply incl_refl. }
          destruct D as (k0 & l0 & Es & D1 & D2 & D3). rewrite Es in P. cbn [bind] in P.
          apply step4_set in P. destruct P as (k1 & l1 & n1 & [= <- <- <-] & -> & Cc).
          split; [|split; [apply CS; exact Cc|split]].
          * eapply incl_tran; [exact L|]. eapply incl_tran; [exact LA|]. cbn [flat_map]. rewrite app_nil_r.
            eapply incl_tran; [exact D1|exact D3].
          * apply terms_set_forall. exact D2.
          * apply terms_set_sorted. exact D2.
      - apply step4_set in P. destruct P as (k1 & l1 & n1 & -> & -> & Cc).
        apply Nat.ltb_ge in Ln. destruct n1; [|cbn in Ln; lia].
        inversion S1 as [|? ? S1' _]; subst. cbn [snd] in S1'.
        split; [|split; [apply CS; exact Cc|split]].
        + eapply incl_tran; [exact L|]. cbn [flat_map snd]. rewrite app_nil_r.
          apply (lv_set U); [exact FU|apply sane_U; exact S1'].
        + apply terms_set_forall, SV, S1'.
        + apply terms_set_sorted, SV, S1'. }
    destruct G as (G1 & G2 & G3 & G4). cbn [leaves]. destruct b; [exact G1|].
    unfold mk_terms. rewrite G2, terms_set_id by assumption. exact G1.
  Qed.
End Kept.

(* ---- C11 ---- *)
Lemma no_leaf_lost ord b con args t : any_order ord -> set_like con -> ~ intersection con ->
  Forall solid args -> (forall x c l, In x args -> occurs (Comp c l) x -> ~ intersection c) ->
  collision_free (fun u => (exists x, In x args /\ occurs u x) \/
    gathers ord con (mk_terms (is_commutative con) args) u) ->
  compound ord b con args = Ok t ->
  forall x, In x (leaves t) <-> In x (flat_map leaves args).
Proof.
  intros Ho Hs Ni Hsol Hi F E x. split; [apply (leaves_incl ord Ho _ _ _ _ E)|]. revert x.
  apply collision_free_iff in F. set (U := fun u => _) in F.
  assert (Hc : is_commutative con = true) by (apply set_like_iff; exact Hs).
  assert (Sa : Forall (sane U) args).
  { rewrite Forall_forall in *. intros y Hy. split; [apply Hsol; exact Hy|]. split.
    - intros c l. apply Hi. exact Hy.
    - intros u Hu. left. exists y. split; assumption. }
  unfold compound, mk_terms in *. rewrite Hc in *.
  change (incl (lv args) (leaves t)). eapply incl_tran; [apply (lv_set U); [exact F|]|].
  - apply Forall_forall. intros y Hy. left. exists y. split; [exact Hy|constructor].
  - apply (leaves_kept U F ord Ho _ b con (terms_set args) t (below_fuel_for _) Hc Ni); [apply terms_set_forall; exact Sa| |exact E].
    intros u Hu. right. rewrite Hc. exact Hu.
Qed.

Definition or_BAB : term := Comp Disjunction [B; A; B].
Lemma C11_untidy : set_like Conjunction /\ ~ intersection Conjunction /\ Forall solid [C; or_BAB] /\
  (forall x c l, In x [C; or_BAB] -> occurs (Comp c l) x -> ~ intersection c) /\
  collision_free (fun u => (exists x, In x [C; or_BAB] /\ occurs u x) \/
    gathers id_order Conjunction (mk_terms (is_commutative Conjunction) [C; or_BAB]) u) /\
  compound id_order true Conjunction [C; or_BAB] = Ok (Comp Conjunction (terms_set [C; or_AB])).
Proof.
  assert (W : forall t, (forall c l, t <> Comp c l) -> solid t)
    by (intros t H; apply solid_other; intros (c & l & E & _); exact (H c l E)).
  assert (SA : solid A) by (apply W; discriminate). assert (SB : solid B) by (apply W; discriminate).
  assert (SC : solid C) by (apply W; discriminate).
  assert (Oc : forall u x, In x [C; or_BAB] -> occurs u x -> In u [A; B; C; or_AB; or_BAB]).
  { assert (OA : forall u, occurs u A -> u = A) by (intros u H; inversion H; reflexivity).
    assert (OB : forall u, occurs u B -> u = B) by (intros u H; inversion H; reflexivity).
    assert (OC : forall u, occurs u C -> u = C) by (intros u H; inversion H; reflexivity).
    intros u x [<-|[<-|[]]] H; [apply OC in H; subst; cbn; tauto|].
    unfold or_BAB in H. inversion H as [|? ? ? ?|? ? ? ?|? ? y Hy Ho]; subst; [cbn; tauto|].
    destruct Hy as [<-|[<-|[<-|[]]]]; [apply OB in Ho|apply OA in Ho|apply OB in Ho]; subst; cbn; tauto. }
  split; [constructor|]. split; [intros [E|E]; discriminate E|].
  split. { constructor; [exact SC|]. constructor; [|constructor].
    apply solid_comp; [constructor| |discriminate|left; cbn; lia].
    constructor; [exact SB|]. constructor; [exact SA|]. constructor; [exact SB|constructor]. }
  split. { intros x c l Hx Ho. specialize (Oc _ _ Hx Ho).
    destruct Oc as [E|[E|[E|[E|[E|[]]]]]]; try discriminate E; injection E as <- _; intros [E|E]; discriminate E. }
  split; [|vm_compute; reflexivity].
  apply collision_free_sub with (U := fun t => In t [A; B; C; or_AB; or_BAB]).
  2: { apply cf_list; vm_compute; reflexivity. }
  assert (Q : forall n, norm_all Conjunction
     (id_order (categories (flatten_set Conjunction (mk_terms (is_commutative Conjunction) [C; or_BAB])))) = Ok n ->
     forall k ts, In (k, ts) n -> (k = None /\ ts = [C]) \/ (k = Some Disjunction /\ ts = [B; A; B])).
  { intros n E. vm_compute in E. injection E as <-. intros k ts H.
    repeat (destruct H as [H|H]; [injection H as <- <-; vm_compute; tauto|]). destruct H. }
  assert (Q2 : forall n, norm_all Disjunction
     (id_order (categories (flatten_set Disjunction [B; A; B]))) = Ok n ->
     forall k ts, In (k, ts) n -> k = None /\ (ts = [A] \/ ts = [B])).
  { intros n E. vm_compute in E. injection E as <-. intros k ts H.
    repeat (destruct H as [H|H]; [injection H as <- <-; vm_compute; tauto|]). destruct H. }
  assert (G2 : forall con ts u, gathers id_order con ts u ->
            con = Disjunction -> ts = [B; A; B] -> In u [A; B]).
  { intros con ts u H -> ->.
    inversion H as [? ? norm k ts' ? _ En Hin Hu|? ? norm c ts' ? _ En Hin Hu|? ? norm c ts' ? _ En Hin Hu];
      destruct (Q2 norm En _ _ Hin) as [Ek Et]; try discriminate Ek.
    destruct Et as [Et|Et]; rewrite Et in Hu; clear - Hu; simpl in *; tauto. }
  assert (G1 : forall con ts u, gathers id_order con ts u -> con = Conjunction ->
            ts = mk_terms (is_commutative Conjunction) [C; or_BAB] -> In u [A; B; C; or_AB; or_BAB]).
  2: { intros u [(x & Hx & Ho)|H]; [exact (Oc u x Hx Ho)|]. eapply G1; [exact H | reflexivity | reflexivity]. }
  intros con ts u H Ec Ets.
  destruct H as [con ts norm k ts' u _ En Hin Hu|con ts norm c ts' u _ En Hin Hu|con ts norm c ts' u _ En Hin Hu];
    rewrite Ec, Ets in En;
    destruct (Q norm En _ _ Hin) as [[Ek Et]|[Ek Et]]; try discriminate Ek; rewrite Et in Hu.
  - clear - Hu; simpl in *; tauto.
  - clear - Hu; simpl in *; tauto.
  - assert (Ek' : c = Disjunction) by congruence. rewrite Ek' in Hu.
    assert (E : compound_of_terms id_order false Disjunction [B; A; B] = Ok or_AB)
      by (vm_compute; reflexivity).
    assert (Eu : u = or_AB) by congruence. rewrite Eu. right; right; right; left; reflexivity.
  - assert (Ek' : c = Disjunction) by congruence. apply (G2 c _ u) in Hu; [clear - Hu; simpl in *; tauto | exact Ek' | reflexivity].
Qed.
