(* Further facts about the construction of compounds: fuel, iteration order,
   tidy terms, sequences. *)
From Coq Require Import ZArith List Bool Lia Sorting Permutation.
From Verif Require Import Base Hash Enums Term TermSpec TermFacts Terms TermsFacts Compound
  CompoundFacts CompoundSpec.
Import ListNotations.
Local Open Scope Z_scope.

(* ---- links between the specification and the model ---- *)
Lemma set_like_iff c : set_like c <-> is_commutative c = true.
Proof. split; [intros []; reflexivity | destruct c; intro H; try discriminate H; constructor]. Qed.

Lemma plain_iff c : plain c <-> is_reducible c = false.
Proof. split; [intros []; reflexivity | destruct c; intro H; try discriminate H; constructor]. Qed.

Lemma collision_free_iff U : collision_free U <-> faithful U.
Proof.
  unfold collision_free, faithful. split; intros [H1 H2]; split; try exact H2; intros x Hx;
    apply vf_iff; auto.
Qed.

Lemma category_none t : category t = None <-> ~ set_compound t.
Proof.
  split.
  - intros H (c & l & -> & Hc). apply set_like_iff in Hc. simpl in H. rewrite Hc in H. discriminate H.
  - intro H. destruct t as [| | | |c l]; try reflexivity. simpl.
    destruct (is_commutative c) eqn:E; [|reflexivity]. exfalso. apply H. exists c, l.
    split; [reflexivity | apply set_like_iff; exact E].
Qed.

Lemma has_connector_iff c t : has_connector c t = true <-> exists l, t = Comp c l.
Proof.
  split.
  - destruct t as [| | | |c' l]; try discriminate. simpl. intro E. apply con_eqb_eq in E. subst. eauto.
  - intros [l ->]. simpl. apply con_eqb_eq. reflexivity.
Qed.

Lemma unfolds_flat c l : unfolds c l (expand_seq c l).
Proof.
  induction l as [|t l IH]; simpl; [constructor|].
  destruct (has_connector c t) eqn:E.
  - apply has_connector_iff in E. destruct E as [l' ->]. simpl. constructor. exact IH.
  - constructor; [| exact IH]. intros l' ->.
    assert (has_connector c (Comp c l') = true) by (apply has_connector_iff; eauto). congruence.
Qed.

Lemma unfolds_fun c l r : unfolds c l r -> r = expand_seq c l.
Proof.
  induction 1 as [|l' l r H IH|t l r Ht H IH]; simpl; [reflexivity| |].
  - replace (con_eqb c c) with true by (symmetry; apply con_eqb_eq; reflexivity).
    rewrite IH. reflexivity.
  - destruct (has_connector c t) eqn:E; [|rewrite IH; reflexivity].
    apply has_connector_iff in E. destruct E as [l' ->]. exfalso. eapply Ht. reflexivity.
Qed.

Lemma flatten_expand c l : flatten_set c l = terms_set (expand_seq c l).
Proof. reflexivity. Qed.

(* ---- fuel ---- *)
Lemma collect_ext mk1 mk2 parent : forall norm,
  (forall c ts, In (Some c, ts) norm -> check_valid c (Z.of_nat (length ts)) = true ->
     mk1 c ts = mk2 c ts) ->
  collect mk1 parent norm = collect mk2 parent norm.
Proof.
  induction norm as [|[k ts] norm IH]; simpl; intro H; [reflexivity|].
  rewrite IH by (intros; apply H; auto).
  destruct k as [c|]; [|reflexivity].
  destruct (con_eqb c parent); [reflexivity|].
  destruct (check_valid c _) eqn:V; [|reflexivity].
  rewrite (H c ts) by auto. reflexivity.
Qed.

Definition below (n : nat) (ts : list term) : Prop := Forall (fun t => (S (depth t) <= n)%nat) ts.

Lemma below_flat con n ts : below (S n) ts ->
  Forall (fun t => (depth t <= n)%nat) (flatten_set con ts).
Proof.
  intro H. apply terms_set_forall. apply Forall_forall. intros x Hx. apply in_flat_map in Hx.
  destruct Hx as [t [Hin Hx]]. unfold below in H. eapply Forall_In in H; [| exact Hin]. cbv beta in H.
  destruct (has_connector con t) eqn:E.
  - destruct t as [| | | |c' l']; try discriminate E. simpl in Hx.
    pose proof (depth_component c' l' x Hx). lia.
  - destruct Hx as [<-|[]]. lia.
Qed.

Lemma norm_below ord con n ts norm : any_order ord -> below (S n) ts ->
  norm_all con (ord (categories (flatten_set con ts))) = Ok norm ->
  forall c ts', In (Some c, ts') norm -> below n ts'.
Proof.
  intros Ho Hb E c ts' Hin.
  assert (Hcat : Forall (entry_ok (fun t => (depth t <= n)%nat))
                   (ord (categories (flatten_set con ts))))
    by (apply any_order_forall; [exact Ho | apply categories_ok, below_flat; exact Hb]).
  pose proof (norm_all_depth _ _ _ _ Hcat E) as Hn. eapply Forall_In in Hn; [| exact Hin].
  apply Hn. simpl. discriminate.
Qed.

Lemma check_valid_pos c n : check_valid c n = true -> 0 < n.
Proof.
  unfold check_valid. intro H. apply andb_prop in H. destruct H as [_ H].
  apply Z.ltb_lt in H. exact H.
Qed.

Lemma below_zero ts : below 0 ts -> ts = [].
Proof. intro H. destruct ts; [reflexivity|]. inversion H; lia. Qed.

Lemma fuel_enough ord : any_order ord -> forall f1 f2 b con ts,
  below f1 ts -> below f2 ts -> (0 < f1)%nat -> (0 < f2)%nat ->
  compound_fuel ord f1 b con ts = compound_fuel ord f2 b con ts.
Proof.
  intros Ho. induction f1 as [|f1 IH]; intros [|f2] b con ts H1 H2 P1 P2; try lia. simpl.
  unfold preprocess.
  destruct (is_reducible con); simpl; [|reflexivity].
  destruct (is_commutative con); [|reflexivity].
  destruct (norm_all con (ord (categories (flatten_set con ts)))) as [norm| | |] eqn:En; simpl;
    try reflexivity.
  destruct (Nat.ltb 1 (length norm)); [|reflexivity].
  replace (collect (compound_fuel ord f2 false) con norm)
    with (collect (compound_fuel ord f1 false) con norm); [reflexivity|].
  apply collect_ext. intros c ts' Hin V. apply check_valid_pos in V.
  pose proof (norm_below ord con f1 ts norm Ho H1 En c ts' Hin) as B1.
  pose proof (norm_below ord con f2 ts norm Ho H2 En c ts' Hin) as B2.
  apply IH; try assumption.
  - destruct f1; [apply below_zero in B1; subst; simpl in V; lia | lia].
  - destruct f2; [apply below_zero in B2; subst; simpl in V; lia | lia].
Qed.

Lemma below_fuel_for ts : below (fuel_for ts) ts.
Proof.
  unfold below, fuel_for.
  assert (L : (list_max (map depth ts) <= list_max (map depth ts))%nat) by lia.
  apply list_max_le in L. rewrite Forall_forall in L. apply Forall_forall.
  intros t Ht. specialize (L (depth t) (in_map depth _ _ Ht)). lia.
Qed.

Lemma compound_fuel_S ord f b con ts :
  compound_fuel ord (S f) b con ts =
    bind (preprocess ord (compound_fuel ord f false) con ts) (fun r =>
      let '(c, l) := r in Ok (Comp c (if b then l else mk_terms (is_commutative c) l))).
Proof. reflexivity. Qed.

(* The equation of the C++ constructor, with no fuel left. *)
Lemma compound_of_terms_eq ord b con ts : any_order ord ->
  compound_of_terms ord b con ts =
    bind (preprocess ord (compound_of_terms ord false) con ts) (fun r =>
      let '(c, l) := r in Ok (Comp c (if b then l else mk_terms (is_commutative c) l))).
Proof.
  intro Ho. unfold compound_of_terms at 1. unfold fuel_for. rewrite compound_fuel_S.
  replace (preprocess ord (compound_fuel ord (S (list_max (map depth ts))) false) con ts)
    with (preprocess ord (compound_of_terms ord false) con ts); [reflexivity|].
  unfold preprocess.
  destruct (is_reducible con); cbn [negb]; [|reflexivity].
  destruct (is_commutative con); [|reflexivity].
  destruct (norm_all con (ord (categories (flatten_set con ts)))) as [norm| | |] eqn:En; cbn [bind];
    try reflexivity.
  destruct (Nat.ltb 1 (length norm)); [|reflexivity].
  replace (collect (compound_fuel ord (S (list_max (map depth ts))) false) con norm)
    with (collect (compound_of_terms ord false) con norm); [reflexivity|].
  apply collect_ext. intros c ts' Hin V.
  pose proof (norm_below ord con _ ts norm Ho (below_fuel_for ts) En c ts' Hin) as B1.
  apply fuel_enough; [exact Ho | apply below_fuel_for | exact B1 | unfold fuel_for; lia | lia].
Qed.

(* ---- argument order ---- *)
Lemma compound_args_ext ord b con l1 l2 U :
  is_commutative con = true -> faithful U -> Forall U l1 ->
  (forall x, In x l1 <-> In x l2) -> compound ord b con l1 = compound ord b con l2.
Proof.
  intros Hc F H1 E. unfold compound, mk_terms. rewrite Hc.
  rewrite (terms_set_ext U l1 l2); [reflexivity | exact F | exact H1 | | exact E].
  apply Forall_forall. intros x Hx. apply E in Hx. eapply Forall_In; eassumption.
Qed.

(* ---- iteration order of the hash map ---- *)
(* The terms that Step 3 of the construction of a compound, or of a compound
   created by it, puts into a set. *)
Inductive gathers (ord : cmap -> cmap) : connector -> list term -> term -> Prop :=
| gth_member con ts norm k ts' u :
    is_commutative con = true ->
    norm_all con (ord (categories (flatten_set con ts))) = Ok norm ->
    In (k, ts') norm -> In u ts' -> gathers ord con ts u
| gth_created con ts norm c ts' u :
    is_commutative con = true ->
    norm_all con (ord (categories (flatten_set con ts))) = Ok norm ->
    In (Some c, ts') norm -> compound_of_terms ord false c ts' = Ok u -> gathers ord con ts u
| gth_inner con ts norm c ts' u :
    is_commutative con = true ->
    norm_all con (ord (categories (flatten_set con ts))) = Ok norm ->
    In (Some c, ts') norm -> gathers ord c ts' u -> gathers ord con ts u.

Lemma norm_all_perm parent m1 m2 : Permutation m1 m2 -> forall n1, norm_all parent m1 = Ok n1 ->
  exists n2, norm_all parent m2 = Ok n2 /\ Permutation n1 n2.
Proof.
  induction 1 as [|e m1 m2 P IH|e1 e2 m|m1 m2 m3 P1 IH1 P2 IH2]; intros n1 E.
  - exists n1; split; [exact E | apply Permutation_refl].
  - simpl in *. destruct (norm_entry parent e) as [a| | |]; try discriminate E. simpl in *.
    destruct (norm_all parent m1) as [b| | |]; try discriminate E. simpl in E. injection E as <-.
    destruct (IH b eq_refl) as [b' [-> P']]. simpl. eexists; split; [reflexivity|].
    apply Permutation_app_head. exact P'.
  - simpl in *. destruct (norm_entry parent e2) as [a2| | |]; try discriminate E. simpl in *.
    destruct (norm_entry parent e1) as [a1| | |]; try discriminate E. simpl in *.
    destruct (norm_all parent m) as [b| | |]; try discriminate E. simpl in *. injection E as <-.
    eexists; split; [reflexivity|]. rewrite !app_assoc. apply Permutation_app_tail.
    apply Permutation_app_comm.
  - destruct (IH1 n1 E) as [n2 [E2 Q2]]. destruct (IH2 n2 E2) as [n3 [E3 Q3]].
    exists n3; split; [exact E3 | eapply Permutation_trans; eassumption].
Qed.

(* Step 3 is a map followed by a concatenation. *)
Definition collect1 (mk : connector -> list term -> res term) (parent : connector)
    (e : option connector * list term) : res (list term) :=
  match fst e with
  | None => Ok (snd e)
  | Some c =>
      if con_eqb c parent then Ok (snd e)
      else if check_valid c (Z.of_nat (length (snd e)))
      then bind (mk c (snd e)) (fun t => Ok [t])
      else Ok []
  end.

Lemma collect_cons mk parent e norm :
  collect mk parent (e :: norm) =
    bind (collect1 mk parent e) (fun a => bind (collect mk parent norm) (fun b => Ok (a ++ b))).
Proof. destruct e as [[c|] ts]; reflexivity. Qed.

Lemma collect_perm mk parent m1 m2 : Permutation m1 m2 ->
  (forall e, In e m1 -> (exists r, collect1 mk parent e = Ok r) \/ collect1 mk parent e = UB) ->
  (exists a1 a2, collect mk parent m1 = Ok a1 /\ collect mk parent m2 = Ok a2 /\ Permutation a1 a2)
  \/ (collect mk parent m1 = UB /\ collect mk parent m2 = UB).
Proof.
  induction 1 as [|e m1 m2 P IH|e1 e2 m|m1 m2 m3 P1 IH1 P2 IH2]; intro H.
  - left. exists [], []. repeat split; constructor.
  - rewrite !collect_cons.
    destruct (H e (or_introl eq_refl)) as [[r ->]| ->]; simpl; [|right; split; reflexivity].
    destruct IH as [(a1 & a2 & -> & -> & Q)|[-> ->]]; [intros; apply H; right; assumption| |].
    + left. simpl. exists (r ++ a1), (r ++ a2). repeat split. apply Permutation_app_head. exact Q.
    + right. split; reflexivity.
  - rewrite !collect_cons.
    destruct (H e1 (or_intror (or_introl eq_refl))) as [[r1 E1]|E1];
    destruct (H e2 (or_introl eq_refl)) as [[r2 E2]|E2]; rewrite ?E1, ?E2; simpl;
      try (right; split; reflexivity).
    destruct (collect mk parent m) as [b| | |] eqn:Eb; simpl.
    + left. exists (r2 ++ r1 ++ b), (r1 ++ r2 ++ b). repeat split.
      rewrite !app_assoc. apply Permutation_app_tail, Permutation_app_comm.
    + right; split; reflexivity.
    + exfalso. revert Eb. assert (C : (exists r, collect mk parent m = Ok r) \/ collect mk parent m = UB).
      { assert (Hm : forall e, In e m -> (exists r, collect1 mk parent e = Ok r) \/ collect1 mk parent e = UB)
          by (intros; apply H; right; right; assumption).
        clear - Hm. induction m as [|e m IHm]; [left; eexists; reflexivity|]. rewrite collect_cons.
        destruct (Hm e (or_introl eq_refl)) as [[r ->]| ->]; simpl; [|right; reflexivity].
        destruct IHm as [[b ->]| ->]; [intros; apply Hm; right; assumption | left; eexists; reflexivity
          | right; reflexivity]. }
      destruct C as [[r ->]| ->]; discriminate.
    + exfalso. revert Eb. assert (C : (exists r, collect mk parent m = Ok r) \/ collect mk parent m = UB).
      { assert (Hm : forall e, In e m -> (exists r, collect1 mk parent e = Ok r) \/ collect1 mk parent e = UB)
          by (intros; apply H; right; right; assumption).
        clear - Hm. induction m as [|e m IHm]; [left; eexists; reflexivity|]. rewrite collect_cons.
        destruct (Hm e (or_introl eq_refl)) as [[r ->]| ->]; simpl; [|right; reflexivity].
        destruct IHm as [[b ->]| ->]; [intros; apply Hm; right; assumption | left; eexists; reflexivity
          | right; reflexivity]. }
      destruct C as [[r ->]| ->]; discriminate.
  - destruct (IH1 H) as [(a1 & a2 & E1 & E2 & Q)|[E1 E2]];
    (destruct IH2 as [(b1 & b2 & F1 & F2 & R)|[F1 F2]];
     [ intros e He; apply H; eapply Permutation_in; [apply Permutation_sym; exact P1 | exact He] | |]);
    try congruence.
    + left. exists a1, b2. repeat split; [exact E1 | exact F2|].
      eapply Permutation_trans; [exact Q|]. replace a2 with b1 by congruence. exact R.
    + right. split; congruence.
Qed.

Lemma gathers_forall_all ord (U : term -> Prop) con ts norm all :
  is_commutative con = true ->
  (forall u, gathers ord con ts u -> U u) ->
  norm_all con (ord (categories (flatten_set con ts))) = Ok norm ->
  collect (compound_of_terms ord false) con norm = Ok all -> Forall U all.
Proof.
  intros Hc HU En. revert all.
  assert (HI : incl norm norm) by apply incl_refl. revert HI.
  generalize norm at 1 3. intro n. induction n as [|e n IH]; intros HI all E.
  - injection E as <-. constructor.
  - rewrite collect_cons in E.
    destruct (collect1 _ _ e) as [a| | |] eqn:Ea; try discriminate E. simpl in E.
    destruct (collect _ _ n) as [b| | |]; try discriminate E. simpl in E. injection E as <-.
    apply Forall_app; split.
    2: { apply IH; [intros x Hx; apply HI; right; exact Hx | reflexivity]. }
    assert (He : In e norm) by (apply HI; left; reflexivity).
    destruct e as [k ts']. unfold collect1 in Ea. simpl in Ea.
    assert (Hm : Forall U ts').
    { apply Forall_forall. intros u Hu. apply HU. eapply gth_member; eassumption. }
    destruct k as [c|]; [| injection Ea as <-; exact Hm].
    destruct (con_eqb c con); [injection Ea as <-; exact Hm|].
    destruct (check_valid c _); [| injection Ea as <-; constructor].
    destruct (compound_of_terms ord false c ts') as [t| | |] eqn:Et; try discriminate Ea.
    injection Ea as <-. repeat constructor. apply HU. eapply gth_created; eassumption.
Qed.

Lemma any_order_independent ord1 ord2 (U : term -> Prop) : any_order ord1 -> any_order ord2 -> faithful U ->
  forall n b con ts, below n ts -> (forall u, gathers ord1 con ts u -> U u) ->
    compound_of_terms ord1 b con ts = compound_of_terms ord2 b con ts.
Proof.
  intros O1 O2 F. induction n as [n IH] using (well_founded_induction lt_wf).
  intros b con ts B HU.
  rewrite !compound_of_terms_eq by assumption. unfold preprocess.
  destruct (is_reducible con) eqn:Hr; simpl; [|reflexivity].
  destruct (is_commutative con) eqn:Hc; [|reflexivity].
  set (cats := categories (flatten_set con ts)) in *.
  assert (Pm : Permutation (ord1 cats) (ord2 cats)).
  { eapply Permutation_trans; [apply O1 | apply Permutation_sym, O2]. }
  assert (Hcat : Forall (entry_ok (fun _ => True)) (ord1 cats)).
  { apply any_order_forall; [exact O1|]. apply categories_ok. apply Forall_forall. auto. }
  destruct (norm_all_no_error con _ _ Hcat) as [norm1 E1].
  destruct (norm_all_perm con _ _ Pm _ E1) as [norm2 [E2 Pn]].
  rewrite E1, E2. simpl.
  rewrite <- (Permutation_length Pn).
  destruct (Nat.ltb 1 (length norm1)) eqn:L.
  2: { assert (norm1 = norm2); [| subst; reflexivity].
       apply Nat.ltb_ge in L. destruct norm1 as [|e [|e' n1]]; simpl in L; try lia.
       - symmetry. apply Permutation_nil. exact Pn.
       - symmetry. apply Permutation_length_1_inv. exact Pn. }
  assert (Hext : collect (compound_of_terms ord2 false) con norm2 =
                 collect (compound_of_terms ord1 false) con norm2).
  { apply collect_ext. intros c ts' Hin V. symmetry.
    assert (Hin1 : In (Some c, ts') norm1)
      by (eapply Permutation_in; [apply Permutation_sym; exact Pn | exact Hin]).
    destruct n as [|n].
    - apply below_zero in B. subst ts. exfalso. clear - E1 Hin1 O1 V.
      subst cats. assert (flatten_set con [] = []) as R by reflexivity.
      pose proof (norm_below ord1 con 0 [] norm1 O1 (Forall_nil _) E1 c ts' Hin1) as B.
      apply below_zero in B. subst. apply check_valid_pos in V. simpl in V. lia.
    - apply (IH n); [lia | | ].
      + eapply norm_below; [exact O1 | exact B | exact E1 | exact Hin1].
      + intros u Hu. apply HU. eapply gth_inner; eassumption. }
  rewrite Hext.
  destruct (collect_perm (compound_of_terms ord1 false) con norm1 norm2 Pn)
    as [(a1 & a2 & C1 & C2 & Pa)|[C1 C2]].
  - intros [k ts'] Hin. unfold collect1. simpl. destruct k as [c|]; [|left; eexists; reflexivity].
    destruct (con_eqb c con); [left; eexists; reflexivity|].
    destruct (check_valid c _); [| left; eexists; reflexivity].
    destruct (compound_fuel_outcome ord1 O1 (fuel_for ts') false c ts' (below_fuel_for ts'))
      as [[t E]|E]; [unfold fuel_for; lia| |];
      unfold compound_of_terms; rewrite E; [left; eexists; reflexivity | right; reflexivity].
  - rewrite C1, C2. simpl. rewrite <- (Permutation_length Pa).
    destruct (Nat.ltb 1 (length a1)) eqn:La.
    + simpl. replace (terms_set a2) with (terms_set a1); [reflexivity|].
      assert (U1 : Forall U a1) by (eapply gathers_forall_all; [exact Hc | exact HU | exact E1 | exact C1]).
      apply (terms_set_ext U); [exact F | exact U1 | |].
      * eapply Permutation_Forall; eassumption.
      * intro x. split; [apply Permutation_in; exact Pa | apply Permutation_in, Permutation_sym; exact Pa].
    + assert (a1 = a2); [| subst; reflexivity].
      apply Nat.ltb_ge in La. destruct a1 as [|e [|e' n1]]; simpl in La; try lia.
      * symmetry. apply Permutation_nil. exact Pa.
      * symmetry. apply Permutation_length_1_inv. exact Pa.
  - rewrite C1, C2. reflexivity.
Qed.
