(* Term::clone and the constructors keep the invariant; what a clone shares. *)
From Coq Require Import ZArith List Bool Lia Sorting.
From Verif Require Import Base Hash Enums Term TermSpec TermFacts CompoundSpec Terms Compound CompoundFacts2
  IndexVar Object ObjectSpec ObjectFacts ObjectFacts2.
Import ListNotations.

(* ---- copying a variable ---- *)

Lemma clone_iv_spec : forall h n h' m, clone_iv h n = (h', m) ->
  ext h h' /\ m = length (nodes h) /\ length (nodes h') = S m /\ next_id h' = next_id h
  /\ (forall is ps, lists_are h n is ps -> lists_are h' m is ps)
  /\ iv_successors (node h' m) = []
  /\ Forall (fun c => length (cells h) <= c) (iv_indices (node h' m))
  /\ (iv_indices (node h n) <> [] -> iv_indices (node h' m) <> [])
  /\ (forall q, q < length (nodes h) -> node h' q = node h q).
Proof.
  intros h n h' m E. unfold clone_iv in E.
  set (v := IV _ _ _ _ _ _ _) in E. set (cs := cells h ++ _) in E.
  inversion E as [[Eh Em]]. clear E. rewrite Eh. subst m.
  assert (Nh : nodes h' = nodes h ++ [v]) by (subst h'; reflexivity).
  assert (Ch : cells h' = cs) by (subst h'; reflexivity).
  assert (Ih : next_id h' = next_id h) by (subst h'; reflexivity).
  clear Eh.
  assert (Off : forall q, q < length (nodes h) -> node h' q = node h q).
  { intros q Hq. unfold node. rewrite Nh. apply app_nth1. assumption. }
  assert (Ev : node h' (length (nodes h)) = v).
  { unfold node. rewrite Nh, app_nth2, Nat.sub_diag by lia. reflexivity. }
  split.
  { split; [eexists; exact Ch|]. split; [lia|]. rewrite Nh, app_length. split; [lia|].
    intros q Hq _. rewrite Off by assumption. apply lists_same_refl. }
  split; [reflexivity|]. rewrite Nh, app_length. cbn [length].
  split; [lia|]. split; [assumption|].
  unfold lists_are. rewrite Ev. unfold v. cbn [iv_indices iv_positions iv_successors]. clear Ev v Nh.
  split; [|split; [reflexivity|split; [|split]]].
  - intros is ps (A & B & C).
    split; [|split; [exact B|]].
    + rewrite <- A. unfold values, cell. rewrite Ch. unfold cs, values.
      set (vs := map (cell h) (iv_indices (node h n))).
      change (map (fun c : nat => nth c (cells h) 0%Z) (iv_indices (node h n))) with vs.
      replace (length (iv_indices (node h n))) with (length vs) by (unfold vs; apply map_length).
      clearbody vs. clear. generalize (cells h). intros old. revert old.
      induction vs as [|x vs IH]; intros old; [reflexivity|].
      cbn [length seq map]. f_equal.
      * rewrite app_nth2, Nat.sub_diag by lia. reflexivity.
      * rewrite <- (IH (old ++ [x])) at 2. rewrite app_length. cbn [length].
        replace (length old + 1) with (S (length old)) by lia.
        rewrite <- app_assoc. reflexivity.
    + apply Forall_forall. intros c Hc. apply in_seq in Hc. rewrite Ch. unfold cs. rewrite app_length.
      unfold values. rewrite map_length. lia.
  - apply Forall_forall. intros c Hc. apply in_seq in Hc. lia.
  - intros Hn. destruct (iv_indices (node h n)); [congruence|]. discriminate.
  - exact Off.
Qed.

(* Objects allocated between h and h'. *)
Record fresh_obj (h h' : heap) (x : obj) : Prop := {
  fo_id : (next_id h <= h_id (hdr x))%Z;
  fo_nodes : length (nodes h) <= iv_ind (hdr x) /\ length (nodes h) <= iv_dep (hdr x)
             /\ length (nodes h) <= iv_qry (hdr x);
  fo_cells : Forall (fun c => length (cells h) <= c) (own_cells h' x);
  fo_var : variable_inside x
}.

Record cloned (h h' : heap) (o o' : obj) : Prop := {
  cl_ext : ext h h';
  cl_wf : wf h' o';
  cl_fields : same_fields (hdr o) (hdr o');
  cl_share : forall x, reach o' x -> (reach o x /\ ~ variable_inside x) \/ fresh_obj h h' x;
  cl_indices : forall k, incl (indices_in k (denote h' o')) (indices_in k (denote h o));
  cl_has : has_var (denote h' o') = has_var (denote h o);
  cl_denote : well_ordered (denote h o) -> denote h' o' = denote h o;
  cl_corr : forall x, reach o' x -> exists y, reach o y /\ same_fields (hdr y) (hdr x)
              /\ (well_ordered (denote h y) -> denote h' x = denote h y)
}.

Lemma same_fields_refl : forall d, same_fields d d.
Proof. intros. repeat split. Qed.

Lemma cloned_self : forall h o, wf h o -> h_has_var (hdr o) = false -> cloned h h o o.
Proof.
  intros h o W E. constructor; auto using same_fields_refl, incl_refl.
  - apply frame_refl.
  - intros x R. left. split; [assumption|]. intros V.
    rewrite (wf_has_var _ _ (wf_here _ _ W)) in E.
    assert (variable_inside o).
    { destruct V as (d & k & V). exists d, k. eapply reach_trans; eauto. }
    apply (variable_inside_iff h) in H. congruence.
  - intros x R. exists x. auto using same_fields_refl.
Qed.

Lemma ext_trans : forall a b c, ext a b -> ext b c -> ext a c.
Proof. intros. eapply frame_trans; eauto. Qed.

Lemma ext_cells : forall h h', ext h h' -> length (cells h) <= length (cells h').
Proof. intros h h' ((xs & E) & _). rewrite E, app_length. lia. Qed.
Lemma ext_nodes : forall h h', ext h h' -> length (nodes h) <= length (nodes h').
Proof. intros h h' (_ & _ & L & _). exact L. Qed.
Lemma ext_id : forall h h', ext h h' -> (next_id h <= next_id h')%Z.
Proof. intros h h' (_ & N & _). exact N. Qed.

Lemma bump_ext : forall h, ext h (Heap (cells h) (nodes h) (next_id h + 1)).
Proof.
  intros. split; [exists []; cbn; rewrite app_nil_r; reflexivity|]. cbn. split; [lia|]. split; [lia|].
  intros n _ _. apply lists_same_refl.
Qed.

Lemma lists_are_heap : forall h h' n is ps, cells h' = cells h -> nodes h' = nodes h ->
  lists_are h n is ps -> lists_are h' n is ps.
Proof. intros h h' n is ps Ec En. unfold lists_are, values, cell, node. rewrite Ec, En. auto. Qed.

Lemma copy_var_cloned : forall h d k, wf h (OVar d k) ->
  cloned h (fst (copy_var h d k)) (OVar d k) (snd (copy_var h d k)).
Proof.
  intros h d k W. unfold copy_var.
  set (h0 := Heap (cells h) (nodes h) (next_id h + 1)).
  destruct (clone_iv h0 (iv_ind d)) as [h1 a] eqn:E1.
  destruct (clone_iv h1 (iv_dep d)) as [h2 b] eqn:E2.
  destruct (clone_iv h2 (iv_qry d)) as [h3 c] eqn:E3.
  cbn [fst snd].
  destruct (clone_iv_spec _ _ _ _ E1) as (X1 & Ma & La & I1 & LA1 & S1 & F1 & N1 & O1).
  destruct (clone_iv_spec _ _ _ _ E2) as (X2 & Mb & Lb & I2 & LA2 & S2 & F2 & N2 & O2).
  destruct (clone_iv_spec _ _ _ _ E3) as (X3 & Mc & Lc & I3 & LA3 & S3 & F3 & N3 & O3).
  pose proof (wf_here _ _ W) as W1.
  destruct W1 as [(Wa & Wb & Wc) Wid Ws Wi Wd Wq Wv Wh1 Wh2 Wl]. cbn [hdr] in *.
  assert (X0 : ext h h0) by apply bump_ext.
  assert (X03 : ext h h3) by (eapply ext_trans; [exact X0|]; eapply ext_trans; [exact X1|]; eapply ext_trans; eauto).
  pose proof (ext_nodes _ _ X1) as G1. pose proof (ext_nodes _ _ X2) as G2. pose proof (ext_nodes _ _ X3) as G3.
  pose proof (ext_cells _ _ X1) as H1. pose proof (ext_cells _ _ X2) as H2.
  change (length (nodes h0)) with (length (nodes h)) in *.
  change (length (cells h0)) with (length (cells h)) in *.
  change (next_id h0) with (next_id h + 1)%Z in *.
  match goal with |- cloned _ _ _ ?x => set (o' := x) end.
  (* the lists of the copy *)
  assert (Ea : node h3 a = node h1 a) by (rewrite O3, O2 by lia; reflexivity).
  assert (Eb : node h3 b = node h2 b) by (rewrite O3 by lia; reflexivity).
  assert (LI : forall is ps, lists_are h (iv_ind d) is ps -> lists_are h3 a is ps).
  { intros is ps L. eapply lists_are_frame; [eapply ext_trans; [exact X2|exact X3]|exact I|lia|].
    apply LA1. eapply lists_are_heap; [| |exact L]; reflexivity. }
  assert (LD : forall is ps, lists_are h (iv_dep d) is ps -> lists_are h3 b is ps).
  { intros is ps L. eapply lists_are_frame; [exact X3|exact I|lia|].
    apply LA2. eapply lists_are_frame; [eapply ext_trans; [exact X0|exact X1]|exact I|lia|exact L]. }
  assert (LQ : forall is ps, lists_are h (iv_qry d) is ps -> lists_are h3 c is ps).
  { intros is ps L. apply LA3.
    eapply lists_are_frame; [eapply ext_trans; [exact X0|]; eapply ext_trans; [exact X1|exact X2]|exact I|lia|exact L]. }
  (* the index *)
  assert (Ed : denote h3 o' = denote h (OVar d k)).
  { set (n' := iv_of k (hdr o')).
    change (denote h3 o') with (Var k (cell h3 (hd 0 (iv_indices (node h3 n'))))).
    cbn [denote]. f_equal.
    assert (LL : exists is ps, lists_are h (iv_of k d) is ps /\ lists_are h3 n' is ps).
    { destruct k; [exists (indices_in Independent (denote h (OVar d Independent))), (paths Independent (denote h (OVar d Independent)))
        |exists (indices_in Dependent (denote h (OVar d Dependent))), (paths Dependent (denote h (OVar d Dependent)))
        |exists (indices_in Query (denote h (OVar d Query))), (paths Query (denote h (OVar d Query)))];
      (split; [assumption|]); [apply LI|apply LD|apply LQ]; assumption. }
    destruct LL as (is & ps & (A & _ & _) & (A' & _ & _)).
    assert (Ne : iv_indices (node h3 n') <> []).
    { intros Z. rewrite Z in A'. simpl in A'. rewrite <- A' in A. apply map_eq_nil in A. contradiction. }
    destruct (iv_indices (node h (iv_of k d))) as [|c0 r]; [congruence|].
    destruct (iv_indices (node h3 n')) as [|c1 r1]; [congruence|].
    simpl in *. congruence. }
  assert (V' : variable_inside o') by (exists (hdr o'), k; constructor).
  assert (FO : fresh_obj h h3 o').
  { constructor.
    - cbn. lia.
    - unfold o', iv_ind, iv_dep, iv_qry. cbn. lia.
    - unfold own_cells. unfold o', iv_ind, iv_dep, iv_qry. cbn [hdr h_ivs fst snd].
      rewrite Ea, Eb. repeat (apply Forall_app; split).
      + exact F1.
      + eapply Forall_impl; [|exact F2]. simpl; intros; lia.
      + eapply Forall_impl; [|exact F3]. simpl; intros; lia.
    - exact V'. }
  assert (SF : same_fields d (hdr o')).
  { unfold same_fields, o'. cbn. destruct Wl as (-> & -> & ->). auto 10. }
  constructor; auto.
  - constructor.
    + constructor.
      * unfold o', iv_ind, iv_dep, iv_qry. cbn. lia.
      * cbn. lia.
      * right. unfold o', iv_ind. cbn [hdr h_ivs fst]. rewrite Ea. exact S1.
      * rewrite Ed. apply LI. exact Wi.
      * change (other_lists h3 o') with (fun n k (has : bool) => lists_are h3 n (indices_in k (denote h3 o')) (paths k (denote h3 o'))). cbv beta. rewrite Ed. apply LD. exact Wd.
      * change (other_lists h3 o') with (fun n k (has : bool) => lists_are h3 n (indices_in k (denote h3 o')) (paths k (denote h3 o'))). cbv beta. rewrite Ed. apply LQ. exact Wq.
      * intros Z.
        assert (LL : exists is ps, lists_are h (iv_of k d) is ps /\ lists_are h3 (iv_of k (hdr o')) is ps).
        { destruct k; [exists (indices_in Independent (denote h (OVar d Independent))), (paths Independent (denote h (OVar d Independent)))
            |exists (indices_in Dependent (denote h (OVar d Dependent))), (paths Dependent (denote h (OVar d Dependent)))
            |exists (indices_in Query (denote h (OVar d Query))), (paths Query (denote h (OVar d Query)))];
          (split; [assumption|]); [apply LI|apply LD|apply LQ]; assumption. }
        destruct LL as (is & ps & (A & _ & _) & (A' & _ & _)).
        unfold o' in A'. cbn [hdr] in A'. rewrite Z in A'. simpl in A'. rewrite <- A' in A.
        apply map_eq_nil in A. contradiction.
      * rewrite Ed. exact Wh1.
      * rewrite Ed. exact Wh2.
      * cbn. auto.
    + intros x [].
  - intros x R. right. apply reach_cases in R. destruct R as [->|(y & [] & _)]. exact FO.
  - intros q. rewrite Ed. apply incl_refl.
  - intros x R. exists (OVar d k). split; [constructor|].
    apply reach_cases in R. destruct R as [->|(y & [] & _)]. auto.
Qed.

(* ---- re-insertion of components ---- *)

Lemma oinsert_incl : forall h x s y, In y (oinsert h x s) -> y = x \/ In y s.
Proof.
  induction s as [|z s IH]; simpl; intros y H.
  - intuition.
  - destruct (tlt (denote h x) (denote h z)); [simpl in H; intuition|].
    destruct (tlt (denote h z) (denote h x)); [|auto].
    destruct H as [<-|H]; [auto|]. apply IH in H. intuition.
Qed.

Lemma push_all_incl : forall h b l, incl (push_all h b l) l.
Proof.
  intros h b l. unfold push_all. destruct b; [|apply incl_refl].
  assert (G : forall l s, incl (fold_left (fun s x => oinsert h x s) l s) (s ++ l)).
  { clear. induction l as [|x l IH]; intros s; simpl; [rewrite app_nil_r; apply incl_refl|].
    intros y Hy. apply IH in Hy. apply in_app_or in Hy. apply in_or_app. destruct Hy as [Hy|Hy].
    - apply oinsert_incl in Hy. simpl. intuition.
    - simpl. auto. }
  apply (G l []).
Qed.

Lemma oinsert_has_var : forall h x s,
  existsb has_var (map (denote h) (oinsert h x s))
  = has_var (denote h x) || existsb has_var (map (denote h) s).
Proof.
  induction s as [|z s IH]; simpl; [reflexivity|].
  destruct (tlt (denote h x) (denote h z)) eqn:E1; [reflexivity|].
  destruct (tlt (denote h z) (denote h x)) eqn:E2.
  - simpl. rewrite IH. destruct (has_var (denote h z)), (has_var (denote h x)); reflexivity.
  - assert (E : has_var (denote h x) = has_var (denote h z)).
    { destruct (Z.eq_dec (thash (denote h x)) (thash (denote h z))) as [Eh|Eh].
      - destruct (has_var (denote h x)) eqn:V1, (has_var (denote h z)) eqn:V2; try reflexivity.
        + rewrite tlt_v_nv in E1 by assumption. discriminate.
        + rewrite tlt_v_nv in E2 by (try assumption; symmetry; assumption). discriminate.
      - rewrite tlt_hash_ne in E1 by assumption. rewrite tlt_hash_ne in E2 by congruence.
        apply Z.ltb_ge in E1, E2. lia. }
    simpl. rewrite E. destruct (has_var (denote h z)); reflexivity.
Qed.

Lemma push_all_has_var : forall h b l,
  existsb has_var (map (denote h) (push_all h b l)) = existsb has_var (map (denote h) l).
Proof.
  intros h b l. unfold push_all. destruct b; [|reflexivity].
  assert (G : forall l s, existsb has_var (map (denote h) (fold_left (fun s x => oinsert h x s) l s))
     = existsb has_var (map (denote h) s) || existsb has_var (map (denote h) l)).
  { clear. induction l as [|x l IH]; intros s; simpl; [rewrite orb_false_r; reflexivity|].
    rewrite IH, oinsert_has_var.
    destruct (has_var (denote h x)), (existsb has_var (map (denote h) s)); reflexivity. }
  apply (G l []).
Qed.

Lemma oinsert_last : forall h x s,
  Forall (fun y => (thash (denote h y) < thash (denote h x))%Z) s -> oinsert h x s = s ++ [x].
Proof.
  induction s as [|z s IH]; simpl; intros H; [reflexivity|].
  inversion H as [|? ? H1 H2]; subst.
  rewrite !tlt_hash_ne by lia.
  destruct (Z.ltb_spec (thash (denote h x)) (thash (denote h z))); [lia|].
  destruct (Z.ltb_spec (thash (denote h z)) (thash (denote h x))); [|lia].
  f_equal. auto.
Qed.

Lemma push_all_ascending : forall h b l, ascending (map (denote h) l) -> push_all h b l = l.
Proof.
  intros h b l H. unfold push_all. destruct b; [|reflexivity].
  assert (G : forall l s, ascending (map (denote h) (s ++ l)) -> fold_left (fun s x => oinsert h x s) l s = s ++ l).
  { clear. induction l as [|x l IH]; intros s H; simpl; [rewrite app_nil_r; reflexivity|].
    rewrite oinsert_last.
    - rewrite IH; rewrite <- app_assoc; [reflexivity|exact H].
    - clear IH. induction s as [|y s IHs]; [constructor|].
      simpl in H. inversion H as [|? ? H1 H2]; subst. constructor.
      + rewrite Forall_forall in H2. apply H2. apply in_map. apply in_or_app. right. left. reflexivity.
      + apply IHs. exact H1. }
  apply (G l []). exact H.
Qed.

(* ---- the clone ---- *)

Lemma fresh_obj_mono : forall h0 h h' h2 x, ext h0 h -> ext h' h2 -> wf h' x ->
  fresh_obj h h' x -> fresh_obj h0 h2 x.
Proof.
  intros h0 h h' h2 x X1 X2 W [A B C D].
  pose proof (ext_nodes _ _ X1). pose proof (ext_cells _ _ X1). pose proof (ext_id _ _ X1).
  constructor; try lia; auto.
  destruct (wf_here _ _ W) as [(N1 & N2 & N3) _ _ _ _ _ _ _ _ _].
  destruct X2 as (_ & _ & _ & Dx).
  assert (E : own_cells h2 x = own_cells h' x).
  { unfold own_cells. f_equal; [|f_equal]; apply Dx; auto; exact I. }
  rewrite E. eapply Forall_impl; [|exact C]. simpl. intros; lia.
Qed.

Lemma cloned_mono : forall h0 h h' h2 o o', ext h0 h -> ext h' h2 -> wf h0 o ->
  cloned h h' o o' -> cloned h0 h2 o o'.
Proof.
  intros h0 h h' h2 o o' X1 X2 W0 [A B C D E F G H].
  assert (Eo : denote h o = denote h0 o) by (apply denote_ext; assumption).
  assert (Eo' : denote h2 o' = denote h' o') by (apply denote_ext; assumption).
  constructor; auto.
  - eapply ext_trans; [exact X1|]. eapply ext_trans; eauto.
  - eapply wf_ext; eauto.
  - intros x R. destruct (D x R) as [?|Fx]; [auto|]. right. eapply fresh_obj_mono; eauto.
    eapply wf_reach; eauto.
  - intros k. rewrite Eo'. rewrite <- Eo. apply E.
  - rewrite Eo', <- Eo. assumption.
  - rewrite Eo', <- Eo. assumption.
  - intros x R. destruct (H x R) as (y & Ry & Sf & Dy). exists y. split; [assumption|]. split; [assumption|].
    assert (Ey : denote h y = denote h0 y) by (apply denote_ext; [assumption|eapply wf_reach; eauto]).
    assert (Ex : denote h2 x = denote h' x) by (apply denote_ext; [assumption|eapply wf_reach; eauto]).
    rewrite <- Ey, Ex. exact Dy.
Qed.

Lemma cloned_covers : forall h h0 id ivs h1 h2 o o', new_term h = (h0, id, ivs) ->
  wf h o -> ext h0 h1 -> cloned h1 h2 o o' -> covers (unless3 ivs) o'.
Proof.
  intros h h0 id ivs h1 h2 o o' En W X C x R.
  destruct (new_term_fresh _ _ _ _ En) as (_ & Lo & Hi & _).
  destruct (cl_share _ _ _ _ C x R) as [(R' & _)|[_ (A & B & D) _ _]].
  - destruct (wf_here _ _ (wf_reach _ _ _ W R')) as [(N1 & N2 & N3) _ _ _ _ _ _ _ _ _]. auto.
  - pose proof (ext_nodes _ _ X). repeat split; apply Hi; lia.
Qed.

Lemma empty_node_ext : forall h h' n, ext h h' -> n < length (nodes h) -> node h n = empty_iv -> empty_node h' n.
Proof.
  intros h h' n (_ & _ & _ & D) L E. destruct (D n L I) as (A & B & C & _). rewrite E in A, B, C.
  repeat split; assumption.
Qed.

Definition clones (f : heap -> obj -> res (heap * obj)) (x : obj) : Prop :=
  forall h, wf h x -> exists h' x', f h x = Ok (h', x') /\ cloned h h' x x'.

Lemma map_heap_spec : forall f l h,
  (forall x, In x l -> clones f x) -> (forall x, In x l -> wf h x) ->
  exists h' l', map_heap f h l = Ok (h', l') /\ ext h h' /\ Forall2 (cloned h h') l l'.
Proof.
  induction l as [|x l IH]; intros h Hf Hw.
  - exists h, []. split; [reflexivity|]. split; [apply frame_refl|constructor].
  - destruct (Hf x (or_introl eq_refl) h (Hw x (or_introl eq_refl))) as (h1 & x' & E1 & C1).
    pose proof (cl_ext _ _ _ _ C1) as X1.
    destruct (IH h1) as (h2 & l' & E2 & X2 & C2).
    + intros; apply Hf; simpl; auto.
    + intros; eapply wf_ext; [exact X1|]; apply Hw; simpl; auto.
    + exists h2, (x' :: l'). cbn [map_heap]. rewrite E1. cbn [bind fst snd].
      change ((fix go (h : heap) (l : list obj) {struct l} : res (heap * list obj) :=
                 match l with
                 | [] => Ok (h, [])
                 | x :: l'0 => bind (f h x) (fun r => bind (go (fst r) l'0) (fun r' => Ok (fst r', snd r :: snd r')))
                 end) h1 l) with (map_heap f h1 l).
      rewrite E2. cbn [bind fst snd]. split; [reflexivity|].
      split; [eapply ext_trans; eauto|]. constructor.
      * eapply cloned_mono; [apply frame_refl|exact X2|apply Hw; simpl; auto|exact C1].
      * assert (Hw' : forall y, In y l -> wf h y) by (intros; apply Hw; simpl; auto).
        clear - C2 X1 Hw'. induction C2 as [|y y' l l' Cy C2 IH]; constructor.
        -- eapply cloned_mono; [exact X1|apply frame_refl|apply Hw'; simpl; auto|exact Cy].
        -- apply IH. intros; apply Hw'; simpl; auto.
Qed.

Lemma Forall2_In_r : forall A B (R : A -> B -> Prop) l l' y, Forall2 R l l' -> In y l' ->
  exists x, In x l /\ R x y.
Proof.
  induction 1 as [|a b l l' Hab H IH]; intros Hy; [contradiction|].
  destruct Hy as [<-|Hy]; [exists a; simpl; auto|].
  destruct (IH Hy) as (x & Hx & Hr). exists x. simpl; auto.
Qed.

Lemma well_ordered_part : forall h o x, well_ordered (denote h o) -> In x (parts o) -> well_ordered (denote h x).
Proof.
  intros h o x H Hx c l Hc Ho. apply (H c l Hc).
  destruct o as [d b|d k|d n|d c0 s p|d c0 l0]; simpl in Hx; try contradiction; cbn [denote].
  - destruct Hx as [<-|[<-|[]]]; [apply occ_subj|apply occ_pred]; assumption.
  - eapply occ_comp; [|exact Ho]. apply in_map. assumption.
Qed.

(* Common part of the two deep copies. *)
Lemma deep_copy : forall h h0 id ivs h2 h3 (o o' : obj) l ts,
  wf h o -> h_has_var (hdr o) = true ->
  new_term h = (h0, id, ivs) ->
  ext h0 h2 -> (forall t, In t ts -> exists x, In x l /\ cloned h0 h2 x t) ->
  (forall x, In x l -> In x (parts o)) ->
  hdr o' = copy_header (hdr o) id ivs ->
  (exists c, o' = OComp (hdr o') c ts) \/ (exists c s p, o' = OStmt (hdr o') c s p /\ ts = [s; p]) ->
  (forall x k v, In x ts -> In v (indices_in k (denote h2 x)) -> In v (indices_in k (denote h o))) ->
  indices_in Independent (denote h2 o') = flat_map (indices_in Independent) (map (denote h2) ts) ->
  (forall k, indices_in k (denote h2 o') = flat_map (indices_in k) (map (denote h2) ts)) ->
  existsb has_var (map (denote h2) ts) = true ->
  (well_ordered (denote h o) -> denote h2 o' = denote h o) ->
  build_indexvars (init_indexvars h2 ivs ts) (copy_header (hdr o) id ivs) = Ok h3 ->
  cloned h h3 o o'.
Proof.
  intros h h0 id ivs h2 h3 o o' l ts W Hv En X02 Hts Hl Hh Ho Hind _ Hk He Hd Eb.
  destruct (new_term_spec _ _ _ _ En) as (Xh0 & Eid & Enx & Ec0 & Eivs & L0 & N0).
  destruct (new_term_fresh _ _ _ _ En) as (Fr & Lo & Hi & Em).
  assert (Eh' : h_ivs (hdr o') = ivs) by (rewrite Hh; reflexivity).
  assert (Xh2 : ext h h2) by (eapply ext_trans; eauto).
  assert (Wl : forall x, In x l -> wf h x) by (intros; eapply wf_parts; eauto).
  assert (Hcov : forall t, In t ts -> wf h2 t /\ covers (unless3 ivs) t).
  { intros t Ht. destruct (Hts t Ht) as (x & Hx & C). split; [apply C|].
    eapply cloned_covers; [exact En|apply Wl, Hx|apply frame_refl|exact C]. }
  assert (Fr2 : fresh3 h2 ivs).
  { pose proof (ext_nodes _ _ X02). destruct ivs as [[a b] c]. unfold fresh3 in *. lia. }
  destruct (finish h2 h3 o' ts) as (T & W' & De & Inc).
  { rewrite Eh'. exact Hcov. }
  { rewrite Eh'. exact Fr2. }
  { rewrite Eh'. intros n Hn. destruct (Em n Hn) as (_ & Ee). eapply empty_node_ext; [exact X02| |exact Ee].
    destruct (lt_dec n (length (nodes h0))) as [|G]; [assumption|]. exfalso. apply Hn. apply Hi. lia. }
  { rewrite Hh. cbn. pose proof (ext_id _ _ X02). rewrite Enx in H. lia. }
  { exact Ho. }
  { rewrite Hh. cbn [copy_header h_has_ivar]. intros Ef.
    pose proof (wf_has_ivar _ _ (wf_here _ _ W) Ef) as Z.
    destruct (flat_map (indices_in Independent) (map (denote h2) ts)) as [|v r] eqn:E; [reflexivity|].
    exfalso. assert (Iv : In v (flat_map (indices_in Independent) (map (denote h2) ts))) by (rewrite E; left; reflexivity).
    apply in_flat_map in Iv. destruct Iv as (t & Ht & Iv). apply in_map_iff in Ht. destruct Ht as (x & <- & Hx).
    specialize (Hind x Independent v Hx Iv). rewrite Z in Hind. contradiction. }
  { rewrite He, Hh. exact Hv. }
  { rewrite Eh', Hh. exact Eb. }
  rewrite Eh' in T.
  assert (X23 : ext h h3).
  { eapply frame_after; [exact Xh2|exact (touch_frame _ _ _ T)|]. intros n Ln _. apply Lo. assumption. }
  assert (Vo : variable_inside o').
  { apply (variable_inside_iff h3). rewrite <- (wf_has_var _ _ (wf_here _ _ W')), Hh. exact Hv. }
  assert (Hk' : forall k, incl (indices_in k (denote h3 o')) (indices_in k (denote h o))).
  { intros k v Iv. rewrite De, Hk in Iv. apply in_flat_map in Iv. destruct Iv as (t & Ht & Iv).
    apply in_map_iff in Ht. destruct Ht as (x & <- & Hx). eapply Hind; eauto. }
  constructor; auto.
  - rewrite Hh. repeat split.
  - intros x R. apply reach_cases in R. destruct R as [->|(t & Ht & R)].
    + right. constructor; auto.
      * rewrite Hh. cbn. lia.
      * rewrite Hh. unfold iv_ind, iv_dep, iv_qry. cbn. rewrite Eivs. cbn. lia.
      * apply Forall_forall. intros c Hc. apply Inc in Hc. apply in_flat_map in Hc.
        destruct Hc as (t & Ht & Hc). destruct (Hts t Ht) as (y & Hy & C).
        destruct (cl_share _ _ _ _ C t (reach_self _)) as [(_ & Nv)|Fo].
        -- rewrite (no_var_no_cells h2 t) in Hc; [contradiction|apply C|].
           destruct (has_var (denote h2 t)) eqn:Ev; [|reflexivity].
           exfalso. apply Nv. apply (variable_inside_iff h2). assumption.
        -- destruct Fo as [_ _ Fc _]. rewrite Forall_forall in Fc. apply Fc in Hc.
           rewrite Ec0 in Hc. assumption.
    + assert (Ht' : In t ts).
      { destruct Ho as [[c Ho]|(c & s & p & Ho & ->)]; rewrite Ho in Ht; exact Ht. }
      destruct (Hts t Ht') as (y & Hy & C).
      destruct (cl_share _ _ _ _ C x R) as [(R' & Nv)|Fo].
      * left. split; [|assumption]. apply reach_cases. right. exists y. auto.
      * right. destruct Fo as [A (B1 & B2 & B3) Cc Dd].
        pose proof (ext_nodes _ _ Xh0). pose proof (ext_id _ _ Xh0).
        constructor; [lia|lia| |exact Dd].
        assert (Eoc : own_cells h3 x = own_cells h2 x).
        { destruct (Hcov t Ht') as (Wt & Ct). destruct (Ct x R) as (U1 & U2 & U3).
          destruct (wf_here _ _ (wf_reach _ _ _ Wt R)) as [(M1 & M2 & M3) _ _ _ _ _ _ _ _ _].
          destruct T as (_ & _ & _ & Dt). unfold own_cells.
          f_equal; [|f_equal]; apply Dt; assumption. }
        rewrite Eoc. rewrite Ec0 in Cc. exact Cc.
  - rewrite <- (wf_has_var _ _ (wf_here _ _ W)), <- (wf_has_var _ _ (wf_here _ _ W')), Hh. reflexivity.
  - intros Wo. rewrite De. auto.
  - intros x R. apply reach_cases in R. destruct R as [->|(t & Ht & R)].
    + exists o. split; [constructor|]. split; [rewrite Hh; repeat split|].
      intros Wo. rewrite De. auto.
    + assert (Ht' : In t ts).
      { destruct Ho as [[c Ho]|(c & s & p & Ho & ->)]; rewrite Ho in Ht; exact Ht. }
      destruct (Hts t Ht') as (z & Hz & C).
      destruct (cl_corr _ _ _ _ C x R) as (y & Ry & Sf & Dy).
      exists y. split; [apply reach_cases; right; exists z; auto|]. split; [assumption|].
      destruct (Hcov t Ht') as (Wt & Ct).
      assert (Ex : denote h3 x = denote h2 x).
      { apply (denote_frame (unless3 ivs)); [exact (touch_frame _ _ _ T)|eapply wf_reach; eauto|].
        intros w Rw. apply Ct. eapply reach_trans; eauto. }
      assert (Ey : denote h0 y = denote h y).
      { apply denote_ext; [assumption|]. eapply wf_reach; [apply Wl, Hz|assumption]. }
      rewrite Ex, <- Ey. exact Dy.
Qed.

Lemma clone_spec : forall o, clones clone o.
Proof.
  induction o as [o IH] using obj_ind'. intros h W.
  destruct (h_has_var (hdr o)) eqn:Hv.
  2: { exists h, o. split; [|apply cloned_self; assumption].
       destruct o; cbn [hdr] in Hv; cbn [clone hdr]; rewrite Hv; reflexivity. }
  pose proof (wf_leaf _ _ (wf_here _ _ W)) as Wl.
  destruct o as [d b|d k|d n|d c s p|d c l]; cbn [hdr] in Hv, Wl; try congruence.
  - exists (fst (copy_var h d k)), (snd (copy_var h d k)). split; [|apply copy_var_cloned; assumption].
    cbn [clone hdr]. rewrite Hv. rewrite <- surjective_pairing. reflexivity.
  - cbn [clone hdr]. rewrite Hv.
    destruct (new_term h) as [[h0 id] ivs] eqn:En.
    pose proof (new_term_spec _ _ _ _ En) as (Xh0 & _).
    assert (Ws : wf h s) by (eapply wf_parts; [exact W|simpl; auto]).
    assert (Wp : wf h p) by (eapply wf_parts; [exact W|simpl; auto]).
    destruct (IH s (or_introl eq_refl) h0 (wf_ext _ _ _ Xh0 Ws)) as (h1 & s' & E1 & C1).
    rewrite E1. cbn [bind fst snd].
    pose proof (cl_ext _ _ _ _ C1) as X1.
    destruct (IH p (or_intror (or_introl eq_refl)) h1 (wf_ext _ _ _ (ext_trans _ _ _ Xh0 X1) Wp)) as (h2 & p' & E2 & C2).
    rewrite E2. cbn [bind fst snd].
    pose proof (cl_ext _ _ _ _ C2) as X2.
    assert (C1' : cloned h0 h2 s s').
    { eapply cloned_mono; [apply frame_refl|exact X2|eapply wf_ext; eauto|exact C1]. }
    assert (C2' : cloned h0 h2 p p').
    { eapply cloned_mono; [exact X1|apply frame_refl|eapply wf_ext; eauto|exact C2]. }
    assert (Es : denote h0 s = denote h s) by (apply denote_ext; assumption).
    assert (Ep : denote h0 p = denote h p) by (apply denote_ext; assumption).
    set (d' := copy_header d id ivs).
    destruct (assemble h2 d' [s'; p']) as (h3 & E3 & _ & _).
    { destruct (new_term_fresh _ _ _ _ En) as (Fr & _). unfold d'. cbn [h_ivs copy_header].
      pose proof (ext_nodes _ _ (ext_trans _ _ _ X1 X2)). destruct ivs as [[a b] e]. unfold fresh3 in *. lia. }
    { intros n Hn. destruct (new_term_fresh _ _ _ _ En) as (_ & _ & Hi & Em).
      assert (~ unless3 ivs n) by (unfold unless3; unfold iv_ind, iv_dep, iv_qry, d' in Hn; cbn in Hn; tauto).
      destruct (Em n H) as (_ & Ee). eapply empty_node_ext; [eapply ext_trans; [exact X1|exact X2]| |exact Ee].
      destruct (lt_dec n (length (nodes h0))) as [|G]; [assumption|]. exfalso. apply H. apply Hi. lia. }
    { intros t [<-|[<-|[]]].
      - destruct (wf_here _ _ (cl_wf _ _ _ _ C1')) as [(N & _) _ S _ _ _ _ _ _ _].
        split; [assumption|]. split; [|assumption].
        refine (proj1 (cloned_covers _ _ _ _ _ _ _ _ En Ws (frame_refl _ _) C1' s' (reach_self _))).
      - destruct (wf_here _ _ (cl_wf _ _ _ _ C2')) as [(N & _) _ S _ _ _ _ _ _ _].
        split; [assumption|]. split; [|assumption].
        refine (proj1 (cloned_covers _ _ _ _ _ _ _ _ En Wp (frame_refl _ _) C2' p' (reach_self _))). }
    change (h_ivs d') with ivs in E3. rewrite E3. cbn [bind].
    exists h3, (OStmt d' c s' p'). split; [reflexivity|].
    eapply (deep_copy h h0 id ivs h2 h3 (OStmt d c s p) (OStmt d' c s' p') [s; p] [s'; p']); auto.
    + eapply ext_trans; eauto.
    + intros t [<-|[<-|[]]]; [exists s|exists p]; simpl; auto.
    + right. exists c, s', p'. auto.
    + intros x k v [<-|[<-|[]]] Iv; cbn [denote]; rewrite indices_in_stmt; apply in_or_app.
      * left. apply (cl_indices _ _ _ _ C1') in Iv. rewrite Es in Iv. assumption.
      * right. apply (cl_indices _ _ _ _ C2') in Iv. rewrite Ep in Iv. assumption.
    + cbn [denote]. rewrite indices_in_stmt. simpl. rewrite app_nil_r. reflexivity.
    + intros k. cbn [denote]. rewrite indices_in_stmt. simpl. rewrite app_nil_r. reflexivity.
    + pose proof (wf_has_var _ _ (wf_here _ _ W)) as Hh. cbn [hdr denote has_var existsb] in Hh. rewrite Hv in Hh.
      cbn [map existsb]. rewrite (cl_has _ _ _ _ C1'), (cl_has _ _ _ _ C2'), Es, Ep. symmetry. exact Hh.
    + intros Wo. cbn [denote]. f_equal.
      * rewrite <- Es. apply C1'. rewrite Es. apply (well_ordered_part h (OStmt d c s p)); simpl; auto.
      * rewrite <- Ep. apply C2'. rewrite Ep. apply (well_ordered_part h (OStmt d c s p)); simpl; auto.
  - cbn [clone hdr]. rewrite Hv.
    destruct (new_term h) as [[h0 id] ivs] eqn:En.
    pose proof (new_term_spec _ _ _ _ En) as (Xh0 & _).
    assert (Wx : forall x, In x l -> wf h x) by (intros; eapply wf_parts; eauto).
    destruct (map_heap_spec clone l h0) as (h2 & l2 & E2 & X2 & C2).
    { intros x Hx. apply IH. exact Hx. }
    { intros x Hx. eapply wf_ext; [exact Xh0|auto]. }
    rewrite E2. cbn [bind fst snd].
    set (ts := push_all h2 (is_commutative c) l2).
    assert (Hts : forall t, In t ts -> exists x, In x l /\ cloned h0 h2 x t).
    { intros t Ht. apply push_all_incl in Ht. eapply Forall2_In_r; eauto. }
    assert (Ex : forall x, In x l -> denote h0 x = denote h x) by (intros; apply denote_ext; auto).
    set (d' := copy_header d id ivs).
    destruct (assemble h2 d' ts) as (h3 & E3 & _ & _).
    { destruct (new_term_fresh _ _ _ _ En) as (Fr & _). unfold d'. cbn [h_ivs copy_header].
      pose proof (ext_nodes _ _ X2). destruct ivs as [[a b] e]. unfold fresh3 in *. lia. }
    { intros n Hn. destruct (new_term_fresh _ _ _ _ En) as (_ & _ & Hi & Em).
      assert (~ unless3 ivs n) by (unfold unless3; unfold iv_ind, iv_dep, iv_qry, d' in Hn; cbn in Hn; tauto).
      destruct (Em n H) as (_ & Ee). eapply empty_node_ext; [exact X2| |exact Ee].
      destruct (lt_dec n (length (nodes h0))) as [|G]; [assumption|]. exfalso. apply H. apply Hi. lia. }
    { intros t Ht. destruct (Hts t Ht) as (x & Hx & C).
      destruct (wf_here _ _ (cl_wf _ _ _ _ C)) as [(N & _) _ S _ _ _ _ _ _ _].
      split; [assumption|]. split; [|assumption].
      refine (proj1 (cloned_covers _ _ _ _ _ _ _ _ En (Wx x Hx) (frame_refl _ _) C t (reach_self _))). }
    change (h_ivs d') with ivs in E3. rewrite E3. cbn [bind].
    exists h3, (OComp d' c ts). split; [reflexivity|].
    eapply (deep_copy h h0 id ivs h2 h3 (OComp d c l) (OComp d' c ts) l ts); auto.
    + left. exists c. reflexivity.
    + intros x k v Hx Iv. destruct (Hts x Hx) as (y & Hy & C).
      apply (cl_indices _ _ _ _ C) in Iv. rewrite Ex in Iv by assumption.
      cbn [denote]. rewrite indices_in_comp. apply in_flat_map. exists (denote h y).
      split; [apply in_map|]; assumption.
    + cbn [denote]. apply indices_in_comp.
    + intros k. cbn [denote]. apply indices_in_comp.
    + unfold ts. rewrite push_all_has_var.
      pose proof (wf_has_var _ _ (wf_here _ _ W)) as Hh. cbn [hdr denote has_var] in Hh. rewrite Hv in Hh.
      symmetry in Hh. rewrite map_map in Hh. apply existsb_exists in Hh. destruct Hh as (b & Hb & ->).
      apply in_map_iff in Hb. destruct Hb as (x & Hb & Hx).
      clear - C2 Hb Hx Ex. induction C2 as [|y y' l l' Cy C2 IH]; [contradiction|].
      cbn [map existsb]. destruct Hx as [->|Hx].
      * rewrite (cl_has _ _ _ _ Cy), Ex, Hb by (simpl; auto). reflexivity.
      * rewrite IH; [apply orb_true_r|intros; apply Ex; simpl; auto|assumption].
    + intros Wo. cbn [denote].
      assert (M : map (denote h2) l2 = map (denote h) l).
      { assert (Wl' : forall x, In x l -> well_ordered (denote h x)).
        { intros x Hx. apply (well_ordered_part h (OComp d c l)); assumption. }
        clear - C2 Wl' Ex. induction C2 as [|y y' l l' Cy C2 IH]; [reflexivity|].
        cbn [map]. f_equal.
        - rewrite <- Ex by (simpl; auto). apply Cy. rewrite Ex by (simpl; auto). apply Wl'. simpl; auto.
        - apply IH; intros; [apply Ex|apply Wl']; simpl; auto. }
      unfold ts. destruct (is_commutative c) eqn:Ecm.
      * rewrite push_all_ascending.
        -- rewrite M. reflexivity.
        -- rewrite M. apply (Wo c); [apply set_like_iff; assumption|]. cbn [denote]. constructor.
      * unfold push_all. rewrite M. reflexivity.
Qed.
