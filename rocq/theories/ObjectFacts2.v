(* Every object made by the modelled operations satisfies the invariant. *)
From Coq Require Import ZArith List Bool Lia.
From Verif Require Import Base Hash Enums Term TermSpec CompoundSpec Terms IndexVar Object ObjectSpec ObjectFacts.
Import ListNotations.

(* ---- induction on objects ---- *)

Lemma obj_ind' : forall P : obj -> Prop,
  (forall o, (forall x, In x (parts o) -> P x) -> P o) -> forall o, P o.
Proof.
  intros P H.
  refine (fix F (o : obj) : P o := _).
  apply H. destruct o as [d b|d k|d n|d c s p|d c l]; simpl; intros x Hx.
  - contradiction.
  - contradiction.
  - contradiction.
  - destruct Hx as [<-|[<-|[]]]; apply F.
  - revert x Hx. induction l as [|y l IH]; intros x Hx; [contradiction|].
    destruct Hx as [<-|Hx]; [apply F|apply IH, Hx].
Qed.

Lemma term_ind' : forall P : term -> Prop,
  (forall op a, P (Atom op a)) -> (forall k i, P (Var k i)) -> (forall n, P (Itv n)) ->
  (forall c s p, P s -> P p -> P (Stmt c s p)) ->
  (forall c l, (forall x, In x l -> P x) -> P (Comp c l)) -> forall t, P t.
Proof.
  intros P H1 H2 H3 H4 H5.
  refine (fix F (t : term) : P t := _).
  destruct t as [op a|k i|n|c s p|c l]; [apply H1|apply H2|apply H3|apply H4; apply F|].
  apply H5. induction l as [|y l IH]; intros x Hx; [contradiction|].
  destruct Hx as [<-|Hx]; [apply F|apply IH, Hx].
Qed.

Lemma reach_cases : forall o x, reach o x <-> x = o \/ exists y, In y (parts o) /\ reach y x.
Proof.
  intros o x. split.
  - intros H; inversion H; subst; auto; right.
    + exists s. simpl; auto.
    + exists p. simpl; auto.
    + exists y. simpl; auto.
  - intros [->|(y & Hy & H)]; [constructor|].
    destruct o; simpl in Hy; try contradiction.
    + destruct Hy as [<-|[<-|[]]]; [apply reach_stmt_s|apply reach_stmt_p]; assumption.
    + eapply reach_comp; eauto.
Qed.

Lemma reach_trans : forall a b c, reach a b -> reach b c -> reach a c.
Proof.
  induction 1; intros; auto.
  - apply reach_stmt_s; auto.
  - apply reach_stmt_p; auto.
  - eapply reach_comp; eauto.
Qed.

(* ---- positions ---- *)

Definition list_paths (f : term -> list (list Z)) : Z -> list term -> list (list Z) :=
  fix go (i : Z) (l : list term) : list (list Z) :=
    match l with
    | [] => []
    | x :: l' => map (cons i) (f x) ++ go (i + 1)%Z l'
    end.

(* The positions of the variables of kind k. *)
Fixpoint paths (k : vkind) (t : term) : list (list Z) :=
  match t with
  | Var k' _ => match k, k' with
                | Independent, Independent | Dependent, Dependent | Query, Query => [[]]
                | _, _ => []
                end
  | Stmt _ s p => list_paths (paths k) 0 [s; p]
  | Comp _ l => list_paths (paths k) 0 l
  | _ => []
  end.

Definition kids (t : term) : list term :=
  match t with Stmt _ s p => [s; p] | Comp _ l => l | _ => [] end.

Lemma indices_in_kids : forall k t, kids t <> [] ->
  indices_in k t = flat_map (indices_in k) (kids t).
Proof.
  intros k t H. unfold indices_in. destruct t as [op a|k' i|n|c s p|c l]; simpl in H; try congruence.
  - simpl. rewrite flat_map_app, app_nil_r. reflexivity.
  - cbn [leaves kids]. clear H. induction l as [|x l IH]; simpl; [reflexivity|].
    rewrite flat_map_app, IH. reflexivity.
Qed.

Lemma indices_in_comp : forall k c l, indices_in k (Comp c l) = flat_map (indices_in k) l.
Proof. intros. destruct l; [reflexivity|]. apply indices_in_kids. discriminate. Qed.

Lemma indices_in_stmt : forall k c s p, indices_in k (Stmt c s p) = indices_in k s ++ indices_in k p.
Proof. intros. rewrite indices_in_kids by discriminate. simpl. rewrite app_nil_r. reflexivity. Qed.

Lemma follow_list : forall k (F : Z -> list Z -> option term) l i,
  (forall j x q, nth_error l j = Some x -> F (i + Z.of_nat j)%Z q = follow x q) ->
  (forall x, In x l -> map (follow x) (paths k x) = map (fun v => Some (Var k v)) (indices_in k x)) ->
  map (fun q => match q with [] => None | n :: q' => F n q' end) (list_paths (paths k) i l)
  = map (fun v => Some (Var k v)) (flat_map (indices_in k) l).
Proof.
  induction l as [|x l IH]; intros i HF HP; [reflexivity|].
  cbn [list_paths flat_map]. rewrite !map_app. f_equal.
  - rewrite map_map. rewrite <- (HP x (or_introl eq_refl)). apply map_ext. intros q.
    replace i with (i + Z.of_nat 0)%Z at 1 by lia. apply HF. reflexivity.
  - apply IH.
    + intros j y q Hj. replace (i + 1 + Z.of_nat j)%Z with (i + Z.of_nat (S j))%Z by lia.
      apply HF. exact Hj.
    + intros y Hy. apply HP. right. assumption.
Qed.

Lemma list_paths_nonempty : forall f i l q, In q (list_paths f i l) -> exists n q', q = n :: q'.
Proof.
  intros f i l. revert i. induction l as [|x l IH]; intros i; simpl; intros q Hq; [contradiction|].
  apply in_app_or in Hq. destruct Hq as [Hq|Hq].
  - apply in_map_iff in Hq. destruct Hq as (q' & <- & _). eauto.
  - eapply IH; eauto.
Qed.

Lemma map_list_paths : forall f i l (g g' : list Z -> option term),
  (forall n q, g (n :: q) = g' (n :: q)) ->
  map g (list_paths f i l) = map g' (list_paths f i l).
Proof.
  intros f i l g g' H. apply map_ext_in. intros q Hq.
  apply list_paths_nonempty in Hq. destruct Hq as (n & q' & ->). apply H.
Qed.

Lemma follow_paths : forall k t,
  map (follow t) (paths k t) = map (fun v => Some (Var k v)) (indices_in k t).
Proof.
  intros k. induction t as [op a|k' i|n|c s p IHs IHp|c l IH] using term_ind'.
  - destruct k; reflexivity.
  - destruct k, k'; reflexivity.
  - destruct k; reflexivity.
  - rewrite indices_in_kids by discriminate. cbn [paths kids].
    rewrite (map_list_paths _ 0%Z [s; p] (follow (Stmt c s p))
      (fun q => match q with [] => None | n :: q' =>
         (if Z.eqb n 0 then follow s q' else if Z.eqb n 1 then follow p q' else None) end)).
    2: { intros; reflexivity. }
    apply (follow_list k (fun n q' => if Z.eqb n 0 then follow s q' else if Z.eqb n 1 then follow p q' else None)).
    + intros [|[|j]] x q E; simpl in E.
      * inversion E; subst. reflexivity.
      * inversion E; subst. reflexivity.
      * destruct j; discriminate.
    + intros x [<-|[<-|[]]]; assumption.
  - rewrite indices_in_comp. cbn [paths].
    rewrite (map_list_paths _ 0%Z l (follow (Comp c l))
      (fun q => match q with [] => None | n :: q' =>
         (if (n <? 0)%Z then None else match nth_error l (Z.to_nat n) with
               | Some x => follow x q' | None => None end) end)).
    2: { intros; reflexivity. }
    apply (follow_list k (fun n q' => if (n <? 0)%Z then None else match nth_error l (Z.to_nat n) with
               | Some x => follow x q' | None => None end)).
    + intros j x q E. rewrite Z.add_0_l.
      destruct (Z.ltb_spec (Z.of_nat j) 0); [lia|]. rewrite Nat2Z.id, E. reflexivity.
    + assumption.
Qed.

(* ---- the invariant ---- *)

Definition lists_are (h : heap) (n : nat) (is : list Z) (ps : list (list Z)) : Prop :=
  values h (iv_indices (node h n)) = is /\ iv_positions (node h n) = ps
  /\ Forall (fun c => c < length (cells h)) (iv_indices (node h n)).

(* What the list of kind k (other than the independent one) of a term holds. *)
Definition other_lists (h : heap) (o : obj) (n : nat) (k : vkind) (has : bool) : Prop :=
  match o with
  | OAtom _ _ | OItv _ _ => lists_are h n [] []
  | OVar _ _ => lists_are h n (indices_in k (denote h o)) (paths k (denote h o))
  | OStmt _ _ _ _ | OComp _ _ _ =>
      lists_are h n (picked has (indices_in Independent (denote h o)))
        (picked has (paths Independent (denote h o)))
  end.

Record wf1 (h : heap) (o : obj) : Prop := {
  wf_nodes : iv_ind (hdr o) < length (nodes h) /\ iv_dep (hdr o) < length (nodes h)
             /\ iv_qry (hdr o) < length (nodes h);
  wf_id : (h_id (hdr o) < next_id h)%Z;
  wf_settled : settled h (iv_ind (hdr o));
  wf_lind : lists_are h (iv_ind (hdr o)) (indices_in Independent (denote h o)) (paths Independent (denote h o));
  wf_ldep : other_lists h o (iv_dep (hdr o)) Dependent (h_has_dvar (hdr o));
  wf_lqry : other_lists h o (iv_qry (hdr o)) Query (h_has_qvar (hdr o));
  wf_var : match o with
           | OVar d k => iv_indices (node h (iv_of k d)) <> []
           | _ => True
           end;
  wf_has_ivar : h_has_ivar (hdr o) = false -> indices_in Independent (denote h o) = [];
  wf_has_var : h_has_var (hdr o) = has_var (denote h o);
  wf_leaf : match o with
            | OAtom _ _ | OItv _ _ => h_has_var (hdr o) = false
            | OVar d _ => h_complexity d = 1%Z /\ h_is_operation d = false /\ h_is_higher_order d = false
            | _ => True
            end
}.

Inductive wf (h : heap) : obj -> Prop :=
| Wf o : wf1 h o -> (forall x, In x (parts o) -> wf h x) -> wf h o.

Lemma wf_here : forall h o, wf h o -> wf1 h o.
Proof. intros h o H; destruct H; assumption. Qed.
Lemma wf_parts : forall h o x, wf h o -> In x (parts o) -> wf h x.
Proof. intros h o x H; destruct H; auto. Qed.
Lemma wf_reach : forall h o x, wf h o -> reach o x -> wf h x.
Proof.
  intros h o x H R. induction R; auto; apply IHR.
  - apply (wf_parts _ _ _ H). simpl; auto.
  - apply (wf_parts _ _ _ H). simpl; auto.
  - apply (wf_parts _ _ _ H). simpl; auto.
Qed.

(* All index lists of o and its parts satisfy P. *)
Definition covers (P : nat -> Prop) (o : obj) : Prop :=
  forall x, reach o x -> P (iv_ind (hdr x)) /\ P (iv_dep (hdr x)) /\ P (iv_qry (hdr x)).

Lemma covers_parts : forall P o x, covers P o -> In x (parts o) -> covers P x.
Proof. intros P o x H Hx y Hy. apply H. apply reach_cases. right. eauto. Qed.

Lemma cell_app : forall h h' xs c, cells h' = cells h ++ xs -> c < length (cells h) -> cell h' c = cell h c.
Proof. intros h h' xs c E L. unfold cell. rewrite E, app_nth1 by assumption. reflexivity. Qed.

Lemma lists_are_frame : forall (P : nat -> Prop) h h' n is ps,
  frame P h h' -> P n -> n < length (nodes h) -> lists_are h n is ps -> lists_are h' n is ps.
Proof.
  intros P h h' n is ps ((xs & E) & _ & _ & D) Pn Ln (A & B & C).
  destruct (D n Ln Pn) as (X & Y & _).
  split; [|split].
  - rewrite X, <- A. unfold values. apply map_ext_in. intros c Hc.
    rewrite Forall_forall in C. eapply cell_app; eauto.
  - rewrite Y. assumption.
  - rewrite X. eapply Forall_impl; [|exact C]. simpl. intros c Hc. rewrite E, app_length. lia.
Qed.

Lemma var_cell : forall h d k, wf1 h (OVar d k) ->
  exists c, In c (iv_indices (node h (iv_of k d))) /\ hd O (iv_indices (node h (iv_of k d))) = c
    /\ c < length (cells h) /\ iv_of k d < length (nodes h).
Proof.
  intros h d k W. destruct W as [(N1 & N2 & N3) _ _ Li Ld Lq Hv _ _ _]. cbn [hdr] in *.
  destruct (iv_indices (node h (iv_of k d))) as [|c r] eqn:E; [congruence|].
  exists c. split; [left; reflexivity|]. split; [reflexivity|].
  assert (B : Forall (fun c => c < length (cells h)) (iv_indices (node h (iv_of k d)))).
  { destruct k; [apply Li|apply Ld|apply Lq]. }
  rewrite E in B. inversion B; subst. split; [assumption|].
  destruct k; assumption.
Qed.

Lemma denote_frame : forall P h h' o, frame P h h' -> wf h o -> covers P o ->
  denote h' o = denote h o.
Proof.
  intros P h h' o Fr. revert o.
  induction o as [o IH] using obj_ind'. intros W C.
  assert (IH' : forall x, In x (parts o) -> denote h' x = denote h x).
  { intros x Hx. apply IH; [assumption|eapply wf_parts; eauto|eapply covers_parts; eauto]. }
  clear IH. destruct o as [d b|d k|d n|d c s p|d c l]; cbn [denote]; auto.
  - destruct (var_cell _ _ _ (wf_here _ _ W)) as (c & Hc & Hh & Lc & Ln).
    destruct Fr as ((xs & E) & _ & _ & D).
    assert (Pn : P (iv_of k d)).
    { destruct (C (OVar d k) (reach_self _)) as (C1 & C2 & C3). destruct k; assumption. }
    destruct (D _ Ln Pn) as (X & _). rewrite X. rewrite Hh. f_equal. eapply cell_app; eauto.
  - rewrite !IH' by (simpl; auto). reflexivity.
  - f_equal. apply map_ext_in. intros x Hx. apply IH'. exact Hx.
Qed.

Lemma wf1_frame : forall P h h' o, frame P h h' -> wf h o -> covers P o -> wf1 h' o.
Proof.
  intros P h h' o Fr W C.
  pose proof (denote_frame P h h' o Fr W C) as Ed.
  destruct (C o (reach_self _)) as (C1 & C2 & C3).
  destruct (wf_here _ _ W) as [(N1 & N2 & N3) Hid Hs Li Ld Lq Hv H1 H2 H3].
  pose proof Fr as (_ & Nx & Ln & D).
  constructor; auto.
  - lia.
  - lia.
  - eapply settled_same; [apply D; assumption|assumption].
  - rewrite Ed. eapply lists_are_frame; eauto.
  - unfold other_lists in *. rewrite Ed. destruct o; eapply lists_are_frame; eauto.
  - unfold other_lists in *. rewrite Ed. destruct o; eapply lists_are_frame; eauto.
  - destruct o as [d b|d k|d n|d c s p|d c l]; auto.
    assert (Pn : P (iv_of k d)) by (destruct k; assumption).
    assert (Lk : iv_of k d < length (nodes h)) by (destruct k; assumption).
    destruct (D _ Lk Pn) as (X & _). rewrite X. assumption.
  - rewrite Ed. assumption.
  - rewrite Ed. assumption.
Qed.

Lemma wf_frame : forall P h h' o, frame P h h' -> wf h o -> covers P o -> wf h' o.
Proof.
  intros P h h' o Fr. revert o.
  induction o as [o IH] using obj_ind'. intros W C. constructor.
  - eapply wf1_frame; eauto.
  - intros x Hx. apply IH; [assumption|eapply wf_parts; eauto|eapply covers_parts; eauto].
Qed.

Definition ext (h h' : heap) : Prop := frame anywhere h h'.

Lemma covers_anywhere : forall o, covers anywhere o.
Proof. intros o x _. repeat split. Qed.

Lemma wf_ext : forall h h' o, ext h h' -> wf h o -> wf h' o.
Proof. intros. eapply wf_frame; eauto. apply covers_anywhere. Qed.

Lemma denote_ext : forall h h' o, ext h h' -> wf h o -> denote h' o = denote h o.
Proof. intros. eapply denote_frame; eauto. apply covers_anywhere. Qed.

(* ---- allocation ---- *)

Definition empty_node (h : heap) (n : nat) : Prop :=
  iv_indices (node h n) = [] /\ iv_positions (node h n) = [] /\ iv_successors (node h n) = [].

Lemma new_term_spec : forall h h' id ivs, new_term h = (h', id, ivs) ->
  ext h h' /\ id = next_id h /\ next_id h' = (next_id h + 1)%Z
  /\ cells h' = cells h
  /\ ivs = (length (nodes h), S (length (nodes h)), S (S (length (nodes h))))
  /\ length (nodes h') = S (S (S (length (nodes h))))
  /\ (forall n, length (nodes h) <= n -> node h' n = empty_iv).
Proof.
  intros h h' id ivs E. unfold new_term, new_iv in E. cbn in E.
  rewrite !app_length in E. cbn [length] in E. inversion E; subst; clear E.
  cbn [cells nodes next_id]. rewrite !app_length. cbn [length].
  split.
  { split; [exists []; simpl; rewrite app_nil_r; reflexivity|].
    cbn [cells nodes next_id]. split; [lia|]. rewrite !app_length. split; [lia|].
    intros n Hn _. unfold node. cbn [nodes]. rewrite !app_nth1 by (rewrite ?app_length; simpl; lia).
    apply lists_same_refl. }
  split; [reflexivity|]. split; [reflexivity|]. split; [reflexivity|].
  split; [f_equal; [f_equal|]; lia|]. split; [lia|].
  intros n Hn. unfold node. cbn [nodes].
  rewrite <- !app_assoc. rewrite app_nth2 by assumption. cbn [app].
  destruct (n - length (nodes h)) as [|[|[|[|m]]]]; reflexivity.
Qed.

Lemma new_term_fresh : forall h h' id ivs, new_term h = (h', id, ivs) ->
  fresh3 h' ivs /\ (forall n, n < length (nodes h) -> unless3 ivs n)
  /\ (forall n, length (nodes h') <= n -> unless3 ivs n)
  /\ (forall n, ~ unless3 ivs n -> length (nodes h) <= n /\ node h' n = empty_iv).
Proof.
  intros h h' id ivs E. apply new_term_spec in E. destruct E as (_ & _ & _ & _ & -> & L & N).
  unfold fresh3, unless3. cbn [fst snd]. rewrite L. repeat split; try lia.
  apply N. lia.
Qed.

(* ---- an object assembled from parts ---- *)

Lemma values_app : forall h a b, values h (a ++ b) = values h a ++ values h b.
Proof. intros. apply map_app. Qed.

Lemma values_sons : forall h ts,
  (forall t, In t ts -> wf1 h t) ->
  values h (son_indices h (map (fun t => iv_ind (hdr t)) ts))
    = flat_map (indices_in Independent) (map (denote h) ts).
Proof.
  induction ts as [|t ts IH]; intros H; [reflexivity|].
  unfold son_indices in *. cbn [map flat_map]. rewrite values_app, IH by (intros; apply H; simpl; auto).
  f_equal. apply (H t (or_introl eq_refl)).
Qed.

Lemma positions_sons : forall h ts i,
  (forall t, In t ts -> wf1 h t) ->
  son_positions h i (map (fun t => iv_ind (hdr t)) ts)
    = list_paths (paths Independent) i (map (denote h) ts).
Proof.
  induction ts as [|t ts IH]; intros i H; [reflexivity|].
  cbn [map son_positions list_paths]. rewrite IH by (intros; apply H; simpl; auto).
  f_equal. f_equal. apply (H t (or_introl eq_refl)).
Qed.

Lemma bound_sons : forall h ts,
  (forall t, In t ts -> wf1 h t) ->
  Forall (fun c => c < length (cells h)) (son_indices h (map (fun t => iv_ind (hdr t)) ts)).
Proof.
  induction ts as [|t ts IH]; intros H; [constructor|].
  unfold son_indices in *. cbn [map flat_map]. apply Forall_app. split.
  - apply (H t (or_introl eq_refl)).
  - apply IH. intros; apply H; simpl; auto.
Qed.

Lemma no_ivars : forall l, flat_map (indices_in Independent) l = [] ->
  list_paths (paths Independent) 0 l = [].
Proof.
  intros l H.
  assert (G : map (follow (Comp CList l)) (paths Independent (Comp CList l)) = []).
  { rewrite follow_paths, indices_in_comp, H. reflexivity. }
  apply map_eq_nil in G. exact G.
Qed.

Lemma finish : forall h h' o ts,
  (forall t, In t ts -> wf h t /\ covers (unless3 (h_ivs (hdr o))) t) ->
  fresh3 h (h_ivs (hdr o)) ->
  (forall n, ~ unless3 (h_ivs (hdr o)) n -> empty_node h n) ->
  (h_id (hdr o) < next_id h)%Z ->
  (exists c, o = OComp (hdr o) c ts) \/ (exists c s p, o = OStmt (hdr o) c s p /\ ts = [s; p]) ->
  (h_has_ivar (hdr o) = false -> flat_map (indices_in Independent) (map (denote h) ts) = []) ->
  h_has_var (hdr o) = existsb has_var (map (denote h) ts) ->
  build_indexvars (init_indexvars h (h_ivs (hdr o)) ts) (hdr o) = Ok h' ->
  touch (unless3 (h_ivs (hdr o))) h h' /\ wf h' o /\ denote h' o = denote h o
  /\ incl (own_cells h' o) (flat_map (own_cells h) ts).
Proof.
  intros h h' o ts Hts F En Hid Ho Hi Hv Eb.
  destruct (assemble h (hdr o) ts F) as (h1 & E1 & T & L).
  { intros n Hn. apply En. unfold unless3. fold (iv_ind (hdr o)) (iv_dep (hdr o)) (iv_qry (hdr o)). tauto. }
  { intros t Ht. destruct (Hts t Ht) as (W & C). destruct (wf_here _ _ W) as [(N & _) _ S _ _ _ _ _ _ _].
    split; [assumption|]. split; [|assumption]. apply (C t (reach_self _)). }
  rewrite E1 in Eb. inversion Eb; subst h1; clear Eb.
  pose proof (touch_frame _ _ _ T) as Fr.
  assert (Wt : forall t, In t ts -> wf h' t).
  { intros t Ht. destruct (Hts t Ht). eapply wf_frame; eauto. }
  assert (Dt : map (denote h') ts = map (denote h) ts).
  { apply map_ext_in. intros t Ht. destruct (Hts t Ht). eapply denote_frame; eauto. }
  assert (W1 : forall t, In t ts -> wf1 h t) by (intros t Ht; apply wf_here, Hts, Ht).
  assert (Pt : forall x, In x (parts o) -> In x ts).
  { intros x Hx. destruct Ho as [[c Ho]|(c & s & p & Ho & ->)]; rewrite Ho in Hx; exact Hx. }
  assert (Pt' : forall x, In x ts -> In x (parts o)).
  { intros x Hx. destruct Ho as [[c Ho]|(c & s & p & Ho & ->)]; rewrite Ho; exact Hx. }
  assert (Di : indices_in Independent (denote h' o) = flat_map (indices_in Independent) (map (denote h) ts)
    /\ paths Independent (denote h' o) = list_paths (paths Independent) 0 (map (denote h) ts)
    /\ denote h' o = denote h o).
  { destruct Ho as [[c Ho]|(c & s & p & Ho & ->)]; rewrite Ho; cbn [denote].
    - rewrite Dt, indices_in_comp. auto.
    - cbn [map] in Dt. inversion Dt as [[D1 D2]]. rewrite D1, D2, indices_in_stmt.
      cbn [map flat_map]. rewrite app_nil_r. auto. }
  destruct Di as (Di & Dp & De).
  destruct T as (Tc & Tn & Tl & Td).
  assert (LA : forall n has, (n, has) = (iv_ind (hdr o), h_has_ivar (hdr o))
       \/ (n, has) = (iv_dep (hdr o), h_has_dvar (hdr o))
       \/ (n, has) = (iv_qry (hdr o), h_has_qvar (hdr o)) ->
       lists_are h' n (picked has (indices_in Independent (denote h' o)))
         (picked has (paths Independent (denote h' o)))).
  { intros n has Hn. destruct (L n has Hn) as (A & B & _).
    split; [|split].
    - rewrite A, Di. destruct has; [|reflexivity]. cbn [picked].
      rewrite <- values_sons by assumption. unfold values, cell. rewrite Tc. reflexivity.
    - rewrite B, Dp. destruct has; [|reflexivity]. cbn [picked].
      apply positions_sons. assumption.
    - rewrite A. destruct has; [|constructor]. cbn [picked]. rewrite Tc.
      apply bound_sons. assumption. }
  split; [repeat split; auto; apply Td; assumption|].
  cut (wf h' o).
  { intros W. split; [exact W|]. split; [exact De|].
    assert (Sub : incl (son_indices h (map (fun t => iv_ind (hdr t)) ts)) (flat_map (own_cells h) ts)).
    { clear. induction ts as [|t ts IH]; [intros x []|]. unfold son_indices in *. cbn [map flat_map].
      apply incl_app; [apply incl_appl|apply incl_appr; exact IH].
      unfold own_cells. apply incl_appl, incl_refl. }
    intros c Hc. unfold own_cells in Hc. rewrite !in_app_iff in Hc.
    apply Sub. destruct Hc as [Hc|[Hc|Hc]].
    - destruct (L _ _ (or_introl eq_refl)) as (A & _). rewrite A in Hc.
      destruct (h_has_ivar (hdr o)); [exact Hc|destruct Hc].
    - destruct (L _ _ (or_intror (or_introl eq_refl))) as (A & _). rewrite A in Hc.
      destruct (h_has_dvar (hdr o)); [exact Hc|destruct Hc].
    - destruct (L _ _ (or_intror (or_intror eq_refl))) as (A & _). rewrite A in Hc.
      destruct (h_has_qvar (hdr o)); [exact Hc|destruct Hc]. }
  constructor; [|intros x Hx; apply Wt, Pt, Hx].
  assert (F' : iv_ind (hdr o) < length (nodes h) /\ iv_dep (hdr o) < length (nodes h) /\ iv_qry (hdr o) < length (nodes h)).
  { clear - F. unfold iv_ind, iv_dep, iv_qry. destruct (h_ivs (hdr o)) as [[a b] c]. unfold fresh3 in F. tauto. }
  constructor.
  - rewrite Tl. assumption.
  - rewrite Tn. assumption.
  - left. apply (L (iv_ind (hdr o)) (h_has_ivar (hdr o))). auto.
  - pose proof (LA _ _ (or_introl eq_refl)) as X.
    destruct (h_has_ivar (hdr o)) eqn:Eh; [exact X|].
    cbn [picked] in X. rewrite Di, Dp. rewrite no_ivars by auto. rewrite Hi by reflexivity. exact X.
  - pose proof (LA _ _ (or_intror (or_introl eq_refl))) as X. unfold other_lists.
    destruct Ho as [[c Ho]|(c & s & p & Ho & _)]; rewrite Ho in X |- *; exact X.
  - pose proof (LA _ _ (or_intror (or_intror eq_refl))) as X. unfold other_lists.
    destruct Ho as [[c Ho]|(c & s & p & Ho & _)]; rewrite Ho in X |- *; exact X.
  - destruct Ho as [[c Ho]|(c & s & p & Ho & _)]; rewrite Ho; exact I.
  - intros Eh. rewrite Di. auto.
  - rewrite De, Hv. destruct Ho as [[c Ho]|(c & s & p & Ho & ->)]; rewrite Ho; cbn [denote has_var map existsb].
    + clear. induction (map (denote h) ts); simpl; congruence.
    + reflexivity.
  - destruct Ho as [[c Ho]|(c & s & p & Ho & _)]; rewrite Ho; exact I.
Qed.

(* ---- variables inside ---- *)

Lemma variable_inside_iff : forall h o, variable_inside o <-> has_var (denote h o) = true.
Proof.
  intros h. induction o as [o IH] using obj_ind'.
  assert (G : variable_inside o <-> (exists d k, o = OVar d k) \/ exists x, In x (parts o) /\ variable_inside x).
  { split.
    - intros (d & k & R). apply reach_cases in R. destruct R as [R|(y & Hy & R)].
      + left. eauto.
      + right. exists y. split; [assumption|]. exists d, k. assumption.
    - intros [(d & k & ->)|(x & Hx & d & k & R)].
      + exists d, k. constructor.
      + exists d, k. apply reach_cases. right. eauto. }
  rewrite G. clear G. destruct o as [d b|d k|d n|d c s p|d c l]; cbn [denote has_var parts] in *.
  - split; [intros [(?&?&?)|(?&[]&_)]; discriminate|discriminate].
  - split; eauto.
  - split; [intros [(?&?&?)|(?&[]&_)]; discriminate|discriminate].
  - rewrite existsb_exists. split.
    + intros [(?&?&?)|(x & Hx & V)]; [discriminate|].
      apply IH in V; [|assumption]. exists (has_var (denote h x)). rewrite V. split; [|reflexivity].
      destruct Hx as [<-|[<-|[]]]; rewrite V; simpl; auto.
    + intros (b & [<-|[<-|[]]] & E); right; [exists s|exists p]; (split; [simpl; auto|]); apply IH; simpl; auto.
  - rewrite map_map, existsb_exists. split.
    + intros [(?&?&?)|(x & Hx & V)]; [discriminate|].
      apply IH in V; [|assumption]. exists (has_var (denote h x)). split; [|assumption].
      apply in_map_iff. eauto.
    + intros (b & Hb & E). apply in_map_iff in Hb. destruct Hb as (x & <- & Hx).
      right. exists x. split; [assumption|]. apply IH; assumption.
Qed.

Lemma has_var_indices : forall t k, has_var t = false -> indices_in k t = [].
Proof.
  intros t k. induction t as [op a|k' i|n|c s p IHs IHp|c l IH] using term_ind'; intros H; try reflexivity.
  - discriminate.
  - simpl in H. apply orb_false_iff in H. destruct H as [H1 H2].
    apply orb_false_iff in H2. destruct H2 as [H2 _].
    rewrite indices_in_stmt, IHs, IHp by assumption. reflexivity.
  - rewrite indices_in_comp. simpl in H.
    induction l as [|x l IHl]; [reflexivity|]. simpl in H. apply orb_false_iff in H. destruct H as [H1 H2].
    simpl. rewrite IH by (simpl; auto). apply IHl; auto. intros; apply IH; simpl; auto.
Qed.

Lemma no_var_no_cells : forall h o, wf h o -> has_var (denote h o) = false -> own_cells h o = [].
Proof.
  intros h o W V.
  assert (H : forall k, indices_in k (denote h o) = []) by (intros; apply has_var_indices; assumption).
  destruct (wf_here _ _ W) as [_ _ _ Li Ld Lq _ _ _ _].
  assert (Z : forall n is ps, lists_are h n is ps -> is = [] -> iv_indices (node h n) = []).
  { intros n is ps (A & _) E. rewrite E in A. apply map_eq_nil in A. exact A. }
  unfold own_cells.
  rewrite (Z _ _ _ Li) by apply H.
  unfold other_lists in *.
  assert (Hp : forall b, picked b (indices_in Independent (denote h o)) = []).
  { intros []; simpl; [apply H|reflexivity]. }
  destruct o; rewrite (Z _ _ _ Ld), (Z _ _ _ Lq); auto.
Qed.
