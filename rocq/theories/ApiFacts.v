(* The Python constructors: what they build. *)
From Coq Require Import ZArith String Ascii List Bool Lia Permutation Sorting.
From Verif Require Import Base Enums Hash Term TermSpec TermFacts Terms TermsFacts Compound CompoundFacts CompoundSpec CompoundFacts2 CompoundFacts3.
From Verif Require Import Maps Actions ActionsSpec PrinterSpec Forms FormFacts5 FormFacts6 FormFacts8 FormFacts9 Api ApiSpec.
From Verif Require Import Interning InterningSpec InterningFacts InterningFacts2.
Import ListNotations.
Open Scope string_scope.
Open Scope list_scope.
Open Scope Z_scope.

(** * Cloning the components changes nothing *)

Lemma vf_down : down_closed vf.
Proof.
  intros c l H. apply Forall_vf. apply vf_iff in H. apply Forall_forall. intros x I k i O. apply (H k i). eapply occ_comp; eassumption.
Qed.

Lemma vf_comp c l : Forall vf l -> vf (Comp c l).
Proof.
  intros H. apply Forall_vf in H. apply vf_iff. intros k i O. inversion O; subst. rewrite Forall_forall in H. eapply H; eassumption.
Qed.

Lemma vf_up : up_closed vf.
Proof. intros c l _. apply vf_comp. Qed.

Lemma vf_stmt c s p : vf s -> vf p -> vf (Stmt c s p).
Proof. intros A B. apply vf_iff in A, B. apply vf_iff. intros k i O. inversion O; subst; [eapply A|eapply B]; eassumption. Qed.

Section Order.
Variable ord : list (option connector * list term) -> list (option connector * list term).
Hypothesis Ho : any_order ord.

Lemma compound_vf b con l t : Forall vf l -> compound ord b con l = Ok t -> vf t.
Proof using Ho.
  apply (compound_preserves ord Ho vf vf_down vf_up).
  - intros c m _. apply vf_comp.
  - intros m H. apply vf_comp. unfold expand_seq. apply flat_map_forall; [exact vf_down|exact H].
Qed.

Lemma step4_set parent norm c l : Forall (fun e => Forall vf (snd e)) norm -> step4 parent norm = Ok (c, l) ->
  exists ts, l = terms_set ts /\ Forall vf ts.
Proof.
  intros H E. destruct norm as [|[k ts] norm]; [discriminate E|]. inversion H as [|? ? H1 _]; subst. exists ts. split; [|exact H1].
  destruct k as [k|]; [destruct k|]; destruct parent; simpl in E; injection E as <- <-; reflexivity.
Qed.

Lemma preprocess_set mk parent ts c l : is_commutative parent = true ->
  (forall c ts t, is_commutative c = true -> Forall vf ts -> mk c ts = Ok t -> vf t) ->
  Forall vf ts -> preprocess ord mk parent ts = Ok (c, l) -> exists ts', l = terms_set ts' /\ Forall vf ts'.
Proof using Ho.
  intros Hc Hmk H E. unfold preprocess in E. rewrite (commutative_reducible parent Hc), Hc in E. simpl in E.
  assert (Hcat : Forall (entry_ok vf) (ord (categories (flatten_set parent ts)))).
  { apply any_order_forall; [exact Ho|]. apply categories_ok, flatten_forall; [exact vf_down|assumption]. }
  destruct (norm_all parent _) as [norm| | |] eqn:En; try discriminate E. simpl in E.
  pose proof (norm_all_ok vf parent _ norm vf_down Hcat En) as Hn.
  assert (Hn' : Forall (fun e => Forall vf (snd e)) norm)
    by (eapply Forall_impl; [| exact Hn]; intros e [He _]; exact He).
  destruct (Nat.ltb 1 (length norm)); [| eapply step4_set; eassumption].
  destruct (collect mk parent norm) as [all| | |] eqn:Ec; try discriminate E. simpl in E.
  pose proof (collect_forall vf mk parent norm all Hmk Hn Ec) as Ha.
  destruct (Nat.ltb 1 (length all)).
  - injection E as <- <-. exists all. split; [reflexivity|exact Ha].
  - destruct (single all) as [n2| | |] eqn:Es; try discriminate E. simpl in E.
    eapply step4_set; [|exact E]. destruct all as [|t all]; [discriminate Es|]. inversion Ha as [|? ? Ht Hall]; subst.
    assert (Hs : Forall vf (terms_set (t :: all))) by (apply terms_set_forall; exact Ha).
    destruct t; simpl in Es; injection Es as <-; constructor; try constructor; simpl; try exact Hs. eapply vf_down; exact Ht.
Qed.

Lemma compound_same con l : Forall vf l -> compound ord true con l = compound ord false con l.
Proof using Ho.
  intros V. unfold compound, compound_of_terms, fuel_for. set (ts := mk_terms (is_commutative con) l).
  set (n := S (list_max (map depth ts))). cbn [compound_fuel].
  assert (Vt : Forall vf ts) by (unfold ts, mk_terms; destruct (is_commutative con); [apply terms_set_forall|]; exact V).
  destruct (preprocess ord (compound_fuel ord n false) con ts) as [[c m]| | |] eqn:E; try reflexivity. cbn [bind].
  f_equal. f_equal. unfold mk_terms. destruct (is_commutative con) eqn:Hc.
  - assert (Hmk : forall c ts t, is_commutative c = true -> Forall vf ts -> compound_fuel ord n false c ts = Ok t -> vf t).
    { intros c0 ts0 t0 A B C. destruct (compound_fuel_comm ord Ho vf vf_down vf_up _ _ _ _ _ A B C) as (c1 & l1 & -> & D & F). apply vf_comp, F. }
    destruct (preprocess_set _ _ _ _ _ Hc Hmk Vt E) as (ts' & -> & V'). destruct (is_commutative c); [|reflexivity].
    symmetry. apply terms_set_id; [apply terms_set_sorted|apply terms_set_forall]; exact V'.
  - assert (c = con); [|subst; rewrite Hc; reflexivity]. unfold preprocess in E. rewrite Hc in E.
    destruct (is_reducible con); cbn [negb] in E; injection E as <- <-; reflexivity.
Qed.

(** * What an expression builds *)

Section World.
Variable w : world.

Inductive builds : expr -> term -> Prop :=
  | B_term s a : handed_out w s a -> builds (term_call s) (Atom false a)
  | B_statement a n c b s p : enum_member "Copula" n = Returned (PyCopula c) -> builds a s -> builds b p ->
      builds (statement_call a n b) (Stmt c s p)
  | B_compound n c l ts t : enum_member "Connector" n = Returned (PyConnector c) -> all_build l ts ->
      compound ord false c ts = Ok t -> builds (compound_call n l) t
with all_build : list expr -> list term -> Prop :=
  | B_none : all_build [] []
  | B_more e es t ts : builds e t -> all_build es ts -> all_build (e :: es) (t :: ts).

Inductive jammed : expr -> Prop :=
  | J_here n c l ts : enum_member "Connector" n = Returned (PyConnector c) -> all_build l ts ->
      compound ord false c ts = UB -> jammed (compound_call n l)
  | J_left a n b : jammed a -> jammed (statement_call a n b)
  | J_right a n b : jammed b -> jammed (statement_call a n b)
  | J_part n l e : In e l -> jammed e -> jammed (compound_call n l).
End World.

Scheme builds_mut := Induction for builds Sort Prop with all_build_mut := Induction for all_build Sort Prop.

Lemma constructs_ind' (P : expr -> Prop) : (forall s, usual_name s -> P (term_call s)) ->
  (forall a c b, constructs a -> constructs b -> P a -> P b -> P (statement_call a (copula_called c) b)) ->
  (forall c l, Forall constructs l -> Forall P l -> P (compound_call (connector_called c) l)) ->
  forall e, constructs e -> P e.
Proof.
  intros A B C. fix IH 2. intros e H. destruct H as [s H|a c b Ha Hb|c l H].
  - apply A, H.
  - apply B; auto.
  - apply C; [exact H|]. induction H as [|e l He Hl IHl]; constructor; [apply IH, He|exact IHl].
Qed.

Lemma constructs_usual e : constructs e -> forall n, In n (texts e) -> usual_name n.
Proof.
  revert e. apply (constructs_ind' (fun e => forall n, In n (texts e) -> usual_name n)).
  - intros s U n [ <-|[]]. exact U.
  - intros a c b _ _ Ia Ib n I. cbn in I. rewrite app_nil_r in I. apply in_app_or in I as [I|I]; auto.
  - intros c l _ F n I. cbn in I. apply in_concat in I as (r & A & B). apply in_map_iff in A as (e & <- & A).
    rewrite Forall_forall in F. eapply F; eassumption.
Qed.

Lemma copula_member c : enum_member "Copula" (copula_called c) = Returned (PyCopula c).
Proof. destruct c; reflexivity. Qed.

Lemma connector_member c : c <> ExtensionalDifference -> enum_member "Connector" (connector_called c) = Returned (PyConnector c).
Proof. destruct c; intros H; try reflexivity. contradiction. Qed.

Lemma connector_some c : exists d, enum_member "Connector" (connector_called c) = Returned (PyConnector d).
Proof. destruct c; eexists; reflexivity. Qed.

Lemma all_build_in w l : forall ts e, all_build w l ts -> In e l -> exists t, builds w e t.
Proof.
  induction l as [|x l IH]; intros ts e H I; [destruct I|]. inversion H; subst. destruct I as [ <-|I]; eauto.
Qed.

(* Growing *)
Lemma builds_more w w' e t : grown w w' -> builds w e t -> builds w' e t.
Proof.
  intros G. revert e t. apply (builds_mut w (fun e t _ => builds w' e t) (fun l ts _ => all_build w' l ts)).
  - intros s a H. constructor. apply G, H.
  - intros. econstructor; eassumption.
  - intros. econstructor; eassumption.
  - constructor.
  - intros. constructor; assumption.
Qed.

Lemma all_build_more w w' l : grown w w' -> forall ts, all_build w l ts -> all_build w' l ts.
Proof. intros G. induction l as [|e l IH]; intros ts H; inversion H; subst; constructor; [eapply builds_more; eassumption|auto]. Qed.

Lemma jammed_more w w' e : grown w w' -> jammed w e -> jammed w' e.
Proof.
  intros G H. induction H as [n c l ts E A C|a n b _ IH|a n b _ IH|n l e I _ IH].
  - eapply J_here; [exact E|eapply all_build_more; eassumption|exact C].
  - apply J_left, IH.
  - apply J_right, IH.
  - eapply J_part; [exact I|exact IH].
Qed.

(* Uniqueness *)
Lemma builds_unique w ops e : in_order w ops -> constructs e -> forall t t', builds w e t -> builds w e t' -> t = t'.
Proof.
  intros O. revert e. apply (constructs_ind' (fun e => forall t t', builds w e t -> builds w e t' -> t = t')).
  - intros s (N & _) t t' A B. inversion A; subst. inversion B; subst. f_equal. eapply order_unique; eassumption.
  - intros a c b _ _ Ia Ib t t' A B. inversion A as [|? ? c1 ? s1 p1 M1 A1 A2|]; subst. inversion B as [|? ? c2 ? s2 p2 M2 B1 B2|]; subst.
    rewrite M1 in M2. injection M2 as <-. f_equal; auto.
  - intros c l _ F t t' A B. inversion A as [| |? c1 ? ts1 ? M1 A1 C1]; subst. inversion B as [| |? c2 ? ts2 ? M2 A2 C2]; subst.
    rewrite M1 in M2. injection M2 as <-. assert (ts1 = ts2); [|subst; congruence].
    clear - F A1 A2. revert ts1 ts2 A1 A2. induction F as [|e l He _ IH]; intros ts1 ts2 A1 A2; inversion A1; inversion A2; subst; [reflexivity|].
    f_equal; auto.
Qed.

Lemma all_build_unique w ops l : in_order w ops -> Forall constructs l -> forall ts ts', all_build w l ts -> all_build w l ts' -> ts = ts'.
Proof.
  intros O F. induction F as [|e l He _ IH]; intros ts ts' A B; inversion A; inversion B; subst; [reflexivity|].
  f_equal; [eapply builds_unique; eassumption|auto].
Qed.

Lemma builds_free w ops e : in_order w ops -> constructs e -> (exists t, builds w e t) -> ~ jammed w e.
Proof.
  intros O. revert e. apply (constructs_ind' (fun e => (exists t, builds w e t) -> ~ jammed w e)).
  - intros s _ _ J. inversion J.
  - intros a c b _ _ Ia Ib (t & A) J. inversion A; subst. inversion J; subst; [apply Ia|apply Ib]; eauto.
  - intros c l Fc F (t & A) J. inversion A as [| |? c1 ? ts1 ? M1 A1 C1]; subst. inversion J as [? c2 ? ts2 M2 A2 C2| | |? ? e I Je]; subst.
    + rewrite M1 in M2. injection M2 as <-. assert (ts1 = ts2) by (eapply all_build_unique; eassumption). subst. congruence.
    + rewrite Forall_forall in F. eapply F; [exact I| |exact Je]. eapply all_build_in; eassumption.
Qed.

Lemma builds_vf w e t : builds w e t -> vf t.
Proof using Ho.
  revert e t. apply (builds_mut w (fun e t _ => vf t) (fun l ts _ => Forall vf ts)).
  - reflexivity.
  - intros. apply vf_stmt; assumption.
  - intros. eapply compound_vf; eassumption.
  - constructor.
  - constructor; assumption.
Qed.

Lemma all_build_vf w l : forall ts, all_build w l ts -> Forall vf ts.
Proof using Ho. induction l as [|e l IH]; intros ts H; inversion H; subst; constructor; [eapply builds_vf; eassumption|auto]. Qed.

(* The texts of what is built have been handed out. *)
Lemma builds_texts w e t : builds w e t -> forall n, In n (texts e) -> exists a, handed_out w n a.
Proof.
  revert e t. apply (builds_mut w (fun e t _ => forall n, In n (texts e) -> exists a, handed_out w n a)
    (fun l ts _ => forall n, In n (concat (map texts l)) -> exists a, handed_out w n a)).
  - intros s a H n [ <-|[]]. eauto.
  - intros a n c b s p _ _ Ia _ Ib m I. cbn in I. rewrite app_nil_r in I. apply in_app_or in I as [I|I]; auto.
  - intros n c l ts t _ _ Il _ m I. apply Il. exact I.
  - intros n [].
  - intros e es t ts _ Ie _ Il n I. cbn [map concat] in I. apply in_app_or in I as [I|I]; auto.
Qed.

(** * Evaluation *)

Variable fresh : world -> Z.
Hypothesis Hfresh : careful fresh.
Variable room : option nat.
Variable other : object -> string.

Notation evaluate := (evaluate ord fresh room other).

Record after (st st' : state) (ts : list string) : Prop := After {
  after_order : in_order (atoms st') (operations st');
  after_grown : grown (atoms st) (atoms st');
  after_count : population (atoms st') <= population (atoms st) + 2 * Z.of_nat (length ts);
  after_known : forall n, known_in (atoms st') n -> known_in (atoms st) n \/ In n ts;
  after_same : (forall n, In n ts -> known_in (atoms st) n) -> tab (atoms st') = tab (atoms st);
  after_store : store st' = store st
}.

Lemma after_refl st : in_order (atoms st) (operations st) -> after st st [].
Proof. intros O. constructor; auto; [intros n a H; exact H|cbn; lia]. Qed.

Lemma after_trans a b c ts us : after a b ts -> after b c us -> after a c (ts ++ us).
Proof.
  intros [A1 A2 A3 A4 A5 A6] [B1 B2 B3 B4 B5 B6]. constructor.
  - exact B1.
  - intros n x H. apply B2, A2, H.
  - rewrite app_length, Nat2Z.inj_add. lia.
  - intros n K. apply B4 in K as [K|K]; [apply A4 in K as [K|K]|]; [left; exact K|right; apply in_or_app; auto|right; apply in_or_app; auto].
  - intros H. assert (E : tab (atoms b) = tab (atoms a)) by (apply A5; intros n I; apply H, in_or_app; auto).
    rewrite B5; [exact E|]. intros n I. unfold known_in. rewrite E. apply H, in_or_app. auto.
  - congruence.
Qed.

Lemma c_string_id s : no_nul s -> c_string s = s.
Proof.
  induction s as [|c s IH]; intros H; [reflexivity|]. cbn [c_string]. destruct (Ascii.eqb_spec c "000") as [->|D].
  - exfalso. apply H. left. reflexivity.
  - rewrite IH; [reflexivity|]. intros I. apply H. right. exact I.
Qed.

Definition good (e : expr) : Prop := forall st rest, in_order (atoms st) (operations st) ->
  population (atoms st) + 2 * Z.of_nat (length (texts e)) < 4294967295 ->
  (exists st' t, evaluate st rest e = Ok (st', rest, Returned (PyTerm t)) /\ builds (atoms st') e t /\ after st st' (texts e)) \/
  (evaluate st rest e = UB /\ exists w ops, in_order w ops /\ grown (atoms st) w /\ jammed w e).

Lemma term_good s : usual_name s -> good (term_call s).
Proof using Hfresh.
  intros (N & Z0) st rest O P. left. cbn [texts term_call map concat app length] in P.
  destruct (create_step (atoms st) (operations st) s (fresh (atoms st)) O N) as (w' & a & E & Hh & O' & Ex & Po & Kn & Sa).
  { apply Hfresh. lia. }
  cbn [term_call Api.evaluate bind call_function new_term]. cbn -[Interning.create Interning.check_by_name c_string filter existsb]. rewrite c_string_id by exact Z0.
  unfold atom_ops in *. rewrite E. cbn [bind]. unfold last_atom. rewrite Hh. cbn [bind hat]. rewrite Ex. eexists _, _. split; [reflexivity|].
  split.
  - constructor. unfold handed_out. cbn [with_atoms atoms]. rewrite Hh. left. reflexivity.
  - constructor; cbn [with_atoms atoms operations store].
    + exact O'.
    + intros n x H. unfold handed_out. rewrite Hh. right. exact H.
    + cbn. lia.
    + intros n K. apply Kn in K as [K|K]; [left; exact K|right; left; symmetry; exact K].
    + intros H. apply Sa, H. left. reflexivity.
    + reflexivity.
Qed.

(* The arguments of a call *)
Fixpoint arguments (st : state) (rest : list ascii) (l : list expr) : res (state * list ascii * (exception + list object)) :=
  match l with
  | [] => Ok (st, rest, inr [])
  | x :: l' =>
      bind (evaluate st rest x) (fun '(st, rest, r) =>
      match r with
      | Raised e => Ok (st, rest, inl e)
      | Returned o =>
          bind (arguments st rest l') (fun '(st, rest, r) =>
          Ok (st, rest, match r with inl e => inl e | inr os => inr (o :: os) end))
      end)
  end.

Lemma call_eq st rest f args : evaluate st rest (Call f args) =
  bind (arguments st rest args) (fun '(st, rest, r) =>
    match r with
    | inl e => Ok (st, rest, Raised e)
    | inr os => call_function ord fresh room other st rest f os
    end).
Proof.
  reflexivity.
Qed.

Lemma statement_good a c b : good a -> good b -> good (statement_call a (copula_called c) b).
Proof.
  intros Ga Gb st rest O P. assert (T : texts (statement_call a (copula_called c) b) = texts a ++ texts b)
    by (cbn; rewrite app_nil_r; reflexivity).
  rewrite T in *. rewrite app_length, Nat2Z.inj_add in P. unfold statement_call at 1 3. rewrite call_eq. cbn [arguments Api.evaluate].
  destruct (Ga st rest O) as [(st1 & s & E1 & B1 & A1)|(E1 & w & ops & O1 & G1 & J1)]; [lia| |].
  - rewrite E1. cbn [bind]. rewrite copula_member.
    destruct (Gb st1 rest (after_order _ _ _ A1)) as [(st2 & p & E2 & B2 & A2)|(E2 & w & ops & O2 & G2 & J2)].
    { pose proof (after_count _ _ _ A1). lia. }
    + rewrite E2. cbn [bind]. left. exists st2, (Stmt c s p). split; [reflexivity|]. split; [|eapply after_trans; eassumption].
      econstructor; [apply copula_member|eapply builds_more; [apply (after_grown _ _ _ A2)|exact B1]|exact B2].
    + rewrite E2. cbn [bind]. right. split; [reflexivity|]. exists w, ops. split; [exact O2|].
      split; [intros n x H; apply G2, (after_grown _ _ _ A1), H|]. apply J_right, J2.
  - rewrite E1. cbn [bind]. right. split; [reflexivity|]. exists w, ops. split; [exact O1|]. split; [exact G1|]. apply J_left, J1.
Qed.

Lemma arguments_good l : Forall good l -> forall st rest, in_order (atoms st) (operations st) ->
  population (atoms st) + 2 * Z.of_nat (length (concat (map texts l))) < 4294967295 ->
  (exists st' ts, arguments st rest l = Ok (st', rest, inr (map PyTerm ts)) /\ all_build (atoms st') l ts /\ after st st' (concat (map texts l))) \/
  (arguments st rest l = UB /\ exists w ops e, in_order w ops /\ grown (atoms st) w /\ In e l /\ jammed w e).
Proof.
  induction 1 as [|e l Ge _ IH]; intros st rest O P.
  - left. exists st, []. split; [reflexivity|]. split; [constructor|apply after_refl, O].
  - cbn [map concat] in P |- *. rewrite app_length, Nat2Z.inj_add in P. cbn [arguments].
    destruct (Ge st rest O) as [(st1 & t & E1 & B1 & A1)|(E1 & w & ops & O1 & G1 & J1)]; [lia| |]; rewrite E1; cbn [bind].
    + destruct (IH st1 rest (after_order _ _ _ A1)) as [(st2 & ts & E2 & B2 & A2)|(E2 & w & ops & e' & O2 & G2 & I2 & J2)].
      { pose proof (after_count _ _ _ A1). lia. }
      * rewrite E2. cbn [bind]. left. exists st2, (t :: ts). split; [reflexivity|]. split; [|eapply after_trans; eassumption].
        constructor; [eapply builds_more; [apply (after_grown _ _ _ A2)|exact B1]|exact B2].
      * rewrite E2. cbn [bind]. right. split; [reflexivity|]. exists w, ops, e'. split; [exact O2|].
        split; [intros n x H; apply G2, (after_grown _ _ _ A1), H|]. split; [right; exact I2|exact J2].
    + right. split; [reflexivity|]. exists w, ops, e. split; [exact O1|]. split; [exact G1|]. split; [left; reflexivity|exact J1].
Qed.

Lemma cast_all ts : cast_terms (map PyTerm ts) = inr ts.
Proof. induction ts as [|t ts IH]; [reflexivity|]. cbn. rewrite IH. reflexivity. Qed.

Lemma compound_good c l : Forall good l -> good (compound_call (connector_called c) l).
Proof using Ho.
  intros G st rest O P. destruct (connector_some c) as (d & M). change (evaluate st rest (compound_call (connector_called c) l)) with (evaluate st rest (Call "Compound" (Member "Connector" (connector_called c) :: l))).
  rewrite call_eq. cbn [arguments Api.evaluate bind].
  assert (T : texts (compound_call (connector_called c) l) = concat (map texts l)) by reflexivity. rewrite T in *.
  rewrite M. destruct (arguments_good l G st rest O P) as [(st1 & ts & E & B & A)|(E & w & ops & e & O1 & G1 & I1 & J1)].
  - rewrite E. cbn [bind]. unfold call_function. cbn [String.eqb Ascii.eqb Bool.eqb new_compound]. rewrite cast_all.
    destruct (compound_outcome ord Ho false d ts) as [(t & C)|C]; rewrite C; cbn [bind].
    + left. exists st1, t. split; [reflexivity|]. split; [|exact A]. econstructor; eassumption.
    + right. split; [reflexivity|]. exists (atoms st1), (operations st1). split; [apply (after_order _ _ _ A)|].
      split; [apply (after_grown _ _ _ A)|]. eapply J_here; eassumption.
  - rewrite E. cbn [bind]. right. split; [reflexivity|]. exists w, ops. split; [exact O1|]. split; [exact G1|]. eapply J_part; eassumption.
Qed.

Theorem constructs_good e : constructs e -> good e.
Proof using Ho Hfresh.
  revert e. apply constructs_ind'.
  - apply term_good.
  - intros a c b _ _. apply statement_good.
  - intros c l _. apply compound_good.
Qed.

(** * The same expression again *)

Theorem again st rest e : in_order (atoms st) (operations st) -> constructs e ->
  population (atoms st) + 4 * Z.of_nat (length (texts e)) < 4294967295 ->
  (exists st' t, evaluate st rest e = Ok (st', rest, Returned (PyTerm t)) /\
    exists st'', evaluate st' rest e = Ok (st'', rest, Returned (PyTerm t)) /\ tab (atoms st'') = tab (atoms st')) \/
  evaluate st rest e = UB.
Proof using Ho Hfresh.
  intros O C P. destruct (constructs_good e C st rest O) as [(st1 & t & E & B & A)|(E & _)]; [lia| |right; exact E].
  left. exists st1, t. split; [exact E|]. pose proof (after_order _ _ _ A) as O1. pose proof (after_count _ _ _ A) as Co.
  destruct (constructs_good e C st1 rest O1) as [(st2 & t' & E2 & B2 & A2)|(E2 & w & ops & Ow & G & J)]; [lia| |].
  - exists st2. assert (t' = t) as ->.
    { eapply builds_unique; [apply (after_order _ _ _ A2)|exact C|exact B2|]. eapply builds_more; [apply (after_grown _ _ _ A2)|exact B]. }
    split; [exact E2|]. apply (after_same _ _ _ A2). intros n I. destruct (builds_texts _ _ _ B n I) as (a & H).
    destruct (constructs_usual _ C n I) as (N & _). destruct (order_handles _ _ O1 n a N H) as (L & _). apply known_iff. eauto.
  - exfalso. eapply builds_free; [exact Ow|exact C| |exact J]. exists t. eapply builds_more; eassumption.
Qed.

(** * Expressions and forms *)

Scheme denotes_mut := Induction for denotes Sort Prop with all_denote_mut := Induction for all_denote Sort Prop.
End Order.
