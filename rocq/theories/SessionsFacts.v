(* What reading does to the symbol table, and which atoms its results hold. *)
From Coq Require Import ZArith String Ascii List Bool Lia.
From Verif Require Import Base Enums Term TermFacts TermSpec Maps Compound CompoundSpec CompoundFacts CompoundFacts3 Truth Parser Actions.
From Verif Require Import AstFacts ActionsFacts ActionsFacts2 ActionsFacts3 ActionsFacts4 PrinterSpec Forms Sessions.
From Verif Require Import Interning InterningSpec InterningFacts InterningFacts2 InterningFacts3.
Import ListNotations.
Open Scope string_scope.
Open Scope list_scope.
Open Scope Z_scope.

(* ---- atoms of terms ---- *)
Lemma atoms_in_addresses t : atoms_in t = addresses t.
Proof.
  induction t using term_ind'; cbn [atoms_in addresses]; try reflexivity.
  - congruence.
  - rewrite flat_map_concat_map. f_equal. apply map_ext_in. intros x Hx. rewrite Forall_forall in H. auto.
Qed.

Lemma addresses_leaves t a : In a (addresses t) <-> exists op, In (Atom op a) (leaves t).
Proof.
  induction t as [op b|k i|n|c s p IHs IHp|c l IH] using term_ind'; cbn [addresses leaves].
  - split; [intros [<-|[]]; exists op; left; reflexivity|intros (o & [E|[]]); injection E as _ <-; left; reflexivity].
  - split; [intros []|intros (o & [E|[]]); discriminate E].
  - split; [intros []|intros (o & [E|[]]); discriminate E].
  - split.
    + intros H. apply in_app_or in H. destruct H as [H|H]; [apply IHs in H|apply IHp in H];
        destruct H as (o & H); exists o; apply in_or_app; auto.
    + intros (o & H). apply in_app_or in H. apply in_or_app. destruct H as [H|H]; [left; apply IHs|right; apply IHp]; eauto.
  - rewrite Forall_forall in IH. split.
    + intros H. apply in_concat in H. destruct H as (x & Hx & Ha). apply in_map_iff in Hx. destruct Hx as (t & <- & Ht).
      apply (IH t Ht) in Ha. destruct Ha as (o & Ha). exists o. apply in_flat_map. eauto.
    + intros (o & H). apply in_flat_map in H. destruct H as (t & Ht & Ha). apply in_concat. exists (addresses t).
      split; [apply in_map; exact Ht|]. apply (IH t Ht). eauto.
Qed.

Lemma compound_addresses ord b con args t : any_order ord -> compound ord b con args = Ok t ->
  forall a, In a (addresses t) -> exists x, In x args /\ In a (addresses x).
Proof.
  intros Ho E a H. apply addresses_leaves in H. destruct H as (o & H). apply (leaves_incl ord Ho b con args t E) in H.
  apply in_flat_map in H. destruct H as (x & Hx & H). exists x. split; [exact Hx|]. apply addresses_leaves. eauto.
Qed.

(* ---- growth ---- *)
Section Growth.
Variable ord : list (option connector * list term) -> list (option connector * list term).
Hypothesis Horder : any_order ord.
Variable fresh : world -> Z.

(* From w to w' by handing out the atoms hs, the newest first *)
Inductive grows (w : world) : list handle -> world -> Prop :=
| gr_none : grows w [] w
| gr_word hs w1 n w2 h : grows w hs w1 -> create w1 n (fresh w1) = Ok w2 -> handles w2 = h :: handles w1 ->
    grows w (h :: hs) w2
| gr_operator hs w1 n w2 h : grows w hs w1 -> parse_op w1 n (fresh w1) = Ok w2 -> handles w2 = h :: handles w1 ->
    grows w (h :: hs) w2.

Lemma grows_app a hs b ks c : grows a hs b -> grows b ks c -> grows a (ks ++ hs) c.
Proof.
  intros A B. induction B as [|ks w1 n w2 h G IH E Hh|ks w1 n w2 h G IH E Hh]; [exact A|eapply gr_word; eauto|eapply gr_operator; eauto].
Qed.

Lemma grows_handles a hs b : grows a hs b -> handles b = hs ++ handles a.
Proof. induction 1 as [|hs w1 n w2 h G IH E Hh|hs w1 n w2 h G IH E Hh]; [reflexivity|rewrite Hh, IH; reflexivity..]. Qed.

Lemma create_newest w n a w' : create w n a = Ok w' -> exists h, handles w' = h :: handles w.
Proof.
  unfold create. destruct (check_by_name (tab w) n).
  - destruct (get_by_name (tab w) n) as [k t1]. destruct (get_object t1 k) as [p t2].
    destruct (deref (with_tab w t2) p) as [b| | |]; cbn [bind]; intros E; try discriminate E.
    apply Ok_inj in E. subst w'. eexists. reflexivity.
  - intros E. apply Ok_inj in E. subst w'. eexists. reflexivity.
Qed.

Lemma parse_op_newest w n a w' : parse_op w n a = Ok w' -> exists h, handles w' = h :: handles w.
Proof.
  unfold parse_op. cbv zeta. destruct (check_by_name (tab w) n).
  - destruct (get_by_name (tab w) (String "^" n)) as [k t1]. destruct (get_object t1 k) as [p t2].
    destruct (deref (with_tab w t2) p) as [b| | |]; cbn [bind]; intros E; try discriminate E.
    apply Ok_inj in E. subst w'. eexists. reflexivity.
  - intros E. apply Ok_inj in E. subst w'. eexists. reflexivity.
Qed.

(* ---- actions ---- *)

(* What the arguments hold *)
Definition supply (a : arguments) : list Z := match a with Some l => flat_map atoms_of l | None => [] end.

(* The action hands out the atoms hs, and its result holds no others than
   these and those of the arguments. *)
Definition draws (a : arguments) (st st' : state) (v : value) : Prop :=
  exists hs, grows (atoms st) hs (atoms st') /\ incl (atoms_of v) (map hat hs ++ supply a).

Definition drawing (f : method) : Prop := forall st a st' v, f st a = Ok (st', v) -> draws a st st' v.

Ltac step_bind H :=
  repeat match type of H with
         | bind ?x _ = _ => let e := fresh "e" in destruct x eqn:e; cbn [bind] in H; [|discriminate H|discriminate H|discriminate H]
         end.

Lemma arg_holds l i v : arg l i = Ok v -> incl (atoms_of v) (supply (Some l)).
Proof.
  unfold arg. destruct (nth_error l i) as [x|] eqn:E; [|discriminate]. intros H. apply Ok_inj in H. subst x.
  apply nth_error_In in E. intros a Ha. cbn [supply]. apply in_flat_map. eauto.
Qed.

Lemma term_holds v t : as_term v = Ok t -> atoms_of v = addresses t.
Proof. destruct v; cbn; intros H; try discriminate H. apply Ok_inj in H. subst. apply atoms_in_addresses. Qed.

Lemma arg_term l i t : bind (arg l i) as_term = Ok t -> incl (addresses t) (supply (Some l)).
Proof.
  destruct (arg l i) as [v| | |] eqn:E; cbn [bind]; intros H; try discriminate H.
  rewrite <- (term_holds _ _ H). exact (arg_holds _ _ _ E).
Qed.

Lemma terms_holds l : forall ts, terms_of l = Ok ts -> forall t, In t ts -> incl (addresses t) (flat_map atoms_of l).
Proof.
  induction l as [|v l IH]; cbn [terms_of]; intros ts H t Ht.
  - apply Ok_inj in H. subst ts. destruct Ht.
  - destruct (as_term v) as [x| | |] eqn:Ev; cbn [bind] in H; try discriminate H.
    destruct (terms_of l) as [xs| | |] eqn:El; cbn [bind] in H; try discriminate H.
    apply Ok_inj in H. subst ts. cbn [flat_map]. intros a Ha. apply in_or_app. destruct Ht as [<-|Ht].
    + left. rewrite (term_holds _ _ Ev). exact Ha.
    + right. exact (IH xs eq_refl t Ht a Ha).
Qed.

Lemma skipn_supply i l : incl (flat_map atoms_of (skipn i l)) (flat_map atoms_of l).
Proof.
  intros a H. rewrite <- (firstn_skipn i l), flat_map_app. apply in_or_app. auto.
Qed.

Lemma draws_none a st st' v : atoms st' = atoms st -> incl (atoms_of v) (supply a) -> draws a st st' v.
Proof. intros E I. exists []. rewrite E. split; [constructor|exact I]. Qed.

Lemma draws_nothing a st st' v : atoms st' = atoms st -> atoms_of v = [] -> draws a st st' v.
Proof. intros E I. apply draws_none; [exact E|]. rewrite I. intros x []. Qed.

Lemma compound_holds b con args t A : compound ord b con args = Ok t ->
  (forall x, In x args -> incl (addresses x) A) -> incl (addresses t) A.
Proof using Horder.
  intros E H a Ha. destruct (compound_addresses ord b con args t Horder E a Ha) as (x & Hx & Hxa). exact (H x Hx a Hxa).
Qed.

Lemma draws_task : drawing make_task.
Proof.
  intros st a st' v H. unfold make_task in H. destruct a as [l|]; [|discriminate H]. cbn [all_args bind] in H.
  step_bind H. destruct (ok_pair _ _ _ _ H) as [<- <-]. apply draws_none; [reflexivity|].
  destruct (arg l (if Nat.eqb (length l) 1 then 0 else 1)%nat) as [u| | |] eqn:E; cbn [bind] in e0; try discriminate e0.
  destruct u; try discriminate e0. apply Ok_inj in e0. subst. cbn [atoms_of sentence_of].
  exact (arg_holds _ _ _ E).
Qed.

Lemma draws_belief p c : drawing (make_belief p c).
Proof.
  intros st a st' v H. unfold make_belief in H. destruct a as [l|]; [|discriminate H]. cbn [all_args bind] in H.
  step_bind H. destruct a0 as [[m tr] s]. destruct (finish_stamp m s). destruct (ok_pair _ _ _ _ H) as [<- <-].
  apply draws_none; [reflexivity|]. cbn [atoms_of content]. rewrite atoms_in_addresses. exact (arg_term _ _ _ e).
Qed.

Lemma draws_query p : drawing (make_query p).
Proof.
  intros st a st' v H. unfold make_query in H. destruct a as [l|]; [|discriminate H]. cbn [all_args bind] in H.
  step_bind H. destruct a0 as [[m tr] s]. destruct (finish_stamp m s). destruct (ok_pair _ _ _ _ H) as [<- <-].
  apply draws_none; [reflexivity|]. cbn [atoms_of content]. rewrite atoms_in_addresses. exact (arg_term _ _ _ e).
Qed.

Lemma draws_statement : drawing (make_statement ord).
Proof using Horder.
  intros st a st' v H. unfold make_statement in H. destruct a as [l|]; [|discriminate H]. cbn [all_args bind] in H.
  destruct (bind (arg l 0) as_term) as [s| | |] eqn:Es; cbn [bind] in H; try discriminate H.
  destruct (bind (arg l 1) as_copula) as [c| | |] eqn:Ec; cbn [bind] in H; try discriminate H.
  destruct (bind (arg l 2) as_term) as [p| | |] eqn:Ep; cbn [bind] in H; try discriminate H.
  apply arg_term in Es. apply arg_term in Ep.
  assert (Fin : forall c s' p', incl (addresses s') (supply (Some l)) -> incl (addresses p') (supply (Some l)) ->
    draws (Some l) st st (VTerm (Stmt c s' p'))).
  { intros c' s' p' A B. apply draws_none; [reflexivity|]. cbn [atoms_of]. rewrite atoms_in_addresses. apply incl_app; assumption. }
  assert (One : forall b k x y, incl (addresses x) (supply (Some l)) -> compound ord b k [x] = Ok y ->
    incl (addresses y) (supply (Some l))).
  { intros b k x y A E. eapply compound_holds; [exact E|]. intros z [<-|[]]. exact A. }
  destruct c; step_bind H; destruct (ok_pair _ _ _ _ H) as [<- <-]; apply Fin; eauto.
Qed.

Lemma draws_operation1' st l st' v : operation1 ord st l = Ok (st', v) -> draws (Some l) st st' v.
Proof using Horder.
  intros H. unfold operation1 in H. step_bind H. destruct (ok_pair _ _ _ _ H) as [<- <-].
  apply draws_none; [reflexivity|]. cbn [atoms_of]. rewrite atoms_in_addresses. cbn [addresses]. apply incl_app.
  - eapply compound_holds; [exact e1|]. intros x Hx. eapply incl_tran; [exact (terms_holds _ _ e x Hx)|].
    cbn [supply]. exact (skipn_supply 1 l).
  - exact (arg_term _ _ _ e0).
Qed.

Lemma draws_operation1 : drawing (make_operation1 ord).
Proof using Horder.
  intros st a st' v H. unfold make_operation1 in H. destruct a as [l|]; [|discriminate H]. exact (draws_operation1' _ _ _ _ H).
Qed.

Lemma draws_atom : drawing (make_atom fresh).
Proof.
  intros st a st' v H. unfold make_atom in H. destruct a as [l|]; [|discriminate H]. cbn [all_args bind] in H.
  step_bind H. destruct (ok_pair _ _ _ _ H) as [<- <-]. destruct (create_newest _ _ _ _ e0) as (h & Hh).
  unfold last_atom in e1. rewrite Hh in e1. apply Ok_inj in e1. subst.
  exists [h]. cbn [with_atoms atoms map]. split; [eapply gr_word; [constructor|exact e0|exact Hh]|].
  cbn [atoms_of atoms_in]. intros x [<-|[]]. left. reflexivity.
Qed.

Lemma draws_operation : drawing (make_operation fresh).
Proof.
  intros st a st' v H. unfold make_operation in H. destruct a as [l|]; [|discriminate H]. cbn [all_args bind] in H.
  step_bind H. destruct (ok_pair _ _ _ _ H) as [<- <-]. destruct (parse_op_newest _ _ _ _ e0) as (h & Hh).
  unfold last_atom in e1. rewrite Hh in e1. apply Ok_inj in e1. subst.
  exists [h]. cbn [with_atoms atoms map]. split; [eapply gr_operator; [constructor|exact e0|exact Hh]|].
  cbn [atoms_of atoms_in]. intros x [<-|[]]. left. reflexivity.
Qed.

Lemma draws_operation2 : drawing (make_operation2 ord fresh).
Proof using Horder.
  intros st a st' v H. unfold make_operation2 in H. destruct a as [l|]; [|discriminate H]. cbn [all_args bind] in H.
  destruct (arg l 0) as [u| | |] eqn:Eu; cbn [bind] in H; try discriminate H.
  destruct (make_operation fresh st (Some [u])) as [[st1 op]| | |] eqn:M; cbn [bind] in H; try discriminate H.
  destruct (draws_operation _ _ _ _ M) as (hs & G & I). destruct (draws_operation1' _ _ _ _ H) as (ks & G' & I').
  exists (ks ++ hs). split; [eapply grows_app; eassumption|].
  intros x Hx. apply I' in Hx. rewrite map_app. apply in_app_or in Hx. destruct Hx as [Hx|Hx];
    [apply in_or_app; left; apply in_or_app; left; exact Hx|].
  cbn [supply flat_map] in Hx. apply in_app_or in Hx. destruct Hx as [Hx|Hx].
  - apply I in Hx. apply in_app_or in Hx. destruct Hx as [Hx|Hx].
    + apply in_or_app. left. apply in_or_app. right. exact Hx.
    + apply in_or_app. right. cbn [supply flat_map] in Hx. rewrite app_nil_r in Hx. exact (arg_holds _ _ _ Eu x Hx).
  - apply in_or_app. right. cbn [supply]. exact (skipn_supply 1 l x Hx).
Qed.

Lemma draws_constant u : atoms_of u = [] -> drawing (constant u).
Proof. intros N st a st' v H. unfold constant in H. destruct (ok_pair _ _ _ _ H) as [<- <-]. apply draws_nothing; auto. Qed.

Lemma draws_pass : drawing pass.
Proof.
  intros st a st' v H. unfold pass in H. destruct a as [l|]; [|discriminate H]. cbn [all_args bind] in H.
  step_bind H. destruct (ok_pair _ _ _ _ H) as [<- <-]. apply draws_none; [reflexivity|]. exact (arg_holds _ _ _ e).
Qed.

Lemma draws_pass_term : drawing pass_term.
Proof.
  intros st a st' v H. unfold pass_term in H. destruct a as [l|]; [|discriminate H]. cbn [all_args bind] in H.
  step_bind H. destruct (ok_pair _ _ _ _ H) as [<- <-]. apply draws_none; [reflexivity|].
  cbn [atoms_of]. rewrite atoms_in_addresses. exact (arg_term _ _ _ e).
Qed.

Lemma draws_prefix' st l st' v : prefix ord st l = Ok (st', v) -> draws (Some l) st st' v.
Proof using Horder.
  intros H. unfold prefix in H. step_bind H. destruct (ok_pair _ _ _ _ H) as [<- <-].
  apply draws_none; [reflexivity|]. cbn [atoms_of]. rewrite atoms_in_addresses.
  eapply compound_holds; [exact e1|]. intros x Hx. eapply incl_tran; [exact (terms_holds _ _ e0 x Hx)|].
  cbn [supply]. exact (skipn_supply 1 l).
Qed.

Lemma draws_prefix : drawing (make_prefix ord).
Proof using Horder.
  intros st a st' v H. unfold make_prefix in H. destruct a as [l|]; [|discriminate H]. exact (draws_prefix' _ _ _ _ H).
Qed.

Lemma draws_infix c : drawing (make_infix ord c).
Proof using Horder.
  intros st a st' v H. unfold make_infix in H. destruct a as [l|]; [|discriminate H]. cbn [all_args bind] in H.
  exact (draws_prefix' _ _ _ _ H).
Qed.

Lemma draws_negation : drawing (make_negation ord).
Proof using Horder.
  intros st a st' v H. unfold make_negation in H. destruct a as [l|]; [|discriminate H]. cbn [all_args bind] in H.
  step_bind H. destruct (ok_pair _ _ _ _ H) as [<- <-]. apply draws_none; [reflexivity|].
  cbn [atoms_of]. rewrite atoms_in_addresses. eapply compound_holds; [exact e1|]. intros x [<-|[]]. exact (arg_term _ _ _ e0).
Qed.

Lemma draws_single i j : drawing (make_single ord i j).
Proof using Horder.
  intros st a st' v H. unfold make_single in H. destruct a as [l|]; [|discriminate H]. cbn [all_args bind] in H.
  step_bind H. destruct (ok_pair _ _ _ _ H) as [<- <-]. apply draws_none; [reflexivity|].
  cbn [atoms_of]. rewrite atoms_in_addresses. eapply compound_holds; [exact e2|].
  intros x [<-|[<-|[]]]; [exact (arg_term _ _ _ e0)|exact (arg_term _ _ _ e1)].
Qed.

Lemma draws_variable k : drawing (make_variable k).
Proof.
  intros st a st' v H. unfold make_variable in H. destruct a as [l|]; [|discriminate H]. cbn [all_args bind] in H.
  step_bind H.
  destruct k; match type of H with context [number_of ?x ?y] => destruct (number_of x y) as [m i] end;
    destruct (ok_pair _ _ _ _ H) as [<- <-]; apply draws_nothing; reflexivity.
Qed.

Ltac simple H := step_bind H; destruct (ok_pair _ _ _ _ H) as [<- <-]; apply draws_nothing; reflexivity.

Lemma draws_interval : drawing make_interval.
Proof. intros st a st' v H. unfold make_interval in H. simple H. Qed.
Lemma draws_time : drawing make_time.
Proof. intros st a st' v H. unfold make_time in H. simple H. Qed.
Lemma draws_truth : drawing make_truth.
Proof. intros st a st' v H. unfold make_truth in H. simple H. Qed.
Lemma draws_budget : drawing make_budget.
Proof. intros st a st' v H. unfold make_budget in H. simple H. Qed.
Lemma draws_string : drawing make_string.
Proof. intros st a st' v H. unfold make_string in H. simple H. Qed.
Lemma draws_number : drawing make_number.
Proof. intros st a st' v H. unfold make_number in H. simple H. Qed.

Lemma all_draw : Forall (fun nf => drawing (snd nf)) (methods ord fresh).
Proof using Horder.
  unfold methods.
  repeat (apply Forall_cons; [
    cbn [snd];
    first
      [ apply draws_task | apply draws_belief | apply draws_query | apply draws_statement | apply draws_operation1
      | apply draws_operation2 | (apply draws_constant; reflexivity) | apply draws_pass_term | apply draws_atom
      | apply draws_operation | apply draws_interval | apply draws_prefix | apply draws_negation
      | apply draws_pass | apply draws_variable
      | apply draws_infix | apply draws_single | apply draws_time | apply draws_truth
      | apply draws_budget | apply draws_string | apply draws_number ]|]).
  constructor.
Qed.

Lemma call_draws e : drawing (Actions.call ord fresh e).
Proof using Horder.
  intros st a st' v C. unfold Actions.call in C. destruct (lookup String.eqb e (methods ord fresh)) as [f|] eqn:L.
  - apply ActionsFacts.lookup_in in L. pose proof all_draw as Q. rewrite Forall_forall in Q. exact (Q _ L _ _ _ _ C).
  - destruct (ok_pair _ _ _ _ C) as [<- <-]. apply draws_nothing; reflexivity.
Qed.

(* ---- trees ---- *)

Lemma ast_ind' (P : ast -> Prop) : (forall e tok, P (Leaf e tok)) -> (forall e kids, Forall P kids -> P (Node e kids)) ->
  forall n, P n.
Proof.
  intros A B. fix F 1. intros [e tok|e kids]; [apply A|]. apply B. induction kids as [|n kids IH]; constructor; [apply F|exact IH].
Qed.

Definition yields_own (n : ast) : Prop := forall st st' v, transform ord fresh st n = Ok (st', v) ->
  exists hs, grows (atoms st) hs (atoms st') /\ incl (atoms_of v) (map hat hs).

Lemma all_own l : Forall yields_own l -> forall st st' vs, transform_all ord fresh st l = Ok (st', vs) ->
  exists hs, grows (atoms st) hs (atoms st') /\ incl (flat_map atoms_of vs) (map hat hs).
Proof.
  induction 1 as [|n l N _ IH]; intros st st' vs H; cbn [transform_all] in H.
  - destruct (ok_pair _ _ _ _ H) as [<- <-]. exists []. split; [constructor|intros x []].
  - destruct (transform ord fresh st n) as [[st1 v]| | |] eqn:E; cbn [bind] in H; try discriminate H.
    destruct (transform_all ord fresh st1 l) as [[st2 us]| | |] eqn:T; cbn [bind] in H; try discriminate H.
    destruct (ok_pair _ _ _ _ H) as [<- <-]. destruct (N _ _ _ E) as (hs & G & I). destruct (IH _ _ _ T) as (ks & G' & I').
    exists (ks ++ hs). split; [eapply grows_app; eassumption|]. cbn [flat_map]. rewrite map_app.
    apply incl_app; [eapply incl_tran; [exact I|apply incl_appr, incl_refl]|eapply incl_tran; [exact I'|apply incl_appl, incl_refl]].
Qed.

Lemma tree_own : forall n, yields_own n.
Proof using Horder.
  induction n as [e tok|e kids IH] using ast_ind'; intros st st' v H.
  - cbn [transform] in H. destruct (call_draws _ _ _ _ _ H) as (hs & G & I). exists hs. split; [exact G|].
    cbn [supply flat_map atoms_of app] in I. rewrite app_nil_r in I. exact I.
  - rewrite transform_node in H.
    destruct (transform_all ord fresh st kids) as [[st1 vs]| | |] eqn:T; cbn [bind] in H; try discriminate H.
    destruct (all_own _ IH _ _ _ T) as (hs & G & I). destruct (call_draws _ _ _ _ _ H) as (ks & G' & I').
    exists (ks ++ hs). split; [eapply grows_app; eassumption|]. rewrite map_app. eapply incl_tran; [exact I'|].
    apply incl_app; [apply incl_appl, incl_refl|]. apply incl_appr. destruct kids; [intros x []|exact I].
Qed.

(* One reading *)
Lemma parse_own room st rest input st' rest' v : parse_task ord fresh room st rest input = Ok (st', rest', v, false) ->
  exists hs, grows (atoms st) hs (atoms st') /\
    match v with Some v => incl (atoms_of v) (map hat hs) | None => hs = [] end.
Proof using Horder.
  unfold parse_task. destruct (parse room rest input) as [[o r]| | |]; cbn [bind]; intros H; try discriminate H.
  unfold finish in H.
  set (tree := match o with Accepted l => l | Rejected => pending (with_vars st [] [] []) end) in H.
  destruct tree as [|n l].
  - cbn [bind] in H. apply Ok_inj in H. injection H as <- _ <-. exists []. split; [constructor|reflexivity].
  - destruct (transform_all ord fresh (with_vars st [] [] []) (n :: l)) as [[st1 [|u us]]| | |] eqn:T;
      cbn [bind] in H; try discriminate H.
    apply Ok_inj in H. injection H as <- _ <-.
    assert (F : Forall yields_own (n :: l)) by (apply Forall_forall; intros x _; apply tree_own).
    destruct (all_own _ F _ _ _ T) as (hs & G & I). exists hs. split; [exact G|].
    eapply incl_tran; [|exact I]. cbn [flat_map]. apply incl_appl, incl_refl.
Qed.

End Growth.
