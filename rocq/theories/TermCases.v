(* Concrete terms: witnesses of refutations and instances of hypotheses. *)
From Coq Require Import String ZArith List Bool Lia Permutation.
From Verif Require Import Base Hash Enums Term TermSpec TermFacts Terms TermsFacts Compound
  CompoundFacts CompoundSpec CompoundFacts2 CompoundFacts3.
Import ListNotations.
Local Open Scope Z_scope.

(* Heap-like addresses. *)
Definition addr (n : Z) : Z := 93824992231424 + 64 * n.
Definition at_ (n : Z) : term := Atom false (addr n).
Definition A := at_ 1.
Definition B := at_ 2.
Definition C := at_ 3.
Definition D := at_ 4.

(* Decision of [collision_free] for a list: variable-free and distinct hashes. *)
Fixpoint distinct (l : list Z) : bool :=
  match l with [] => true | x :: l' => negb (existsb (Z.eqb x) l') && distinct l' end.
Definition cf_check (l : list term) : bool :=
  forallb (fun t => negb (has_var t)) l && distinct (map thash l).

Lemma var_free_check t : has_var t = false -> var_free t.
Proof. apply var_free_has_var. Qed.

Lemma forall_var_free_check l : forallb (fun t => negb (has_var t)) l = true -> Forall var_free l.
Proof.
  intro H. apply Forall_forall. intros x Hx. rewrite forallb_forall in H. apply H in Hx.
  apply var_free_check. destruct (has_var x); [discriminate Hx | reflexivity].
Qed.

Lemma cf_list l : cf_check l = true -> collision_free (fun t => In t l).
Proof.
  unfold cf_check. intro H. apply andb_prop in H. destruct H as [H1 H2]. split.
  - intros x Hx. pose proof (forall_var_free_check l H1) as F. rewrite Forall_forall in F. auto.
  - clear H1. induction l as [|z l IH]; intros x y Hx Hy E; [destruct Hx|].
    simpl in H2. apply andb_prop in H2. destruct H2 as [N H2].
    assert (K : forall w, In w l -> thash z <> thash w).
    { intros w Hw Ew. apply negb_true_iff in N.
      assert (existsb (Z.eqb (thash z)) (map thash l) = true); [| congruence].
      apply existsb_exists. exists (thash w). split; [apply in_map; exact Hw|].
      apply Z.eqb_eq. exact Ew. }
    destruct Hx as [->|Hx], Hy as [->|Hy].
    + reflexivity.
    + exfalso. exact (K y Hy E).
    + exfalso. apply (K x Hx). symmetry. exact E.
    + apply IH; assumption.
Qed.

(* Atomic terms occur exactly as leaves. *)
Lemma occurs_leaf u t : match u with Stmt _ _ _ | Comp _ _ => False | _ => True end ->
  (occurs u t <-> In u (leaves t)).
Proof.
  intro Hu. split.
  - induction 1; cbn [leaves].
    + destruct u; try contradiction; left; reflexivity.
    + apply in_or_app; left; assumption.
    + apply in_or_app; right; assumption.
    + apply in_flat_map. eauto.
  - induction t as [op a|k i|n|c s p IHs IHp|c l IHl] using term_ind'; cbn [leaves]; intro H.
    1-3: destruct H as [<-|[]]; constructor.
    + apply in_app_or in H. destruct H; [apply occ_subj | apply occ_pred]; auto.
    + apply in_flat_map in H. destruct H as (x & Hx & H). eapply occ_comp; [exact Hx|].
      eapply Forall_In in IHl; [| exact Hx]. auto.
Qed.

Lemma only_ivars_check t :
  forallb (fun u => match u with Var Dependent _ | Var Query _ => false | _ => true end) (leaves t) = true ->
  only_ivars t.
Proof.
  intros H k i Ho. apply occurs_leaf in Ho; [|exact I]. rewrite forallb_forall in H. apply H in Ho.
  destruct k; [reflexivity | discriminate Ho | discriminate Ho].
Qed.

Lemma leaf_ok_check t :
  forallb (fun u => match u with
    | Atom _ a => (17179869184 <=? a) && (a <? 4611686018427387904)
    | Itv n => (-2147483648 <=? n) && (n <? 2147483648) &&
        negb (n =? -126) && negb (n =? -127) && negb (n =? -129)
    | _ => true end) (leaves t) = true -> leaf_ok t.
Proof.
  intro H. rewrite forallb_forall in H. split.
  - intros op a Ho. apply occurs_leaf in Ho; [|exact I]. apply H in Ho. cbv beta iota in Ho.
    apply andb_prop in Ho. destruct Ho as [H1 H2]. apply Z.leb_le in H1. apply Z.ltb_lt in H2. lia.
  - intros n Ho. apply occurs_leaf in Ho; [|exact I]. apply H in Ho. cbv beta iota in Ho.
    repeat (apply andb_prop in Ho; let K := fresh in destruct Ho as [Ho K];
            try (apply negb_true_iff, Z.eqb_neq in K); try apply Z.ltb_lt in K).
    apply Z.leb_le in Ho. repeat split; assumption.
Qed.

Lemma no_var_clash_of_leaf_ok t : leaf_ok t -> no_var_clash t.
Proof.
  intros [H1 H2]. split.
  - intros op a Ho. apply H1 in Ho. lia.
  - intros n Ho. apply H2 in Ho. lia.
Qed.

Lemma on_heap_check heap t :
  forallb (fun u => match u with Atom op a => Bool.eqb (heap a) op | _ => true end) (leaves t) = true ->
  on_heap heap t.
Proof.
  intros H op a Ho. rewrite forallb_forall in H. apply occurs_leaf in Ho; [|exact I]. apply H in Ho.
  cbv beta iota in Ho. apply Bool.eqb_prop in Ho. exact Ho.
Qed.

(* ( A * +3 * $2 --> ^B ) ==> [C, D] with ^B at its own address. *)
Definition sample : term :=
  Stmt Implication (Stmt Inheritance (Comp Product [A; Itv 3; Var Independent 2]) (Atom true (addr 9)))
    (Comp IntensionalSet (terms_set [C; D])).

(* ---- C02 ---- *)
Definition sp (i j : Z) : term := Stmt Inheritance (Var Independent i) (Var Independent j).
Lemma order_with_variables_fails : ~ strict_weak_order (fun _ => True) tlt.
Proof.
  intros (_ & Hasym & _). specialize (Hasym (sp 0 1) (sp 1 0) I I).
  assert (H1 : tlt (sp 0 1) (sp 1 0) = true) by reflexivity.
  assert (H2 : tlt (sp 1 0) (sp 0 1) = true) by reflexivity.
  rewrite (Hasym H1) in H2. discriminate H2.
Qed.

(* ---- C03 ---- *)
Lemma equality_laws :
  (forall t, only_ivars t -> teq t t = Ok true) /\
  (forall t1 t2, only_ivars t1 -> only_ivars t2 -> teq t1 t2 = teq t2 t1) /\
  (forall t1 t2, teq t1 t2 = Ok true -> thash t1 = thash t2).
Proof.
  split; [exact teq_refl|]. split; [intros; apply teq_sym; assumption | exact teq_hash].
Qed.

(* ---- C73 ---- *)
Lemma only_ivars_leaf t : (forall k i, t = Var k i -> k = Independent) ->
  match t with Stmt _ _ _ | Comp _ _ => False | _ => True end -> only_ivars t.
Proof. intros H Ht k i Ho. inversion Ho; subst; try contradiction. eapply H. reflexivity. Qed.

Lemma equality_not_transitive :
  ~ (forall t1 t2 t3, only_ivars t1 -> only_ivars t2 -> only_ivars t3 ->
       teq t1 t2 = Ok true -> teq t2 t3 = Ok true -> teq t1 t3 = Ok true).
Proof.
  intro H.
  assert (E : teq (Var Independent 0) (Var Independent 1) = Ok true).
  { apply (H (Var Independent 0) (Itv (-127)) (Var Independent 1)).
    - apply only_ivars_leaf; [congruence | exact I].
    - apply only_ivars_leaf; [congruence | exact I].
    - apply only_ivars_leaf; [congruence | exact I].
    - reflexivity.
    - reflexivity. }
  discriminate E.
Qed.

(* ---- C04 ---- *)
Lemma equality_undefined : ~ (forall t1 t2, exists b, teq t1 t2 = Ok b).
Proof.
  intro H. destruct (H (Var Dependent 0) (Var Dependent 0)) as [b E]. discriminate E.
Qed.

(* ---- C05 ---- *)
Lemma equality_is_identity heap t1 t2 :
  only_ivars t1 -> only_ivars t2 -> leaf_ok t1 -> leaf_ok t2 ->
  on_heap heap t1 -> on_heap heap t2 ->
  (teq t1 t2 = Ok true <-> t1 = t2).
Proof.
  intros O1 O2 L1 L2 H1 H2. split.
  - apply (teq_identity heap); assumption.
  - intros <-. apply teq_refl. exact O1.
Qed.

(* ---- C07: two products with the same hash, at addresses a heap can give ---- *)
Definition pr1 : term :=
  Comp Product [Atom false 93824992420880; Atom false 93824992413824].
Definition pr2 : term :=
  Comp Product [Atom false 93824992422544; Atom false 93824992456480].

Lemma collision_facts : var_free pr1 /\ var_free pr2 /\ teq pr1 pr2 = Ok false /\
  terms_set [pr1; pr2] = [pr1].
Proof.
  split; [apply var_free_check; reflexivity|]. split; [apply var_free_check; reflexivity|].
  split; vm_compute; reflexivity.
Qed.

Lemma distinct_components_merged :
  ~ (forall ord t1 t2 t, any_order ord -> var_free t1 -> var_free t2 -> teq t1 t2 = Ok false ->
       compound ord true ExtensionalSet [t1; t2] = Ok t ->
       exists l, t = Comp ExtensionalSet l /\ In t1 l /\ In t2 l).
Proof.
  intro H. destruct collision_facts as (V1 & V2 & E & S).
  destruct (H (fun m => m) pr1 pr2 (Comp ExtensionalSet [pr1])) as (l & El & _ & H2).
  - intro m. reflexivity.
  - exact V1.
  - exact V2.
  - exact E.
  - vm_compute. reflexivity.
  - injection El as <-. destruct H2 as [H2|[]]. discriminate H2.
Qed.

Lemma merged_only_on_collision l x : Forall var_free l -> In x l ->
  exists z, In z (mk_terms true l) /\ In z l /\ thash z = thash x.
Proof.
  intros V Hx. apply Forall_vf in V. destruct (terms_set_hash l x V Hx) as [z [Hz E]].
  exists z. split; [exact Hz|]. split; [apply terms_set_in; exact Hz | exact E].
Qed.

(* ---- C19, C20 ---- *)
Lemma flags_exact t :
  (has_var t = true <-> exists k i, occurs (Var k i) t) /\
  (has_ivar t = true <-> exists i, occurs (Var Independent i) t) /\
  (has_dvar t = true <-> exists i, occurs (Var Dependent i) t) /\
  (has_qvar t = true <-> exists i, occurs (Var Query i) t).
Proof.
  split; [apply has_var_spec|]. split; [apply has_ivar_spec|].
  split; [apply has_dvar_spec | apply has_qvar_spec].
Qed.

(* ---- C26 ---- *)
Inductive arity : connector -> Z -> Prop :=
| ar_neg : arity Negation 1
| ar_ediff : arity ExtensionalDifference 2
| ar_idiff : arity IntensionalDifference 2
| ar_many c n : In c [Conjunction; Disjunction; Product; ParallelEvents; SequentialEvents;
      IntensionalIntersection; ExtensionalIntersection; IntensionalImage; ExtensionalImage] ->
    2 <= n -> arity c n
| ar_some c n : In c [IntensionalSet; ExtensionalSet; CList] -> 1 <= n -> arity c n.

Lemma arity_rule c n : check_valid c n = true <-> arity c n.
Proof.
  split.
  - intro H. destruct c; unfold check_valid in H; simpl in H;
      repeat match goal with
      | H : _ && _ = true |- _ => apply andb_prop in H; destruct H
      | H : (_ =? _) = true |- _ => apply Z.eqb_eq in H
      | H : (_ <? _) = true |- _ => apply Z.ltb_lt in H
      end; subst; try (constructor; fail);
      first [ apply ar_many; [simpl; tauto | lia] | apply ar_some; [simpl; tauto | lia] ].
  - intro H. destruct H as [| | |c n Hc Hn|c n Hc Hn]; try reflexivity.
    + assert ((1 <? n) = true) by (apply Z.ltb_lt; lia).
      assert ((0 <? n) = true) by (apply Z.ltb_lt; lia).
      simpl in Hc; repeat (destruct Hc as [<-|Hc]); try contradiction Hc;
        unfold check_valid; simpl; rewrite H, H0; reflexivity.
    + assert ((0 <? n) = true) by (apply Z.ltb_lt; lia).
      simpl in Hc; repeat (destruct Hc as [<-|Hc]); try contradiction Hc;
        unfold check_valid; simpl; rewrite H; reflexivity.
Qed.

(* ---- C27 ---- *)
Lemma python_connectors_clash :
  ~ (forall n1 n2 c s1 s2, In (n1, c, s1) py_connectors -> In (n2, c, s2) py_connectors -> n1 = n2).
Proof.
  intro H. specialize (H "ParallelEvents" "ExtensionalDifference" ParallelEvents "&|" "-")%string.
  assert (E : "ParallelEvents"%string = "ExtensionalDifference"%string).
  { apply H; simpl; tauto. }
  discriminate E.
Qed.

Lemma python_connectors_others n c s : In (n, c, s) py_connectors ->
  n <> "ExtensionalDifference"%string ->
  con_repr c = s /\
  forall n' s', In (n', c, s') py_connectors -> n' <> "ExtensionalDifference"%string -> n' = n.
Proof.
  intros H Hn. simpl in H.
  repeat (destruct H as [H|H]; [injection H as <- <- <-; try congruence;
    (split; [reflexivity|]); intros n' s' H' Hn'; simpl in H';
    repeat (destruct H' as [H'|H']; [solve [inversion H'; subst; congruence]|]);
    contradiction H' |]).
  contradiction H.
Qed.

(* ---- C28 ---- *)
Lemma copula_counterparts_lost :
  ~ (forall c, (symmetrize c = true <-> symmetrize_tab c <> None) /\
               (reverse c = true <-> reverse_tab c <> None)).
Proof.
  intro H. destruct (H Instance) as [[H1 _] _]. apply H1; reflexivity.
Qed.

Lemma copula_counterparts_constant c : symmetrize c = true /\ reverse c = true.
Proof. destruct c; split; reflexivity. Qed.

(* ---- C25 ---- *)
Lemma op_hyps U t rest : collision_free U ->
  (forall u, In u (t :: rest) -> t_comm u = true /\ ascending (t_elems u) /\
     forall x, In x (t_elems u) -> U x) ->
  faithful U /\ t_comm t = true /\ Forall (fun t => t_comm t = true) rest /\
  (Forall U (t_elems t) /\ sorted (t_elems t)) /\
  Forall (fun t => Forall U (t_elems t) /\ sorted (t_elems t)) rest.
Proof.
  intros F H. apply collision_free_iff in F.
  assert (K : forall u, In u (t :: rest) -> Forall U (t_elems u) /\ sorted (t_elems u)).
  { intros u Hu. destruct (H u Hu) as (_ & S & HU). split; [apply Forall_forall; exact HU | exact S]. }
  split; [exact F|]. split; [apply (H t); left; reflexivity|].
  split; [apply Forall_forall; intros u Hu; apply (H u); right; exact Hu|].
  split; [apply K; left; reflexivity|].
  apply Forall_forall. intros u Hu. apply K. right; exact Hu.
Qed.

Lemma union_exact U t rest : collision_free U ->
  (forall u, In u (t :: rest) -> t_comm u = true /\ ascending (t_elems u) /\
     forall x, In x (t_elems u) -> U x) ->
  exists s, terms_union (t :: rest) = Ok s /\ ascending s /\
    forall z, In z s <-> exists u, In u (t :: rest) /\ In z (t_elems u).
Proof.
  intros F H. destruct (op_hyps U t rest F H) as (F' & H1 & H2 & H3 & H4).
  destruct (terms_union_spec U F' t rest H1 H2 H3 H4) as (s & E & S & _ & Hs). exists s; auto.
Qed.

Lemma intersection_exact U t rest : collision_free U ->
  (forall u, In u (t :: rest) -> t_comm u = true /\ ascending (t_elems u) /\
     forall x, In x (t_elems u) -> U x) ->
  exists s, terms_intersection (t :: rest) = Ok s /\ ascending s /\
    forall z, In z s <-> forall u, In u (t :: rest) -> In z (t_elems u).
Proof.
  intros F H. destruct (op_hyps U t rest F H) as (F' & H1 & H2 & H3 & H4).
  destruct (terms_intersection_spec U F' t rest H1 H2 H3 H4) as (s & E & S & _ & Hs). exists s; auto.
Qed.

Lemma difference_exact U t rest : collision_free U ->
  (forall u, In u (t :: rest) -> t_comm u = true /\ ascending (t_elems u) /\
     forall x, In x (t_elems u) -> U x) ->
  exists s, terms_difference (t :: rest) = Ok s /\ ascending s /\
    forall z, In z s <-> In z (t_elems t) /\ forall u, In u rest -> ~ In z (t_elems u).
Proof.
  intros F H. destruct (op_hyps U t rest F H) as (F' & H1 & H2 & H3 & H4).
  destruct (terms_difference_spec U F' t rest H1 H2 H3 H4) as (s & E & S & _ & Hs). exists s; auto.
Qed.

Lemma terms_op_errors op all :
  op = terms_union \/ op = terms_intersection \/ op = terms_difference ->
  (op all = Throw <-> all = [] \/ exists t rest u, all = t :: rest /\ In u rest /\ t_comm u = false)
  /\ (op all <> Throw -> exists s, op all = Ok s).
Proof.
  intro Hop. assert (Ho : exists f, op = terms_op f).
  { destruct Hop as [->|[->| ->]]; eexists; reflexivity. }
  destruct Ho as [f ->]. clear Hop.
  assert (D : (exists s, terms_op f all = Ok s) \/ terms_op f all = Throw).
  { destruct all as [|t rest]; [right; reflexivity|]. simpl.
    destruct (fold_terms_cases f rest (terms_unordered t)) as [[s ->]| ->];
      [left; eexists; reflexivity | right; reflexivity]. }
  split; [| intro N; destruct D as [D|D]; [exact D | contradiction]].
  pose proof (terms_op_ok f all) as Hok. split.
  - intro T. destruct all as [|t rest]; [left; reflexivity|]. right.
    destruct (existsb (fun u => negb (t_comm u)) rest) eqn:Ex.
    + apply existsb_exists in Ex. destruct Ex as (u & Hu & Hc). exists t, rest, u.
      split; [reflexivity|]. split; [exact Hu|]. destruct (t_comm u); [discriminate Hc | reflexivity].
    + exfalso. assert (K : exists s, terms_op f (t :: rest) = Ok s).
      { apply Hok. exists t, rest. split; [reflexivity|]. apply Forall_forall. intros u Hu.
        destruct (t_comm u) eqn:Eu; [reflexivity|].
        assert (existsb (fun u => negb (t_comm u)) rest = true); [| congruence].
        apply existsb_exists. exists u. rewrite Eu. auto. }
      destruct K as [s K]. congruence.
  - intros H. destruct D as [[s D]|D]; [exfalso | exact D].
    assert (K : exists s, terms_op f all = Ok s) by (exists s; exact D). apply Hok in K.
    destruct K as (t & rest & -> & K). destruct H as [H|(t' & rest' & u & E & Hu & Hc)]; [discriminate H|].
    injection E as <- <-. eapply Forall_In in K; [| exact Hu]. cbv beta in K. congruence.
Qed.
