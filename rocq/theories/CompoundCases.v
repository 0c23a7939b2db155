(* Compounds: property lemmas in specification terms and witnesses. *)
From Coq Require Import ZArith List Bool Lia Permutation Sorting.
From Verif Require Import Base Hash Enums Term TermSpec TermFacts Terms TermsFacts Compound
  CompoundFacts CompoundSpec CompoundFacts2 CompoundFacts3 TermCases.
Import ListNotations.
Local Open Scope Z_scope.

Definition id_order : cmap -> cmap := fun m => m.
Lemma id_order_ok : any_order id_order.
Proof. intro m. apply Permutation_refl. Qed.
Definition rev_order : cmap -> cmap := fun m => rev m.
Lemma rev_order_ok : any_order rev_order.
Proof. intro m. apply Permutation_sym, Permutation_rev. Qed.

(* ---- C08, C09 ---- *)
Lemma argument_order_irrelevant ord b con l1 l2 :
  set_like con -> collision_free (fun t => In t l1) -> Permutation l1 l2 ->
  compound ord b con l1 = compound ord b con l2.
Proof.
  intros Hs F P. apply set_like_iff in Hs. apply collision_free_iff in F.
  apply (compound_args_ext ord b con l1 l2 (fun t => In t l1)); try assumption.
  - apply Forall_forall; auto.
  - intro x. split; [apply Permutation_in; exact P | apply Permutation_in, Permutation_sym; exact P].
Qed.

Lemma repetition_irrelevant ord b con l1 x l2 :
  set_like con -> collision_free (fun t => In t (l1 ++ l2)) -> In x (l1 ++ l2) ->
  compound ord b con (l1 ++ x :: l2) = compound ord b con (l1 ++ l2).
Proof.
  intros Hs F Hx. apply set_like_iff in Hs. apply collision_free_iff in F. symmetry.
  apply (compound_args_ext ord b con _ _ (fun t => In t (l1 ++ l2))); try assumption.
  - apply Forall_forall; auto.
  - intro y. rewrite !in_app_iff in *. simpl. intuition congruence.
Qed.

(* ---- C74 ---- *)
Lemma iteration_order_irrelevant ord1 ord2 b con args :
  any_order ord1 -> any_order ord2 ->
  collision_free (gathers ord1 con (mk_terms (is_commutative con) args)) ->
  compound ord1 b con args = compound ord2 b con args.
Proof.
  intros O1 O2 F. apply collision_free_iff in F.
  apply (any_order_independent ord1 ord2 _ O1 O2 F (fuel_for (mk_terms (is_commutative con) args)));
    [apply below_fuel_for | auto].
Qed.

(* ---- C10 ---- *)
Lemma collision_free_sub (U V : term -> Prop) :
  (forall x, V x -> U x) -> collision_free U -> collision_free V.
Proof. intros H [H1 H2]. split; auto. Qed.

Lemma tidy_components c l : set_like c -> tidy (Comp c l) -> fits c l /\ Forall tidy l.
Proof.
  intros Hc T. inversion T as [t Hn|c' l' Hs Hf Ht _]; subst; [|tauto].
  exfalso. apply Hn. exists c, l. auto.
Qed.

Lemma unfolds_tidy c args l : set_like c -> Forall tidy args -> unfolds c args l ->
  Forall tidy l /\ forall l', ~ In (Comp c l') l.
Proof.
  intros Hc T U. induction U as [|l' l r U IH|t l r Ht U IH].
  - split; [constructor | intros l' []].
  - inversion T as [|? ? T1 T2]; subst. destruct (IH T2) as [I1 I2].
    destruct (tidy_components c l' Hc T1) as [Hf Ht]. split.
    + apply Forall_app; auto.
    + intros l'' Hin. apply in_app_or in Hin. destruct Hin as [Hin|Hin];
        [exact (fits_unlike _ _ Hf _ Hin) | exact (I2 _ Hin)].
  - inversion T as [|? ? T1 T2]; subst. destruct (IH T2) as [I1 I2]. split.
    + constructor; assumption.
    + intros l'' [Hin|Hin]; [exact (Ht _ Hin) | exact (I2 _ Hin)].
Qed.

(* What the arguments, once flattened to l, must satisfy besides being tidy:
   two different components or one that is no set-like compound; below an
   intersection at most one set of each kind. *)
Definition enough (c : connector) (l : list term) : Prop :=
  ((exists x y, In x l /\ In y l /\ x <> y) \/
   (exists t, In t l /\ (forall x, In x l -> x = t) /\ ~ set_compound t)) /\
  (intersection c -> forall s a b, s = ExtensionalSet \/ s = IntensionalSet ->
      In (Comp s a) l -> In (Comp s b) l -> a = b).

Lemma fits_of_args c args l : set_like c -> Forall tidy args -> unfolds c args l ->
  collision_free (fun t => In t l) -> enough c l ->
  fits c (terms_set l) /\ (forall x, In x (terms_set l) <-> In x l).
Proof.
  intros Hc T U F [Hm Hsets]. pose proof F as F'. apply collision_free_iff in F'.
  assert (E : forall x, In x (terms_set l) <-> In x l).
  { intro x. apply (terms_set_iff (fun t => In t l)); [exact F' | apply Forall_forall; auto]. }
  assert (V : Forall vf l) by (apply Forall_forall; intros x Hx; apply vf_iff, F; exact Hx).
  destruct (unfolds_tidy c args l Hc T U) as [_ Hu].
  split; [| exact E]. constructor.
  - apply terms_set_sorted. exact V.
  - apply Forall_forall. intros x Hx. apply F. apply E. exact Hx.
  - intros l' Hin. apply E in Hin. exact (Hu _ Hin).
  - pose proof (terms_set_sorted l V) as S. apply sorted_nodup in S.
    destruct Hm as [(x & y & Hx & Hy & N)|(t & Ht & Hall & Hn)].
    + left. apply E in Hx, Hy. destruct (terms_set l) as [|a [|b r]]; simpl in *; try lia.
      * destruct Hx as [<-|[]], Hy as [<-|[]]. congruence.
    + right. exists t. split; [| exact Hn].
      apply E in Ht. assert (Hall' : forall x, In x (terms_set l) -> x = t)
        by (intros x Hx; apply Hall, E, Hx).
      destruct (terms_set l) as [|a [|b r]]; [destruct Ht | f_equal; apply Hall'; left; reflexivity |].
      exfalso. inversion S as [|? ? Hni _]; subst. apply Hni. left.
      rewrite (Hall' a), (Hall' b); simpl; auto.
  - intros Hi s a b Hs Ha Hb. apply E in Ha, Hb. eapply Hsets; eassumption.
Qed.

Lemma exact_components ord b con args l :
  any_order ord -> set_like con -> Forall tidy args -> unfolds con args l ->
  collision_free (fun t => In t args \/ In t l) -> enough con l ->
  exists r, compound ord b con args = Ok (Comp con r) /\ ascending r /\
    (forall x, In x r <-> In x l).
Proof.
  intros Ho Hs T U F En.
  assert (Fl : collision_free (fun t => In t l)) by (eapply collision_free_sub; [| exact F]; cbv beta; tauto).
  destruct (fits_of_args con args l Hs T U Fl En) as [Hf E].
  exists (terms_set l). split; [|split; [apply (fits_ascending _ _ Hf) | exact E]].
  apply build_fits_args; try assumption.
  - apply Forall_forall. intros x Hx. apply F. left; exact Hx.
  - intros x y Hx Hy. apply F; left; assumption.
  - apply (unfolds_tidy con args l Hs T U).
Qed.

(* The result is tidy again (C17). *)
Lemma result_tidy ord b con args l t :
  any_order ord -> set_like con -> Forall tidy args -> unfolds con args l ->
  collision_free (fun t => In t args \/ In t l) -> enough con l ->
  (exists x y, In x l /\ In y l /\ x <> y) \/ con = ExtensionalSet \/ con = IntensionalSet ->
  compound ord b con args = Ok t -> tidy t.
Proof.
  intros Ho Hs T U F En Hlen E.
  assert (Fl : collision_free (fun t => In t l)) by (eapply collision_free_sub; [| exact F]; cbv beta; tauto).
  destruct (fits_of_args con args l Hs T U Fl En) as [Hf Ein].
  assert (E2 : compound ord b con args = Ok (Comp con (terms_set l))).
  { apply build_fits_args; try assumption.
    - apply Forall_forall. intros x Hx. apply F. left; exact Hx.
    - intros x y Hx Hy. apply F; left; assumption.
    - apply (unfolds_tidy con args l Hs T U). }
  rewrite E2 in E. injection E as <-. apply tidy_comp; try assumption.
  - apply terms_set_forall. apply (unfolds_tidy con args l Hs T U).
  - destruct Hlen as [(x & y & Hx & Hy & N)|H]; [left | right; exact H].
    apply Ein in Hx, Hy. destruct (terms_set l) as [|a [|b' r]]; simpl in *; try lia.
    destruct Hx as [<-|[]], Hy as [<-|[]]. congruence.
Qed.

(* ---- C18 ---- *)
Lemma rebuild_tidy ord b con l : any_order ord -> set_like con -> tidy (Comp con l) ->
  compound ord b con l = Ok (Comp con l).
Proof.
  intros Ho Hs T. destruct (tidy_components con l Hs T) as [Hf Ht].
  apply set_like_iff in Hs as Hc. unfold compound, mk_terms. rewrite Hc.
  assert (E : terms_set l = l)
    by (apply terms_set_id; [apply (fits_ascending _ _ Hf) | apply Forall_vf, (fits_var_free _ _ Hf)]).
  rewrite E. eapply build_fits; [exact Ho | apply below_fuel_for | exact Hs | | exact Hf | exact Ht].
  rewrite flatten_expand, expand_none by apply (fits_unlike _ _ Hf). exact E.
Qed.

Lemma rebuild_sequence ord b l : any_order ord ->
  (forall l', ~ In (Comp SequentialEvents l') l) ->
  compound ord b SequentialEvents l = Ok (Comp SequentialEvents l).
Proof. intros Ho H. rewrite sequence_build. rewrite expand_none by exact H. reflexivity. Qed.

Lemma rebuild_partial ord b con l : any_order ord ->
  plain con \/ (con = SequentialEvents /\ forall l', ~ In (Comp SequentialEvents l') l) \/
    (set_like con /\ tidy (Comp con l)) ->
  compound ord b con l = Ok (Comp con l).
Proof.
  intros Ho [H|[[-> H]|[H1 H2]]].
  - apply plain_build; exact H.
  - apply rebuild_sequence; assumption.
  - apply rebuild_tidy; assumption.
Qed.

(* ---- C12 ---- *)
Lemma sequence_unfolds ord b args : any_order ord ->
  exists l, compound ord b SequentialEvents args = Ok (Comp SequentialEvents l) /\
    unfolds SequentialEvents args l /\
    (Forall (built ord) args -> forall l', ~ In (Comp SequentialEvents l') l).
Proof.
  intros Ho. exists (expand_seq SequentialEvents args). split; [apply sequence_build|].
  split; [apply unfolds_flat|]. intros Hb l' Hin.
  assert (Hbt : built ord (Comp SequentialEvents (expand_seq SequentialEvents args))).
  { eapply blt_comp with (b := b); [exact Hb | apply sequence_build]. }
  apply (built_sequences_flat ord Ho) in Hbt. eapply Hbt; [constructor | exact Hin].
Qed.

(* ---- C14, C15 ---- *)
Lemma union_of_sets ord b U par st sets : any_order ord ->
  (par = IntensionalIntersection /\ st = ExtensionalSet) \/
  (par = ExtensionalIntersection /\ st = IntensionalSet) ->
  collision_free U -> sets <> [] ->
  (forall t, In t sets -> U t /\ exists m, t = Comp st m /\ ascending m /\ forall x, In x m -> U x) ->
  exists l, compound ord b par sets = Ok (Comp st l) /\ ascending l /\
    forall z, In z l <-> exists m, In (Comp st m) sets /\ In z m.
Proof.
  intros Ho Hp F Hn Hs. apply collision_free_iff in F.
  apply (union_rule ord Ho b par st U sets Hp F Hn).
  apply Forall_forall. intros t Ht. destruct (Hs t Ht) as [HU (m & -> & Hm & Hx)].
  split; [exact HU|]. exists m. split; [reflexivity|]. split; [apply Forall_forall; exact Hx | exact Hm].
Qed.

Lemma intersection_of_sets ord b U par st sets : any_order ord ->
  (par = ExtensionalIntersection /\ st = ExtensionalSet) \/
  (par = IntensionalIntersection /\ st = IntensionalSet) ->
  collision_free U -> sets <> [] ->
  (forall t, In t sets -> U t /\ exists m, t = Comp st m /\ ascending m /\ forall x, In x m -> U x) ->
  exists l, compound ord b par sets = Ok (Comp par l) /\ ascending l /\
    forall z, In z l <-> forall m, In (Comp st m) sets -> In z m.
Proof.
  intros Ho Hp F Hn Hs. apply collision_free_iff in F.
  apply (intersection_rule ord Ho b par st U sets Hp F Hn).
  apply Forall_forall. intros t Ht. destruct (Hs t Ht) as [HU (m & -> & Hm & Hx)].
  split; [exact HU|]. exists m. split; [reflexivity|]. split; [apply Forall_forall; exact Hx | exact Hm].
Qed.

Lemma A_lt_B : thash A < thash B. Proof. vm_compute. reflexivity. Qed.

(* {x, y} as the library builds it. *)
Definition mk2 (c : connector) (x y : term) : term := Comp c (terms_set [x; y]).

Definition sets_AB_BC (st : connector) : list term := [mk2 st A B; mk2 st B C].
Definition UABC (st : connector) (t : term) : Prop := In t [A; B; C; mk2 st A B; mk2 st B C].

Lemma UABC_free st : st = ExtensionalSet \/ st = IntensionalSet -> collision_free (UABC st).
Proof. intros [->| ->]; apply cf_list; vm_compute; reflexivity. Qed.

Lemma ascending_terms_set l : forallb (fun t => negb (has_var t)) l = true -> ascending (terms_set l).
Proof. intro H. apply terms_set_sorted, Forall_vf, forall_var_free_check, H. Qed.

Lemma sets_AB_BC_ok st : forall t, In t (sets_AB_BC st) ->
  UABC st t /\ exists m, t = Comp st m /\ ascending m /\ forall x, In x m -> UABC st x.
Proof.
  intros t [<-|[<-|[]]].
  - split; [unfold UABC; simpl; tauto|]. exists (terms_set [A; B]).
    split; [reflexivity|]. split; [apply ascending_terms_set; reflexivity|].
    intros x Hx. apply terms_set_in in Hx. unfold UABC. simpl in *. tauto.
  - split; [unfold UABC; simpl; tauto|]. exists (terms_set [B; C]).
    split; [reflexivity|]. split; [apply ascending_terms_set; reflexivity|].
    intros x Hx. apply terms_set_in in Hx. unfold UABC. simpl in *. tauto.
Qed.

Lemma intersection_rule_broken :
  ~ (forall ord b U par st sets, any_order ord ->
      (par = ExtensionalIntersection /\ st = ExtensionalSet) \/
      (par = IntensionalIntersection /\ st = IntensionalSet) ->
      collision_free U -> (2 <= length sets)%nat ->
      (forall t, In t sets -> U t /\ exists m, t = Comp st m /\ ascending m /\ forall x, In x m -> U x) ->
      (exists z, forall m, In (Comp st m) sets -> In z m) ->
      exists l, compound ord b par sets = Ok (Comp st l) /\ ascending l /\
        forall z, In z l <-> forall m, In (Comp st m) sets -> In z m).
Proof.
  intro H.
  destruct (H id_order true (UABC ExtensionalSet) ExtensionalIntersection ExtensionalSet
              (sets_AB_BC ExtensionalSet)) as (l & E & _).
  - apply id_order_ok.
  - left; split; reflexivity.
  - apply UABC_free; left; reflexivity.
  - simpl; lia.
  - apply sets_AB_BC_ok.
  - exists B. intros m [E|[E|[]]]; injection E as <-; vm_compute; tauto.
  - assert (R : compound id_order true ExtensionalIntersection (sets_AB_BC ExtensionalSet)
                = Ok (Comp ExtensionalIntersection [B])) by (vm_compute; reflexivity).
    rewrite R in E. discriminate E.
Qed.

(* ---- C16 ---- *)
Lemma difference_rule_broken :
  ~ (forall ord b par st x y, any_order ord ->
      (par = ExtensionalDifference /\ st = ExtensionalSet) \/
      (par = IntensionalDifference /\ st = IntensionalSet) ->
      exists l, compound ord b par [Comp st x; Comp st y] = Ok (Comp st l) /\
        forall z, In z l <-> In z x /\ ~ In z y).
Proof.
  intro H. destruct (H id_order true ExtensionalDifference ExtensionalSet [A; B] [B; C] id_order_ok)
    as (l & E & _); [left; split; reflexivity|].
  rewrite plain_build in E by constructor. discriminate E.
Qed.

(* ---- C11 ---- *)
Definition and_C : term := Comp Conjunction [C].
Lemma and_C_built ord : any_order ord -> compound ord true Conjunction [C; C] = Ok and_C.
Proof.
  intro Ho. unfold and_C.
  destruct (exact_components ord true Conjunction [C; C] [C; C] Ho sl_and) as (r & -> & S & E).
  - repeat constructor; intros (c & l & E & _); discriminate E.
  - repeat constructor; intros l' E; discriminate E.
  - apply collision_free_sub with (U := fun t => In t [C]); [simpl; tauto | apply cf_list; reflexivity].
  - split.
    + right. exists C. split; [simpl; tauto|]. split; [simpl; intuition congruence|].
      intros (c & l & E & _); discriminate E.
    + intros [H|H]; discriminate H.
  - assert (N : r = [C]); [| rewrite N; reflexivity].
    apply sorted_unique; [exact S | repeat constructor|]. intro x. rewrite E. simpl. tauto.
Qed.

Lemma component_lost :
  ~ (forall ord b con args t, any_order ord -> Forall (built ord) args ->
      compound ord b con args = Ok t ->
      forall x op a, In x args -> occurs (Atom op a) x -> occurs (Atom op a) t).
Proof.
  intro H.
  assert (K : occurs C (Comp Disjunction [A])).
  { apply (H id_order true Disjunction [A; and_C] (Comp Disjunction [A]) id_order_ok) with (x := and_C).
    - constructor; [constructor|]. constructor; [| constructor].
      eapply blt_comp; [| apply and_C_built, id_order_ok]. repeat constructor.
    - vm_compute. reflexivity.
    - simpl; tauto.
    - econstructor; [left; reflexivity | constructor]. }
  inversion K as [| | |c l x Hin Ho]; subst. destruct Hin as [<-|[]]. inversion Ho.
Qed.

Lemma leaves_unfolds c args l : unfolds c args l -> flat_map leaves l = flat_map leaves args.
Proof.
  induction 1 as [|l' l r U IH|t l r Ht U IH]; simpl; [reflexivity| |].
  - rewrite flat_map_app, IH. reflexivity.
  - rewrite IH. reflexivity.
Qed.

(* Nothing is lost by the ordered connectors, nor when the arguments are tidy. *)
Lemma nothing_lost ord b con args l t : any_order ord -> unfolds con args l ->
  plain con \/ con = SequentialEvents \/
    (set_like con /\ Forall tidy args /\ collision_free (fun t => In t args \/ In t l) /\ enough con l) ->
  compound ord b con args = Ok t ->
  forall x, In x (leaves t) <-> In x (flat_map leaves args).
Proof.
  intros Ho U [H|[->|(H1 & H2 & H3 & H4)]] E x.
  - rewrite plain_build in E by assumption. injection E as <-. reflexivity.
  - rewrite sequence_build in E. injection E as <-.
    apply unfolds_fun in U as U'. cbn [leaves]. rewrite <- U'.
    rewrite (leaves_unfolds _ _ _ U). reflexivity.
  - destruct (exact_components ord b con args l Ho H1 H2 U H3 H4) as (r & E' & _ & Hr).
    rewrite E' in E. injection E as <-. cbn [leaves].
    rewrite <- (leaves_unfolds _ _ _ U). rewrite !in_flat_map.
    split; intros (y & Hy & Hx); exists y; (split; [apply Hr; exact Hy | exact Hx]).
Qed.

(* ---- C17 ---- *)
Definition reducible (c : connector) : Prop := set_like c \/ c = SequentialEvents.
Definition self_nested (t : term) : Prop :=
  exists c l l', reducible c /\ occurs (Comp c l) t /\ In (Comp c l') l.

Definition set_A : term := Comp ExtensionalSet [A].
Definition and_setA_B : term := Comp Conjunction (terms_set [set_A; B]).
Lemma set_A_built : compound id_order true ExtensionalSet [A] = Ok set_A.
Proof. vm_compute. reflexivity. Qed.
Lemma and_setA_B_built : compound id_order true Conjunction [set_A; B] = Ok and_setA_B.
Proof. vm_compute. reflexivity. Qed.

Lemma atom_not_comp c l op a : ~ occurs (Comp c l) (Atom op a).
Proof. intro H; inversion H. Qed.

Lemma not_self_nested_atom op a : ~ self_nested (Atom op a).
Proof. intros (c & l & l' & _ & H & _). apply atom_not_comp in H. exact H. Qed.

Lemma not_self_nested_comp c l : (forall l', ~ In (Comp c l') l) ->
  (forall x, In x l -> ~ self_nested x) -> ~ self_nested (Comp c l).
Proof.
  intros H1 H2 (c' & l1 & l2 & Hr & Hocc & Hin). inversion Hocc; subst.
  - exact (H1 _ Hin).
  - match goal with Hx : In ?x l |- _ => apply (H2 x Hx) end. exists c', l1, l2. auto.
Qed.

Lemma normal_form_broken :
  ~ (forall ord b con args t, any_order ord -> Forall (built ord) args ->
      (forall x, In x args -> ~ self_nested x) ->
      compound ord b con args = Ok t -> ~ self_nested t).
Proof.
  intro H.
  apply (H id_order true ExtensionalSet [and_setA_B] (Comp ExtensionalSet (terms_set [set_A; B])) id_order_ok).
  - constructor; [|constructor]. eapply blt_comp; [| apply and_setA_B_built].
    constructor; [| repeat constructor]. eapply blt_comp; [| apply set_A_built]. repeat constructor.
  - intros x [<-|[]]. apply not_self_nested_comp.
    + intros l' Hin. apply terms_set_in in Hin. destruct Hin as [Hin|[Hin|[]]]; discriminate Hin.
    + intros x Hx. apply terms_set_in in Hx. destruct Hx as [<-|[<-|[]]].
      * apply not_self_nested_comp; [intros l' [E|[]]; discriminate E|].
        intros x [<-|[]]. apply not_self_nested_atom.
      * apply not_self_nested_atom.
  - vm_compute. reflexivity.
  - exists ExtensionalSet, (terms_set [set_A; B]), [A].
    split; [left; constructor|]. split; [constructor|]. vm_compute. tauto.
Qed.

(* ---- C18 ---- *)
Lemma rebuild_broken :
  ~ (forall ord b c l, any_order ord -> built ord (Comp c l) ->
      compound ord b c l = Ok (Comp c l)).
Proof.
  intro H.
  assert (Bt : built id_order (Comp ExtensionalSet (terms_set [set_A; B]))).
  { eapply blt_comp with (b := true) (con := ExtensionalSet) (args := [and_setA_B]).
    - constructor; [|constructor]. eapply blt_comp; [| apply and_setA_B_built].
      constructor; [| repeat constructor]. eapply blt_comp; [| apply set_A_built]. repeat constructor.
    - vm_compute. reflexivity. }
  specialize (H id_order true _ _ id_order_ok Bt). vm_compute in H. discriminate H.
Qed.

(* ---- C76 ---- *)
Definition set_B : term := Comp ExtensionalSet [B].
Lemma set_B_built : compound id_order true ExtensionalSet [B] = Ok set_B.
Proof. vm_compute. reflexivity. Qed.

Lemma build_undefined :
  ~ (forall ord b con args, any_order ord -> args <> [] -> Forall (built ord) args ->
      exists t, compound ord b con args = Ok t).
Proof.
  intro H. destruct (H id_order true ExtensionalIntersection [set_A; set_B; and_C] id_order_ok) as [t E].
  - discriminate.
  - repeat constructor.
    + eapply blt_comp; [| apply set_A_built]. repeat constructor.
    + eapply blt_comp; [| apply set_B_built]. repeat constructor.
    + eapply blt_comp; [| apply and_C_built, id_order_ok]. repeat constructor.
  - vm_compute in E. discriminate E.
Qed.

Lemma build_outcome ord b con args : any_order ord ->
  compound ord b con args <> Throw /\ compound ord b con args <> OutOfFuel /\
  (forall l, unfolds con args l ->
    plain con \/ con = SequentialEvents \/
    (set_like con /\ Forall tidy args /\ collision_free (fun t => In t args \/ In t l) /\ enough con l) ->
    exists t, compound ord b con args = Ok t).
Proof.
  intro Ho. destruct (compound_outcome ord Ho b con args) as [[t E]|E]; rewrite E.
  - repeat split; try discriminate. intros. exists t; reflexivity.
  - repeat split; try discriminate. intros l U H. exfalso.
    destruct H as [H|[->|(H1 & H2 & H3 & H4)]].
    + rewrite plain_build in E by assumption. discriminate E.
    + rewrite sequence_build in E. discriminate E.
    + destruct (exact_components ord b con args l Ho H1 H2 U H3 H4) as (r & E' & _).
      rewrite E' in E. discriminate E.
Qed.

(* ---- C77 ---- *)
Definition or_AB : term := Comp Disjunction (terms_set [A; B]).
Lemma or_AB_tidy : tidy or_AB.
Proof.
  apply tidy_comp; [constructor| | |].
  - constructor.
    + apply ascending_terms_set. reflexivity.
    + apply forall_var_free_check. vm_compute. reflexivity.
    + intros l' Hin. apply terms_set_in in Hin. destruct Hin as [E|[E|[]]]; discriminate E.
    + left. vm_compute. lia.
    + intros [H|H]; discriminate H.
  - apply terms_set_forall. repeat constructor; intros (c & l & E & _); discriminate E.
  - left. vm_compute. lia.
Qed.

Lemma repeated_compound_changed :
  ~ (forall ord b con t r, any_order ord -> set_like con -> tidy t -> (forall l, t <> Comp con l) ->
      compound ord b con [t; t] = Ok r -> exists l, r = Comp con l /\ In t l).
Proof.
  intro H.
  destruct (H id_order true Conjunction or_AB (Comp Conjunction (terms_set [A; B])))
    as (l & E & Hin).
  - apply id_order_ok.
  - constructor.
  - apply or_AB_tidy.
  - intros l E; discriminate E.
  - vm_compute. reflexivity.
  - injection E as <-. apply terms_set_in in Hin. destruct Hin as [Hin|[Hin|[]]]; discriminate Hin.
Qed.

Lemma repeated_term_kept ord b con t n : any_order ord -> set_like con ->
  var_free t -> ~ set_compound t ->
  compound ord b con (t :: repeat t n) = Ok (Comp con [t]).
Proof.
  intros Ho Hs V Hn.
  assert (Hall : forall x, In x (t :: repeat t n) -> x = t).
  { intros x [<-|Hx]; [reflexivity | apply repeat_spec in Hx; exact Hx]. }
  destruct (exact_components ord b con (t :: repeat t n) (t :: repeat t n) Ho Hs)
    as (r & -> & S & E).
  - apply Forall_forall. intros x Hx. rewrite (Hall x Hx). apply tidy_other. exact Hn.
  - generalize (t :: repeat t n) Hall. induction l as [|x l IH]; intro Ha; constructor.
    + intros l' E. apply Hn. exists con, l'. split; [| exact Hs].
      rewrite <- E. symmetry. apply Ha. left; reflexivity.
    + apply IH. intros y Hy. apply Ha. right; exact Hy.
  - split.
    + intros x [Hx|Hx]; rewrite (Hall x Hx); exact V.
    + intros x y [Hx|Hx] [Hy|Hy] _; rewrite (Hall x Hx), (Hall y Hy); reflexivity.
  - split.
    + right. exists t. split; [left; reflexivity|]. split; [exact Hall | exact Hn].
    + intros _ s a b' Hss Ha. exfalso. apply Hn. rewrite <- (Hall _ Ha). exists s, a.
      split; [reflexivity|]. destruct Hss as [->| ->]; constructor.
  - assert (N : r = [t]); [| rewrite N; reflexivity].
    apply sorted_unique; [exact S | repeat constructor|].
    intro x. rewrite E. split.
    + intro Hx. left. symmetry. apply Hall. exact Hx.
    + intros [<-|[]]. left; reflexivity.
Qed.

(* ---- instances of hypotheses ---- *)
Lemma C_tidy : tidy C.
Proof. apply tidy_other. intros (c & l & E & _); discriminate E. Qed.

Lemma C10_instance :
  Forall tidy [C; or_AB] /\ unfolds Conjunction [C; or_AB] [C; or_AB] /\
  collision_free (fun t => In t [C; or_AB] \/ In t [C; or_AB]) /\ enough Conjunction [C; or_AB] /\
  Forall tidy [C; or_AB] /\ unfolds Disjunction [C; or_AB] (C :: terms_set [A; B] ++ []) /\
  enough Disjunction (C :: terms_set [A; B] ++ []).
Proof.
  assert (T : Forall tidy [C; or_AB]) by (constructor; [apply C_tidy | constructor; [apply or_AB_tidy | constructor]]).
  split; [exact T|].
  split; [repeat constructor; intros l' E; discriminate E|].
  split; [apply collision_free_sub with (U := fun t => In t [C; or_AB]);
          [simpl; tauto | apply cf_list; vm_compute; reflexivity]|].
  split. { split; [left; exists C, or_AB; split; [simpl; tauto | split; [simpl; tauto | discriminate]]
                  | intros [E|E]; discriminate E]. }
  split; [exact T|]. split.
  - apply unf_other; [intros l' E; discriminate E|]. unfold or_AB. apply unf_same. constructor.
  - split; [| intros [E|E]; discriminate E]. left. exists C, A.
    split; [left; reflexivity|]. split; [| discriminate]. vm_compute. tauto.
Qed.

Lemma C12_instance :
  unfolds SequentialEvents [A; Comp SequentialEvents [B; B]; C] [A; B; B; C] /\
  Forall (built id_order) [A; Comp SequentialEvents [B; B]; C].
Proof.
  split.
  - apply unf_other; [intros l' E; discriminate E|].
    apply (unf_same SequentialEvents [B; B] [C] [C]).
    apply unf_other; [intros l' E; discriminate E | constructor].
  - repeat constructor. eapply blt_comp with (b := true) (con := SequentialEvents) (args := [B; B]);
      [repeat constructor | vm_compute; reflexivity].
Qed.

Lemma C74_instance : any_order rev_order /\
  collision_free (gathers id_order Conjunction (mk_terms (is_commutative Conjunction) [C; or_AB])) /\
  compound rev_order true Conjunction [C; or_AB] = Ok (Comp Conjunction (terms_set [C; or_AB])).
Proof.
  split; [apply rev_order_ok|]. split; [| vm_compute; reflexivity].
  apply collision_free_sub with (U := fun t => In t [A; B; C; or_AB]).
  2: { apply cf_list; vm_compute; reflexivity. }
  assert (Q : forall n, norm_all Conjunction
     (id_order (categories (flatten_set Conjunction (mk_terms (is_commutative Conjunction) [C; or_AB])))) = Ok n ->
     forall k ts, In (k, ts) n -> (k = None /\ ts = [C]) \/ (k = Some Disjunction /\ ts = terms_set [A; B])).
  { intros n E. vm_compute in E. injection E as <-. intros k ts H.
    repeat (destruct H as [H|H]; [injection H as <- <-; vm_compute; tauto|]). destruct H. }
  assert (Q2 : forall n, norm_all Disjunction
     (id_order (categories (flatten_set Disjunction (terms_set [A; B])))) = Ok n ->
     forall k ts, In (k, ts) n -> k = None /\ (ts = [A] \/ ts = [B])).
  { intros n E. vm_compute in E. injection E as <-. intros k ts H.
    repeat (destruct H as [H|H]; [injection H as <- <-; vm_compute; tauto|]). destruct H. }
  assert (G2 : forall con ts u, gathers id_order con ts u ->
            con = Disjunction -> ts = terms_set [A; B] -> In u [A; B]).
  { intros con ts u H -> ->.
    inversion H as [? ? norm k ts' ? _ En Hin Hu|? ? norm c ts' ? _ En Hin Hu|? ? norm c ts' ? _ En Hin Hu];
      destruct (Q2 norm En _ _ Hin) as [Ek Et]; try discriminate Ek.
    destruct Et as [Et|Et]; rewrite Et in Hu; clear - Hu; simpl in *; tauto. }
  assert (G1 : forall con ts u, gathers id_order con ts u -> con = Conjunction ->
            ts = mk_terms (is_commutative Conjunction) [C; or_AB] -> In u [A; B; C; or_AB]).
  2: { intros u H. eapply G1; [exact H | reflexivity | reflexivity]. }
  intros con ts u H Ec Ets.
  destruct H as [con ts norm k ts' u _ En Hin Hu|con ts norm c ts' u _ En Hin Hu|con ts norm c ts' u _ En Hin Hu];
    rewrite Ec, Ets in En;
    destruct (Q norm En _ _ Hin) as [[Ek Et]|[Ek Et]]; try discriminate Ek; rewrite Et in Hu.
  - clear - Hu; simpl in *; tauto.
  - apply terms_set_in in Hu. clear - Hu; simpl in *; tauto.
  - assert (Ek' : c = Disjunction) by congruence. rewrite Ek' in Hu.
    assert (E : compound_of_terms id_order false Disjunction (terms_set [A; B]) = Ok or_AB)
      by (vm_compute; reflexivity).
    assert (Eu : u = or_AB) by congruence. rewrite Eu. right; right; right; left; reflexivity.
  - assert (Ek' : c = Disjunction) by congruence. apply (G2 c _ u) in Hu; [clear - Hu; simpl in *; tauto | exact Ek' | reflexivity].
Qed.

Lemma difference_kept : forall ord b par args,
  par = ExtensionalDifference \/ par = IntensionalDifference ->
  compound ord b par args = Ok (Comp par args).
Proof. intros ord b par args [E|E]; subst par; apply plain_build; constructor. Qed.
