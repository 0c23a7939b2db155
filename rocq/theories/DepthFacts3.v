(* How deep the terms are that actions make. *)
From Coq Require Import ZArith String Ascii List Bool Lia Permutation.
From Verif Require Import Base Enums Term Terms TermsFacts Compound CompoundFacts.
From Verif Require Import Maps MapsFacts Actions DepthSpec DepthFacts2.
From Verif Require Interning Evidence Parser ActionsFacts ActionsSpec DepthFacts.
Import ListNotations.
Open Scope string_scope.
Open Scope list_scope.

Lemma bind_ok {A B} (x : res A) (f : A -> res B) b : bind x f = Ok b -> exists a, x = Ok a /\ f a = Ok b.
Proof. destruct x; cbn [bind]; intros H; try discriminate H. eauto. Qed.

Definition vdepth (v : value) : nat := match term_in v with Some t => depth t | None => O end.

(* What an action adds to the depth of the terms it is given *)
Definition adds (name : string) : nat :=
  if existsb (String.eqb name) ["statement"; "statement_operation1"; "statement_operation2"] then 2
  else if existsb (String.eqb name)
    ["set"; "negation"; "int_image"; "ext_image"; "multi_prefix_product"; "multi_prefix"; "single_prefix";
     "single_infix"; "multi_prod_expr"; "multi_disj_expr"; "multi_conj_expr"; "multi_sequential_expr";
     "multi_parallel_expr"; "multi_intint_expr"; "multi_extint_expr"] then 1
  else 0.

(* Arguments with terms of at most that depth *)
Definition given_shallow (k : nat) (a : arguments) : Prop :=
  forall l, a = Some l -> Forall (fun v => vdepth v <= k) l.

Definition deepens (n : nat) (f : method) : Prop := forall st a st' v k,
  given_shallow k a -> f st a = Ok (st', v) -> vdepth v <= n + k.

Lemma all_args_shallow k a l : given_shallow k a -> all_args a = Ok l -> Forall (fun v => vdepth v <= k) l.
Proof. intros G H. destruct a; [|discriminate H]. injection H as <-. apply G. reflexivity. Qed.

Lemma arg_shallow k l i v : Forall (fun v => vdepth v <= k) l -> arg l i = Ok v -> vdepth v <= k.
Proof.
  intros F H. unfold arg in H. destruct (nth_error l i) as [w|] eqn:E; [|discriminate H].
  injection H as <-. rewrite Forall_forall in F. apply F. eapply nth_error_In; eassumption.
Qed.

Lemma term_shallow k l i t : Forall (fun v => vdepth v <= k) l -> bind (arg l i) as_term = Ok t -> depth t <= k.
Proof.
  intros F H. apply bind_ok in H as (v & E & H). destruct v; try discriminate H. injection H as <-.
  exact (arg_shallow k l i _ F E).
Qed.

Lemma terms_shallow k l : Forall (fun v => vdepth v <= k) l -> forall ts, terms_of l = Ok ts -> Forall (shallow k) ts.
Proof.
  induction 1 as [|v l Hv F IH]; cbn [terms_of]; intros ts E; [injection E as <-; constructor|].
  apply bind_ok in E as (t & E1 & E). apply bind_ok in E as (us & E2 & E). injection E as <-.
  destruct v; try discriminate E1. injection E1 as <-. constructor; [exact Hv|exact (IH us E2)].
Qed.

Lemma forall_skipn {A} (P : A -> Prop) n l : Forall P l -> Forall P (skipn n l).
Proof.
  intros F. rewrite <- (firstn_skipn n l) in F. apply Forall_app in F as [_ F]. exact F.
Qed.

Section Methods.
Variable ord : cmap -> cmap.
Variable fresh : Interning.world -> Z.
Hypothesis Hord : any_order ord.

Lemma zero_deepens n f : (forall st a st' v, f st a = Ok (st', v) -> term_in v = None) -> deepens n f.
Proof. intros Z st a st' v k _ H. unfold vdepth. rewrite (Z _ _ _ _ H). lia. Qed.

Lemma flat_deepens n f : (forall st a st' v, f st a = Ok (st', v) -> vdepth v = O) -> deepens n f.
Proof. intros Z st a st' v k _ H. rewrite (Z _ _ _ _ H). lia. Qed.

Lemma pass_deepens : deepens 0 pass.
Proof.
  intros st a st' v k G H. apply bind_ok in H as (l & L & H). apply bind_ok in H as (w & W & H).
  injection H as _ <-. exact (arg_shallow k l 0 w (all_args_shallow _ _ _ G L) W).
Qed.

Lemma pass_term_deepens : deepens 0 pass_term.
Proof.
  intros st a st' v k G H. apply bind_ok in H as (l & L & H). apply bind_ok in H as (t & W & H).
  injection H as _ <-. exact (term_shallow k l 0 t (all_args_shallow _ _ _ G L) W).
Qed.

Lemma task_deepens : deepens 0 make_task.
Proof.
  intros st a st' v k G H. apply bind_ok in H as (l & L & H). cbv zeta in H.
  apply bind_ok in H as (b & _ & H). apply bind_ok in H as (s & S1 & H). apply bind_ok in H as (b' & _ & H).
  injection H as _ <-. apply bind_ok in S1 as (w & W & S1). destruct w; try discriminate S1. injection S1 as <-.
  exact (arg_shallow k l _ _ (all_args_shallow _ _ _ G L) W).
Qed.

Lemma belief_deepens p c : deepens 0 (make_belief p c).
Proof.
  intros st a st' v k G H. apply bind_ok in H as (l & L & H). apply bind_ok in H as (t & T & H).
  apply bind_ok in H as ([[m tr] s] & _ & H). destruct (finish_stamp m s). injection H as _ <-.
  exact (term_shallow k l 0 t (all_args_shallow _ _ _ G L) T).
Qed.

Lemma query_deepens p : deepens 0 (make_query p).
Proof.
  intros st a st' v k G H. apply bind_ok in H as (l & L & H). apply bind_ok in H as (t & T & H).
  apply bind_ok in H as ([[m tr] s] & _ & H). destruct (finish_stamp m s). injection H as _ <-.
  exact (term_shallow k l 0 t (all_args_shallow _ _ _ G L) T).
Qed.

Lemma statement_deepens : deepens 2 (make_statement ord).
Proof.
  intros st a st' v k G H. apply bind_ok in H as (l & L & H). apply bind_ok in H as (s & S1 & H).
  apply bind_ok in H as (c & _ & H). apply bind_ok in H as (p & P1 & H).
  pose proof (all_args_shallow _ _ _ G L) as F.
  pose proof (term_shallow k l _ s F S1) as Ds. pose proof (term_shallow k l _ p F P1) as Dp.
  assert (C : forall b con x y, depth x <= k -> compound ord b con [x] = Ok y -> depth y <= S k).
  { intros b con x y D. apply (compound_depth ord Hord). constructor; [exact D|constructor]. }
  destruct c; try (injection H as _ <-; unfold vdepth; cbn [term_in depth]; lia).
  - apply bind_ok in H as (x & X & H). apply C in X; [|exact Ds].
    injection H as _ <-. unfold vdepth. cbn [term_in depth]. lia.
  - apply bind_ok in H as (x & X & H). apply C in X; [|exact Dp].
    injection H as _ <-. unfold vdepth. cbn [term_in depth]. lia.
  - apply bind_ok in H as (x & X & H). apply C in X; [|exact Ds].
    apply bind_ok in H as (y & Y & H). apply C in Y; [|exact Dp].
    injection H as _ <-. unfold vdepth. cbn [term_in depth]. lia.
Qed.

Lemma operation1_deepens st l st' v k : Forall (fun v => vdepth v <= k) l ->
  operation1 ord st l = Ok (st', v) -> vdepth v <= 2 + k.
Proof.
  intros F H. apply bind_ok in H as (ts & T & H). apply bind_ok in H as (op & O1 & H).
  apply bind_ok in H as (s & C & H). injection H as _ <-.
  apply (compound_depth ord Hord _ _ _ _ k) in C; [|exact (terms_shallow _ _ (forall_skipn _ 1 _ F) _ T)].
  pose proof (term_shallow k l _ op F O1). unfold vdepth. cbn [term_in depth]. lia.
Qed.

Lemma operation_flat st a st' v : make_operation fresh st a = Ok (st', v) -> vdepth v = O.
Proof.
  intros H. apply bind_ok in H as (l & L & H). apply bind_ok in H as (s & _ & H). cbv zeta in H.
  apply bind_ok in H as (w & _ & H). apply bind_ok in H as (x & _ & H). injection H as _ <-. reflexivity.
Qed.

Lemma atom_flat st a st' v : make_atom fresh st a = Ok (st', v) -> vdepth v = O.
Proof.
  intros H. apply bind_ok in H as (l & L & H). apply bind_ok in H as (s & _ & H). cbv zeta in H.
  apply bind_ok in H as (w & _ & H). apply bind_ok in H as (x & _ & H). injection H as _ <-. reflexivity.
Qed.

Lemma op1_deepens : deepens 2 (make_operation1 ord).
Proof.
  intros st a st' v k G H. apply bind_ok in H as (l & L & H).
  exact (operation1_deepens _ _ _ _ _ (all_args_shallow _ _ _ G L) H).
Qed.

Lemma op2_deepens : deepens 2 (make_operation2 ord fresh).
Proof.
  intros st a st' v k G H. apply bind_ok in H as (l & L & H). apply bind_ok in H as (w & _ & H).
  apply bind_ok in H as ([st1 op] & O1 & H). apply (operation1_deepens _ _ _ _ k) in H; [exact H|].
  constructor; [rewrite (operation_flat _ _ _ _ O1); lia|].
  apply forall_skipn. exact (all_args_shallow _ _ _ G L).
Qed.

Lemma prefix_deepens st l st' v k : Forall (fun v => vdepth v <= k) l ->
  prefix ord st l = Ok (st', v) -> vdepth v <= 1 + k.
Proof.
  intros F H. apply bind_ok in H as (c & _ & H). apply bind_ok in H as (ts & T & H).
  apply bind_ok in H as (t & C & H). injection H as _ <-.
  exact (compound_depth ord Hord _ _ _ _ k (terms_shallow _ _ (forall_skipn _ 1 _ F) _ T) C).
Qed.

Lemma make_prefix_deepens : deepens 1 (make_prefix ord).
Proof.
  intros st a st' v k G H. apply bind_ok in H as (l & L & H).
  exact (prefix_deepens _ _ _ _ _ (all_args_shallow _ _ _ G L) H).
Qed.

Lemma infix_deepens c : deepens 1 (make_infix ord c).
Proof.
  intros st a st' v k G H. apply bind_ok in H as (l & L & H).
  refine (prefix_deepens _ _ _ _ _ _ H). constructor; [cbn; lia|exact (all_args_shallow _ _ _ G L)].
Qed.

Lemma negation_deepens : deepens 1 (make_negation ord).
Proof.
  intros st a st' v k G H. apply bind_ok in H as (l & L & H). apply bind_ok in H as (c & _ & H).
  apply bind_ok in H as (t & T & H). apply bind_ok in H as (u & C & H). injection H as _ <-.
  refine (compound_depth ord Hord _ _ _ _ k _ C). constructor; [|constructor].
  exact (term_shallow k l _ t (all_args_shallow _ _ _ G L) T).
Qed.

Lemma single_deepens x y : deepens 1 (make_single ord x y).
Proof.
  intros st a st' v k G H. apply bind_ok in H as (l & L & H). apply bind_ok in H as (c & _ & H).
  apply bind_ok in H as (t & T & H). apply bind_ok in H as (t2 & T2 & H).
  apply bind_ok in H as (u & C & H). injection H as _ <-.
  pose proof (all_args_shallow _ _ _ G L) as F.
  refine (compound_depth ord Hord _ _ _ _ k _ C). constructor; [|constructor; [|constructor]].
  - exact (term_shallow k l _ t F T).
  - exact (term_shallow k l _ t2 F T2).
Qed.

Lemma constant_deepens w : term_in w = None -> deepens 0 (constant w).
Proof. intros W. apply zero_deepens. intros st a st' v H. injection H as _ <-. exact W. Qed.

Lemma interval_deepens : deepens 0 make_interval.
Proof.
  apply flat_deepens. intros st a st' v H. apply bind_ok in H as (l & L & H). apply bind_ok in H as (x & _ & H).
  apply bind_ok in H as (n & _ & H). injection H as _ <-. reflexivity.
Qed.

Lemma time_deepens : deepens 0 make_time.
Proof.
  apply flat_deepens. intros st a st' v H. apply bind_ok in H as (l & L & H). apply bind_ok in H as (x & _ & H).
  apply bind_ok in H as (n & _ & H). injection H as _ <-. reflexivity.
Qed.

Lemma number_deepens : deepens 0 make_number.
Proof.
  apply flat_deepens. intros st a st' v H. apply bind_ok in H as (l & L & H). apply bind_ok in H as (x & _ & H).
  apply bind_ok in H as (n & _ & H). injection H as _ <-. reflexivity.
Qed.

Lemma string_deepens : deepens 0 make_string.
Proof.
  apply flat_deepens. intros st a st' v H. apply bind_ok in H as (l & L & H). apply bind_ok in H as (x & _ & H).
  injection H as _ <-. reflexivity.
Qed.

Lemma truth_deepens : deepens 0 make_truth.
Proof.
  apply flat_deepens. intros st a st' v H. apply bind_ok in H as (l & L & H). cbv zeta in H.
  apply bind_ok in H as (x & _ & H). apply bind_ok in H as (y & _ & H). apply bind_ok in H as (z & _ & H).
  injection H as _ <-. reflexivity.
Qed.

Lemma budget_deepens : deepens 0 make_budget.
Proof.
  apply flat_deepens. intros st a st' v H. apply bind_ok in H as (l & L & H). cbv zeta in H.
  apply bind_ok in H as (x & _ & H). apply bind_ok in H as (y & _ & H). apply bind_ok in H as (z & _ & H).
  injection H as _ <-. reflexivity.
Qed.

Lemma variable_deepens kd : deepens 0 (make_variable kd).
Proof.
  apply flat_deepens. intros st a st' v H. apply bind_ok in H as (l & L & H). apply bind_ok in H as (s & _ & H).
  cbv zeta in H. destruct kd; destruct (number_of _ _); injection H as _ <-; reflexivity.
Qed.

Lemma atom_deepens : deepens 0 (make_atom fresh).
Proof. apply flat_deepens. apply atom_flat. Qed.

Lemma operation_deepens : deepens 0 (make_operation fresh).
Proof. apply flat_deepens. apply operation_flat. Qed.

Lemma methods_deepen : Forall (fun x => deepens (adds (fst x)) (snd x)) (methods ord fresh).
Proof.
  unfold methods.
  repeat (apply Forall_cons;
    [cbn [fst snd];
     match goal with |- deepens ?n _ => let m := eval vm_compute in n in change n with m end;
     first [ exact task_deepens | apply belief_deepens | apply query_deepens | exact statement_deepens
           | exact op1_deepens | exact op2_deepens | apply constant_deepens; reflexivity
           | exact pass_deepens | exact pass_term_deepens | exact atom_deepens | exact operation_deepens
           | exact interval_deepens | exact make_prefix_deepens | exact negation_deepens
           | apply infix_deepens | apply single_deepens | apply variable_deepens | exact time_deepens
           | exact truth_deepens | exact budget_deepens | exact string_deepens | exact number_deepens ]|]).
  constructor.
Qed.

Lemma call_deepens name : deepens (adds name) (call ord fresh name).
Proof.
  intros st a st' v k G H. unfold call in H.
  destruct (lookup String.eqb name (methods ord fresh)) as [f|] eqn:E.
  - apply (lookup_in String.eqb String.eqb_eq) in E. pose proof methods_deepen as M.
    rewrite Forall_forall in M. exact (M _ E st a st' v k G H).
  - injection H as _ <-. cbn. lia.
Qed.

Lemma methods_leaf : Forall (fun x => adds (fst x) = O \/ forall st tok, snd x st (Some [VText tok]) = UB)
  (methods ord fresh).
Proof.
  unfold methods.
  repeat (apply Forall_cons; [cbn [fst snd]; first [left; vm_compute; reflexivity|right; intros; reflexivity]|]).
  constructor.
Qed.

Lemma ast_induct (P : Parser.ast -> Prop) : (forall e tok, P (Parser.Leaf e tok)) ->
  (forall e l, Forall P l -> P (Parser.Node e l)) -> forall n, P n.
Proof.
  intros H1 H2. fix IH 1. intros [e tok|e l]; [apply H1|]. apply H2.
  induction l as [|a l IHl]; constructor; [apply IH|exact IHl].
Qed.

(* ---- whole trees ---- *)
Definition weight_of (n : Parser.ast) : nat := DepthFacts.weigh adds n.

Lemma transform_depth : forall n st st' v,
  transform ord fresh st n = Ok (st', v) -> vdepth v <= weight_of n.
Proof.
  apply (ast_induct (fun n => forall st st' v, transform ord fresh st n = Ok (st', v) -> vdepth v <= weight_of n));
    [intros e tok st st' v H|intros e kids IH st st' v H].
  - cbn [transform] in H. pose proof (call_deepens e st (Some [VText tok]) st' v 0) as D.
    unfold weight_of. cbn [DepthFacts.weigh]. unfold call in H, D.
    destruct (lookup String.eqb e (methods ord fresh)) as [f|] eqn:E; [|injection H as _ <-; cbn; lia].
    apply (lookup_in String.eqb String.eqb_eq) in E. pose proof methods_leaf as M.
    rewrite Forall_forall in M. destruct (M _ E) as [Z|U]; cbn [fst snd] in *.
    + rewrite Z in D. apply D; [|exact H]. intros l Q. injection Q as <-. repeat constructor.
    + rewrite U in H. discriminate H.
  - rewrite ActionsFacts.transform_node in H. apply bind_ok in H as ([st1 vs] & T & H).
    assert (F : Forall (fun v => vdepth v <= list_max (map weight_of kids)) vs).
    { assert (G : forall l st st' vs, transform_all ord fresh st l = Ok (st', vs) ->
        (forall n, In n l -> forall st st' v, transform ord fresh st n = Ok (st', v) -> vdepth v <= weight_of n) ->
        Forall (fun v => vdepth v <= list_max (map weight_of l)) vs).
      { clear. induction l as [|n l IHl]; intros st st' vs T Q; cbn [transform_all] in T.
        - injection T as _ <-. constructor.
        - apply bind_ok in T as ([st1 v] & N & T). apply bind_ok in T as ([st2 us] & T1 & T).
          injection T as _ <-. cbn [map list_max fold_right]. fold (list_max (map weight_of l)).
          constructor; [pose proof (Q n (or_introl eq_refl) _ _ _ N); lia|].
          eapply Forall_impl; [|exact (IHl _ _ _ T1 (fun m I => Q m (or_intror I)))].
          cbv beta. intros; lia. }
      apply (G kids _ _ _ T). rewrite Forall_forall in IH. exact IH. }
    unfold weight_of. cbn [DepthFacts.weigh]. refine (call_deepens e _ _ _ _ _ _ H).
    intros l Q. destruct kids; [discriminate Q|]. injection Q as <-. exact F.
Qed.

Lemma transform_all_depth : forall l st st' vs, transform_all ord fresh st l = Ok (st', vs) ->
  Forall (fun v => vdepth v <= list_max (map weight_of l)) vs.
Proof.
  induction l as [|n l IHl]; intros st st' vs T; cbn [transform_all] in T.
  - injection T as _ <-. constructor.
  - apply bind_ok in T as ([st1 v] & N & T). apply bind_ok in T as ([st2 us] & T1 & T).
    injection T as _ <-. cbn [map list_max fold_right]. fold (list_max (map weight_of l)).
    constructor; [pose proof (transform_depth n _ _ _ N); lia|].
    eapply Forall_impl; [|exact (IHl _ _ _ T1)]. cbv beta. intros; lia.
Qed.

(* ---- readings ---- *)

Lemma depths_fit : DepthFacts.table_fits adds DepthCert.depth_table = true.
Proof. vm_compute. reflexivity. Qed.

Lemma trees_light n left input trees rest : 9 <= n ->
  Parser.parse (Some n) left input = Ok (Parser.Accepted trees, rest) ->
  list_max (map weight_of trees) + 13 <= 2 * n.
Proof.
  intros N E.
  pose proof (DepthFacts.weigh_bounded adds _ n left input trees rest depths_fit ltac:(lia) E) as B.
  change (map (DepthFacts.weigh adds) trees) with (map weight_of trees) in B.
  rewrite DepthFacts.limit_far in B by lia. change (DepthFacts.limit DepthCert.depth_table 59 8) with 5%Z in B.
  change (DepthFacts.slope DepthCert.depth_table 59) with 2%Z in B. lia.
Qed.

Lemma pending_light n st : 9 <= n -> after_reading ord fresh (Some n) st ->
  list_max (map weight_of (pending st)) + 13 <= 2 * n.
Proof.
  intros N. induction 1 as [st P|st left input st' left' v thrown A IH E].
  - rewrite P. cbn. lia.
  - apply bind_ok in E as ([o left1] & P & E). apply bind_ok in E as ([[st1 v1] b1] & F & E).
    injection E as <- _ _ _. unfold finish in F. cbv zeta in F.
    set (tree := match o with Parser.Accepted l => l | Parser.Rejected => pending (with_vars st [] [] []) end) in *.
    assert (T : list_max (map weight_of tree) + 13 <= 2 * n).
    { unfold tree. destruct o; [exact (trees_light n _ _ _ _ N P)|exact IH]. }
    clearbody tree. destruct tree as [|a tree].
    + injection F as <- _ _. exact IH.
    + destruct (transform_all ord fresh (with_vars st [] [] []) (a :: tree)) as [[st2 [|w vs]]| | |];
        try discriminate F; injection F as <- _ _; [cbn [pending with_pending map list_max fold_right]; lia|exact T].
Qed.

Lemma reaches_depth t k : reaches_down t k -> k <= depth t.
Proof.
  induction 1 as [t|c s p k _ IH|c s p k _ IH|c l x k I _ IH]; cbn [depth]; try lia.
  pose proof (depth_component c l x I) as D. cbn [depth] in D. lia.
Qed.

Lemma read_depth n st left input st' left' v thrown t k : 9 <= n -> after_reading ord fresh (Some n) st ->
  parse_task ord fresh (Some n) st left input = Ok (st', left', Some v, thrown) ->
  term_in v = Some t -> reaches_down t k -> k + 13 <= 2 * n.
Proof.
  intros N A E TI RD. pose proof (pending_light n st N A) as PL. apply reaches_depth in RD.
  apply bind_ok in E as ([o left1] & P & E). apply bind_ok in E as ([[st1 v1] b1] & F & E).
  injection E as _ _ -> _. unfold finish in F. cbv zeta in F.
  set (tree := match o with Parser.Accepted l => l | Parser.Rejected => pending (with_vars st [] [] []) end) in *.
  assert (T : list_max (map weight_of tree) + 13 <= 2 * n).
  { unfold tree. destruct o; [exact (trees_light n _ _ _ _ N P)|exact PL]. }
  clearbody tree. destruct tree as [|a tree]; [discriminate F|].
  destruct (transform_all ord fresh (with_vars st [] [] []) (a :: tree)) as [[st2 [|w vs]]| | |] eqn:TA;
    try discriminate F. injection F as _ -> _.
  pose proof (transform_all_depth _ _ _ _ TA) as D. inversion D as [|? ? D1 _]; subst.
  unfold vdepth in D1. rewrite TI in D1. lia.
Qed.
End Methods.
