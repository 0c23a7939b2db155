(* Numbering of variables. *)
From Coq Require Import ZArith String Ascii List Bool Lia.
From Verif Require Import Base Enums Term Compound Maps MapsFacts Float Truth Numeral NumeralSpec.
From Verif Require Import Parser Grammar Actions ActionsSpec AstFacts ActionsFacts ActionsFacts2 ActionsFacts3.
From Verif Require Interning Evidence.
Import ListNotations.
Open Scope string_scope.
Open Scope Z_scope.
Open Scope list_scope.

(* ---- which actions touch the tables ---- *)

Definition same_names (st st' : state) : Prop := forall k, table k st' = table k st.

Section Names.
Variable ord : list (option connector * list term) -> list (option connector * list term).
Variable fresh : Interning.world -> Z.
Notation transform := (transform ord fresh).
Notation transform_all := (transform_all ord fresh).

Definition quiet (f : method) : Prop := forall st a st' v, f st a = Ok (st', v) -> same_names st st'.

Ltac step_bind H :=
  repeat match type of H with
         | bind ?x _ = _ => destruct x; cbn [bind] in H; [|discriminate H|discriminate H|discriminate H]
         end.

Ltac calm H := step_bind H; destruct (ok_pair _ _ _ _ H) as [<- <-]; intros ?k; destruct k; reflexivity.

Lemma quiet_prefix st l st' v : prefix ord st l = Ok (st', v) -> same_names st st'.
Proof. unfold prefix. intros H. calm H. Qed.
Lemma quiet_operation1 st l st' v : operation1 ord st l = Ok (st', v) -> same_names st st'.
Proof. unfold operation1. intros H. calm H. Qed.

Lemma quiet_task : quiet make_task.
Proof. intros st a st' v H. unfold make_task in H. calm H. Qed.
Lemma quiet_belief p c : quiet (make_belief p c).
Proof.
  intros st a st' v H. unfold make_belief in H. step_bind H.
  destruct a2 as [[m tr] s]. destruct (finish_stamp m s). calm H.
Qed.
Lemma quiet_query p : quiet (make_query p).
Proof.
  intros st a st' v H. unfold make_query in H. step_bind H.
  destruct a2 as [[m tr] s]. destruct (finish_stamp m s). calm H.
Qed.
Lemma quiet_statement : quiet (make_statement ord).
Proof. intros st a st' v H. unfold make_statement in H. step_bind H. destruct a2; calm H. Qed.
Lemma quiet_make_operation1 : quiet (make_operation1 ord).
Proof. intros st a st' v H. unfold make_operation1 in H. destruct a; cbn [all_args bind] in H; [|discriminate H]. exact (quiet_operation1 _ _ _ _ H). Qed.
Lemma quiet_operation : quiet (make_operation fresh).
Proof. intros st a st' v H. unfold make_operation in H. calm H. Qed.
Lemma quiet_operation2 : quiet (make_operation2 ord fresh).
Proof.
  intros st a st' v H. unfold make_operation2 in H. destruct a as [l|]; cbn [all_args bind] in H; [|discriminate H].
  destruct (arg l 0) as [w| | |]; cbn [bind] in H; try discriminate H.
  destruct (make_operation fresh st (Some [w])) as [[st1 op]| | |] eqn:M; cbn [bind] in H; try discriminate H.
  pose proof (quiet_operation _ _ _ _ M) as A. pose proof (quiet_operation1 _ _ _ _ H) as B.
  intros k. rewrite (B k). apply A.
Qed.
Lemma quiet_constant w : quiet (constant w).
Proof. intros st a st' v H. unfold constant in H. calm H. Qed.
Lemma quiet_pass_term : quiet pass_term.
Proof. intros st a st' v H. unfold pass_term in H. calm H. Qed.
Lemma quiet_pass : quiet pass.
Proof. intros st a st' v H. unfold pass in H. calm H. Qed.
Lemma quiet_atom : quiet (make_atom fresh).
Proof. intros st a st' v H. unfold make_atom in H. calm H. Qed.
Lemma quiet_interval : quiet make_interval.
Proof. intros st a st' v H. unfold make_interval in H. calm H. Qed.
Lemma quiet_make_prefix : quiet (make_prefix ord).
Proof. intros st a st' v H. unfold make_prefix in H. destruct a; cbn [all_args bind] in H; [|discriminate H]. exact (quiet_prefix _ _ _ _ H). Qed.
Lemma quiet_negation : quiet (make_negation ord).
Proof. intros st a st' v H. unfold make_negation in H. calm H. Qed.
Lemma quiet_infix c : quiet (make_infix ord c).
Proof. intros st a st' v H. unfold make_infix in H. destruct a; cbn [all_args bind] in H; [|discriminate H]. exact (quiet_prefix _ _ _ _ H). Qed.
Lemma quiet_single i j : quiet (make_single ord i j).
Proof. intros st a st' v H. unfold make_single in H. calm H. Qed.
Lemma quiet_time : quiet make_time.
Proof. intros st a st' v H. unfold make_time in H. calm H. Qed.
Lemma quiet_truth : quiet make_truth.
Proof. intros st a st' v H. unfold make_truth in H. calm H. Qed.
Lemma quiet_budget : quiet make_budget.
Proof. intros st a st' v H. unfold make_budget in H. calm H. Qed.
Lemma quiet_string : quiet make_string.
Proof. intros st a st' v H. unfold make_string in H. calm H. Qed.
Lemma quiet_number : quiet make_number.
Proof. intros st a st' v H. unfold make_number in H. calm H. Qed.

Definition unnamed (e : string) : Prop := forall k, e <> variable_name k.

Lemma all_quiet : Forall (fun nf => unnamed (fst nf) -> quiet (snd nf)) (methods ord fresh).
Proof.
  unfold methods.
  repeat (apply Forall_cons; [
    intros N; cbn [fst snd] in *;
    first
      [ apply quiet_task | apply quiet_belief | apply quiet_query | apply quiet_statement | apply quiet_make_operation1
      | apply quiet_operation2 | apply quiet_constant | apply quiet_pass_term | apply quiet_atom
      | apply quiet_operation | apply quiet_interval | apply quiet_make_prefix | apply quiet_negation
      | apply quiet_pass
      | apply quiet_infix | apply quiet_single | apply quiet_time | apply quiet_truth
      | apply quiet_budget | apply quiet_string | apply quiet_number
      | exfalso; apply (N Independent); reflexivity
      | exfalso; apply (N Dependent); reflexivity
      | exfalso; apply (N Query); reflexivity ]|]).
  constructor.
Qed.

Lemma call_quiet e st a st' v : unnamed e -> call ord fresh e st a = Ok (st', v) -> same_names st st'.
Proof.
  intros N C. unfold call in C. destruct (lookup String.eqb e (methods ord fresh)) as [f|] eqn:L.
  - apply ActionsFacts.lookup_in in L. pose proof all_quiet as Q. rewrite Forall_forall in Q.
    exact (Q _ L N _ _ _ _ C).
  - destruct (ok_pair _ _ _ _ C) as [<- <-]. intros k. reflexivity.
Qed.

(* ---- the tables ---- *)

Fixpoint index (s : string) (l : list string) : option nat :=
  match l with
  | [] => None
  | t :: l' => if String.eqb s t then Some O else option_map S (index s l')
  end.

Lemma index_nth s l i : index s l = Some i -> nth_error l i = Some s.
Proof.
  revert i. induction l as [|t l IH]; intros i H; cbn [index] in H; [discriminate H|].
  destruct (String.eqb_spec s t) as [->|N]; [injection H as <-; reflexivity|].
  destruct (index s l) as [j|]; [|discriminate H]. injection H as <-. exact (IH _ eq_refl).
Qed.

Lemma index_app s l r : index s (l ++ r) =
  match index s l with Some i => Some i | None => option_map (fun i => length l + i)%nat (index s r) end.
Proof.
  induction l as [|t l IH]; cbn [app index length].
  - destruct (index s r); reflexivity.
  - destruct (String.eqb s t); [reflexivity|]. rewrite IH. destruct (index s l); [reflexivity|].
    destruct (index s r); reflexivity.
Qed.

Lemma index_existsb s l : existsb (String.eqb s) l = match index s l with Some _ => true | None => false end.
Proof.
  induction l as [|t l IH]; cbn [existsb index]; [reflexivity|].
  destruct (String.eqb s t); [reflexivity|]. cbn [orb]. rewrite IH. destruct (index s l); reflexivity.
Qed.

Definition extend (l : list string) (s : string) : list string :=
  if existsb (String.eqb s) l then l else l ++ [s].

Definition represents (k : vkind) (m : list (string * Z)) (l : list string) : Prop :=
  length m = length l /\
  forall s, lookup String.eqb (vk_repr k ++ s)%string m = option_map Z.of_nat (index s l).

Lemma append_inj p s t : (p ++ s)%string = (p ++ t)%string -> s = t.
Proof. induction p as [|c p IH]; cbn; intros H; [exact H|]. injection H as H. exact (IH H). Qed.

Lemma unset_absent (m : list (string * Z)) s : lookup String.eqb s m = None -> unset String.eqb s m = m.
Proof.
  unfold unset. induction m as [|[t v] m IH]; cbn [lookup filter fst]; intros H; [reflexivity|].
  destruct (String.eqb s t); [discriminate H|]. cbn [negb]. f_equal. exact (IH H).
Qed.

Lemma number_of_spec k m l s : represents k m l ->
  exists m' i, number_of m (vk_repr k ++ s)%string = (m', Z.of_nat i) /\ represents k m' (extend l s) /\
    index s (extend l s) = Some i.
Proof.
  intros [L T]. unfold number_of, has, extend. rewrite index_existsb. pose proof (T s) as E.
  destruct (index s l) as [i|] eqn:I; cbn [option_map] in E.
  - rewrite E. rewrite E. exists m, i. split; [reflexivity|]. split; [split; assumption|exact I].
  - rewrite E. rewrite (lookup_set_same String.eqb String.eqb_eq).
    exists (set String.eqb (vk_repr k ++ s)%string (Z.of_nat (length m)) m), (length l). rewrite L.
    split; [reflexivity|]. split; [split|].
    + unfold set. rewrite unset_absent by exact E. rewrite app_length. cbn [length]. lia.
    + intros t. destruct (String.eqb_spec t s) as [->|N].
      * rewrite (lookup_set_same String.eqb String.eqb_eq). rewrite index_app, I. cbn [index].
        rewrite String.eqb_refl. cbn. f_equal. lia.
      * rewrite (lookup_set_other String.eqb String.eqb_eq).
        2: { intros Q. apply append_inj in Q. congruence. }
        rewrite T, index_app. cbn [index]. destruct (String.eqb_spec t s) as [Q|_]; [contradiction|].
        cbn [option_map]. destruct (index t l); reflexivity.
    + rewrite index_app, I. cbn [index]. rewrite String.eqb_refl. cbn. f_equal. lia.
Qed.

Lemma extends xs : forall l, exists r, fold_left extend xs l = l ++ r.
Proof.
  induction xs as [|x xs IH]; intros l; cbn [fold_left]; [exists []; symmetry; apply app_nil_r|].
  destruct (IH (extend l x)) as [r E]. rewrite E. unfold extend. destruct (existsb (String.eqb x) l).
  - exists r. reflexivity.
  - exists ([x] ++ r). rewrite <- app_assoc. reflexivity.
Qed.

Lemma extend_NoDup l s : NoDup l -> NoDup (extend l s).
Proof.
  intros H. unfold extend. destruct (existsb (String.eqb s) l) eqn:E; [exact H|].
  apply NoDup_rev in H. rewrite <- (rev_involutive (l ++ [s])). apply NoDup_rev. rewrite rev_app_distr. cbn.
  constructor; [|exact H]. intros J. apply in_rev in J.
  assert (existsb (String.eqb s) l = true) by (apply existsb_exists; exists s; split; [exact J|apply String.eqb_refl]). congruence.
Qed.

Lemma firsts_NoDup l : NoDup (firsts l).
Proof.
  unfold firsts. change (fun seen s => if existsb (String.eqb s) seen then seen else seen ++ [s]) with extend.
  assert (H : forall r, NoDup r -> NoDup (fold_left extend l r)); [|apply H; constructor].
  induction l as [|x l IH]; intros r H; cbn [fold_left]; [exact H|]. apply IH, extend_NoDup, H.
Qed.

(* ---- nodes for variables ---- *)

Lemma string_node n : good n -> label_of n = LString -> exists e s, n = Leaf e s /\ In e ["string_raw"; "string"].
Proof.
  intros G L. destruct (good_inv _ _ G L) as (ss & I & X). entries_in I.
  assert (T : In (name_of n) ["string_raw"; "string"] /\ ss = [([LText], false)]).
  { destruct I as [I|[I|[]]]; injection I as E0 <-; rewrite <- E0; (split; [cbn [In]; tauto|reflexivity]). }
  destruct T as [T ->]. destruct n as [e tok|e kids]; cbn [name_of] in T.
  - exists e, tok. split; [reflexivity|exact T].
  - exfalso. destruct X as [X F]. members X. destruct kids as [|c [|]]; try discriminate X. cbn in X. injection X as X.
    destruct (good_inv _ _ (Forall_inv F) X) as (ss & J & _). entries_in J. exact J.
Qed.

Lemma variable_kids k kids : good (Node (variable_name k) kids) -> exists e s, kids = [Leaf e s] /\ In e ["string_raw"; "string"].
Proof.
  intros G. assert (S : sig (variable_name k) = Some ([([LString], false)], LTerm)) by (destruct k; reflexivity).
  inversion G as [|e ks ss y S' E F]; subst. rewrite S in S'. injection S' as <- <-. members E.
  destruct kids as [|c [|]]; try discriminate E. cbn in E. injection E as E.
  destruct (string_node _ (Forall_inv F) E) as (e & s & -> & I). exists e, s. split; [reflexivity|exact I].
Qed.

Lemma transform_variable k e s st : In e ["string_raw"; "string"] ->
  transform st (Node (variable_name k) [Leaf e s]) = make_variable k st (Some [VString s]).
Proof.
  intros I. cbn [In] in I. destruct I as [<-|[<-|[]]]; destruct k; reflexivity.
Qed.

Lemma make_variable_spec k st s l : represents k (table k st) l ->
  exists st' i, make_variable k st (Some [VString s]) = Ok (st', VTerm (Var k (Z.of_nat i))) /\
    represents k (table k st') (extend l s) /\ index s (extend l s) = Some i /\
    forall j, j <> k -> table j st' = table j st.
Proof.
  intros R. destruct (number_of_spec k (table k st) l s R) as (m & i & N & R' & I).
  unfold make_variable. cbn [all_args bind arg nth_error as_string].
  destruct k; cbn [table] in N; rewrite N; do 2 eexists; (split; [reflexivity|]); (split; [exact R'|]); (split; [exact I|]);
    intros [] J; try reflexivity; exfalso; apply J; reflexivity.
Qed.

Lemma name_clash k j : variable_name k = variable_name j -> k = j.
Proof. destruct k, j; intros H; try reflexivity; discriminate H. Qed.

Definition vk_eq_dec (k j : vkind) : {k = j} + {k <> j}.
Proof. decide equality. Defined.

Definition numbers (n : ast) : Prop := forall k st st' v l, represents k (table k st) l ->
  transform st n = Ok (st', v) -> represents k (table k st') (fold_left extend (names k n) l).

Lemma all_number l : Forall numbers l -> forall k st st' vs r, represents k (table k st) r ->
  transform_all st l = Ok (st', vs) -> represents k (table k st') (fold_left extend (concat (map (names k) l)) r).
Proof.
  induction 1 as [|n l N _ IH]; intros k st st' vs r R T; cbn [map concat].
  - destruct (ok_pair _ _ _ _ T) as [<- _]. exact R.
  - rewrite all_cons in T. destruct (transform st n) as [[st1 v]| | |] eqn:T1; cbn [bind] in T; try discriminate T.
    destruct (transform_all st1 l) as [[st2 us]| | |] eqn:T2; cbn [bind] in T; try discriminate T.
    destruct (ok_pair _ _ _ _ T) as [<- _]. rewrite fold_left_app. exact (IH _ _ _ _ _ (N _ _ _ _ _ R T1) T2).
Qed.

Lemma other_variable k j kids : j <> k -> good (Node (variable_name j) kids) -> names k (Node (variable_name j) kids) = [].
Proof.
  intros N G. destruct (variable_kids _ _ G) as (e & s & -> & _). cbn [names].
  destruct (String.eqb_spec (variable_name j) (variable_name k)) as [Q|_]; [|reflexivity].
  apply name_clash in Q. contradiction.
Qed.

Lemma unnamed_dec e : {j | e = variable_name j} + {unnamed e}.
Proof.
  destruct (string_dec e (variable_name Independent)) as [Q|A]; [left; exists Independent; exact Q|].
  destruct (string_dec e (variable_name Dependent)) as [Q|B]; [left; exists Dependent; exact Q|].
  destruct (string_dec e (variable_name Query)) as [Q|C]; [left; exists Query; exact Q|].
  right. intros []; assumption.
Qed.

Lemma good_numbers : forall n, good n -> numbers n.
Proof.
  fix self 2. intros n G. destruct G as [e tok ss y S E W|e kids ss y S E F].
  - intros k st st' v l R T. cbn [names fold_left]. cbn [Actions.transform] in T.
    assert (U : unnamed e).
    { intros j ->. destruct W as (x & B & Q & _). apply token_cases in Q; [|exact B|destruct j; discriminate].
      cbn [In] in Q. destruct j; repeat (destruct Q as [Q|Q]; [discriminate Q|]); contradiction. }
    rewrite (call_quiet _ _ _ _ _ U T k). exact R.
  - assert (K : Forall numbers kids).
    { clear S E. induction F as [|c kids G F IH]; constructor; [exact (self _ G)|exact IH]. }
    pose proof (G_node e kids ss y S E F) as G. clear self.
    intros k st st' v l R T. destruct (unnamed_dec e) as [[j ->]|U].
    + destruct (vk_eq_dec j k) as [->|N].
      * destruct (variable_kids _ _ G) as (e & s & -> & I). cbn [names]. rewrite String.eqb_refl. cbn [fold_left].
        rewrite (transform_variable _ _ _ _ I) in T. destruct (make_variable_spec k st s l R) as (st1 & i & M & R' & _).
        rewrite M in T. destruct (ok_pair _ _ _ _ T) as [<- _]. exact R'.
      * rewrite (other_variable _ _ _ N G). cbn [fold_left]. destruct (variable_kids _ _ G) as (e & s & -> & I).
        rewrite (transform_variable _ _ _ _ I) in T. unfold make_variable in T. cbn [all_args bind arg nth_error as_string] in T.
        destruct j; match type of T with (let '(_, _) := ?x in _) = _ => destruct x end; destruct (ok_pair _ _ _ _ T) as [<- _];
          destruct k; try exact R; exfalso; apply N; reflexivity.
    + cbn [names]. destruct (String.eqb_spec e (variable_name k)) as [Q|_]; [exfalso; exact (U k Q)|].
      rewrite transform_node in T.
      destruct (transform_all st kids) as [[st1 vs]| | |] eqn:TA; cbn [bind] in T; try discriminate T.
      rewrite (call_quiet _ _ _ _ _ U T k). exact (all_number _ K _ _ _ _ _ R TA).
Qed.

Lemma visit_names st n st1 m : visits ord fresh st n st1 m -> good n -> forall k l, represents k (table k st) l ->
  good m /\ exists before after, names k n = before ++ names k m ++ after /\
    represents k (table k st1) (fold_left extend before l).
Proof.
  induction 1 as [st n|st n e before c after st1 vs st2 m -> TA V IH]; intros G k l R.
  - split; [exact G|]. exists [], []. rewrite app_nil_r. split; [reflexivity|exact R].
  - inversion G as [|e' ks ss y S E F]; subst.
    assert (FB : Forall good before /\ good c).
    { apply Forall_app in F. destruct F as [F1 F2]. split; [exact F1|exact (Forall_inv F2)]. }
    destruct FB as [FB GC].
    destruct (unnamed_dec e) as [[j ->]|U].
    + destruct (variable_kids _ _ G) as (e & s & Q & I).
      destruct before as [|b before]; [|destruct before; discriminate Q].
      cbn [app] in Q. injection Q as -> ->. cbn in TA. injection TA as <- <-.
      inversion V as [|e0 b0 k0 a0 ? ? ? ? Q]; subst; [|discriminate Q]. split; [exact GC|].
      exists [], (names k (Node (variable_name j) [Leaf e s])). split; [reflexivity|exact R].
    + assert (N : Forall numbers before).
      { clear - FB. induction FB as [|x before G FB IH]; constructor; [exact (good_numbers _ G)|exact IH]. }
      pose proof (all_number _ N k _ _ _ _ R TA) as R1.
      destruct (IH GC k _ R1) as (GM & pre & post & EN & RM). split; [exact GM|].
      exists (concat (map (names k) before) ++ pre), (post ++ concat (map (names k) after)). split.
      * cbn [names]. destruct (String.eqb_spec e (variable_name k)) as [Q|_]; [exfalso; exact (U k Q)|].
        rewrite map_app, concat_app. cbn [map concat]. rewrite EN. rewrite <- !app_assoc. reflexivity.
      * rewrite fold_left_app. exact RM.
Qed.

Lemma numbering n st k st1 kids st2 v : good n -> table k st = [] ->
  visits ord fresh st n st1 (Node (variable_name k) kids) ->
  transform st1 (Node (variable_name k) kids) = Ok (st2, v) ->
  exists e s i, kids = [Leaf e s] /\ v = VTerm (Var k (Z.of_nat i)) /\ nth_error (firsts (names k n)) i = Some s.
Proof.
  intros G T0 V T.
  assert (R : represents k (table k st) []) by (rewrite T0; split; [reflexivity|intros s; reflexivity]).
  destruct (visit_names _ _ _ _ V G k [] R) as (GM & before & after & EN & RM).
  destruct (variable_kids _ _ GM) as (e & s & -> & I). rewrite (transform_variable _ _ _ _ I) in T.
  destruct (make_variable_spec k st1 s _ RM) as (st3 & i & M & _ & IX & _). rewrite M in T.
  destruct (ok_pair _ _ _ _ T) as [_ <-]. exists e, s, i. split; [reflexivity|]. split; [reflexivity|].
  rewrite EN. unfold firsts. change (fun seen s => if existsb (String.eqb s) seen then seen else seen ++ [s]) with extend.
  rewrite !fold_left_app. cbn [names]. rewrite String.eqb_refl. cbn [fold_left].
  destruct (extends after (extend (fold_left extend before []) s)) as [r ->].
  apply index_nth in IX. rewrite nth_error_app1; [exact IX|]. apply nth_error_Some. congruence.
Qed.

Lemma final_tables n st st' v k : good n -> table k st = [] -> transform st n = Ok (st', v) ->
  forall s i, lookup String.eqb (vk_repr k ++ s)%string (table k st') = Some i <->
    exists j, i = Z.of_nat j /\ nth_error (firsts (names k n)) j = Some s.
Proof.
  intros G T0 T. 
  assert (R : represents k (table k st) []) by (rewrite T0; split; [reflexivity|intros s; reflexivity]).
  destruct (good_numbers _ G k _ _ _ _ R T) as [_ L].
  change (fold_left extend (names k n) []) with (firsts (names k n)) in L.
  pose proof (firsts_NoDup (names k n)) as ND.
  intros s i. rewrite L. split.
  - destruct (index s (firsts (names k n))) as [j|] eqn:I; cbn [option_map]; [|discriminate].
    intros Q. injection Q as <-. exists j. split; [reflexivity|exact (index_nth _ _ _ I)].
  - intros (j & -> & N). assert (I : exists i', index s (firsts (names k n)) = Some i').
    { pose proof (nth_error_In _ _ N) as M. clear - M. induction (firsts (names k n)) as [|t l IH]; [contradiction|].
      cbn [index]. destruct (String.eqb_spec s t) as [->|D]; [eexists; reflexivity|].
      destruct M as [->|M]; [contradiction|]. destruct (IH M) as [i' ->]. eexists. reflexivity. }
    destruct I as [i' I]. rewrite I. cbn [option_map]. f_equal. f_equal.
    pose proof (index_nth _ _ _ I) as N'. rewrite NoDup_nth_error in ND. apply ND; [|congruence].
    apply nth_error_Some. congruence.
Qed.
End Names.
