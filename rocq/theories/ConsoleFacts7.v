(* Lines without variables at the console. *)
From Coq Require Import ZArith String Ascii List Bool Arith Lia.
From Verif Require Import Base Maps Tables Enums Parser ParserSpec Buffer BufferSpec Term Truth Float Actions Forms SessionsFacts.
From Verif Require Import Console ConsoleSpec ConsoleSpec4 ConsoleFacts ConsoleFacts3.
From Verif Require Interning Evidence.
Import ListNotations.
Open Scope list_scope.
Open Scope Z_scope.

Section Frame.
Variable ord : list (option connector * list term) -> list (option connector * list term).
Variable fresh : Interning.world -> Z.
Variables (i d q : list (string * Z)).

Definition over {A} (r : res (state * A)) : res (state * A) := rmap (fun '(st, v) => (with_vars st i d q, v)) r.

Definition framed (f : method) : Prop := forall st a, f (with_vars st i d q) a = over (f st a).

Lemma bind_over {A B} (x : res A) (f g : A -> res (state * B)) : (forall a, f a = over (g a)) -> bind x f = over (bind x g).
Proof. intros H. destruct x; cbn [bind]; [apply H| | |]; reflexivity. Qed.

Lemma over_bind {A B} (x : res (state * A)) (f g : state * A -> res (state * B)) :
  (forall st a, f (with_vars st i d q, a) = over (g (st, a))) -> bind (over x) f = over (bind x g).
Proof. intros H. destruct x as [[st a]| | |]; cbn; [apply H| | |]; reflexivity. Qed.

Lemma framed_task : framed make_task.
Proof. intros st a. unfold make_task. apply bind_over. intros l. cbv zeta. apply bind_over. intros b. apply bind_over. intros s. apply bind_over. intros b'. reflexivity. Qed.

Lemma framed_belief p c : framed (make_belief p c).
Proof.
  intros st a. unfold make_belief. apply bind_over. intros l. apply bind_over. intros t.
  change (store (with_vars st i d q)) with (store st). apply bind_over. intros [[m tr] s].
  destruct (finish_stamp m s) as [m' s']. reflexivity.
Qed.

Lemma framed_query p : framed (make_query p).
Proof.
  intros st a. unfold make_query. apply bind_over. intros l. apply bind_over. intros t.
  change (store (with_vars st i d q)) with (store st). apply bind_over. intros [[m tr] s].
  destruct (finish_stamp m s) as [m' s']. reflexivity.
Qed.

Lemma framed_constant v : framed (constant v).
Proof. intros st a. reflexivity. Qed.
Lemma framed_pass : framed pass.
Proof. intros st a. unfold pass. do 2 (apply bind_over; intros ?). reflexivity. Qed.
Lemma framed_pass_term : framed pass_term.
Proof. intros st a. unfold pass_term. do 2 (apply bind_over; intros ?). reflexivity. Qed.
Lemma framed_truth : framed make_truth.
Proof. intros st a. unfold make_truth. apply bind_over; intros ?. cbv zeta. do 3 (apply bind_over; intros ?). reflexivity. Qed.
Lemma framed_budget : framed make_budget.
Proof. intros st a. unfold make_budget. apply bind_over; intros ?. cbv zeta. do 3 (apply bind_over; intros ?). reflexivity. Qed.
Lemma framed_string : framed make_string.
Proof. intros st a. unfold make_string. do 2 (apply bind_over; intros ?). reflexivity. Qed.
Lemma framed_number : framed make_number.
Proof. intros st a. unfold make_number. do 3 (apply bind_over; intros ?). reflexivity. Qed.
Lemma framed_interval : framed make_interval.
Proof. intros st a. unfold make_interval. do 3 (apply bind_over; intros ?). reflexivity. Qed.
Lemma framed_time : framed make_time.
Proof. intros st a. unfold make_time. do 3 (apply bind_over; intros ?). reflexivity. Qed.
Lemma framed_atom : framed (make_atom fresh).
Proof.
  intros st a. unfold make_atom. do 2 (apply bind_over; intros ?). cbv zeta.
  change (atoms (with_vars st i d q)) with (atoms st). change (operations (with_vars st i d q)) with (operations st).
  do 2 (apply bind_over; intros ?). reflexivity.
Qed.
Lemma framed_operation : framed (make_operation fresh).
Proof.
  intros st a. unfold make_operation. do 2 (apply bind_over; intros ?). cbv zeta.
  change (atoms (with_vars st i d q)) with (atoms st). change (operations (with_vars st i d q)) with (operations st).
  do 2 (apply bind_over; intros ?). reflexivity.
Qed.
Lemma framed_statement : framed (make_statement ord).
Proof.
  intros st a. unfold make_statement. do 3 (apply bind_over; intros ?). apply bind_over. intros p.
  match goal with |- match ?c with _ => _ end = _ => destruct c end; try reflexivity; repeat (apply bind_over; intros ?); reflexivity.
Qed.
Lemma operation1_over st l : operation1 ord (with_vars st i d q) l = over (operation1 ord st l).
Proof. unfold operation1. do 3 (apply bind_over; intros ?). reflexivity. Qed.
Lemma framed_operation1 : framed (make_operation1 ord).
Proof. intros st a. unfold make_operation1. apply bind_over. intros l. apply operation1_over. Qed.
Lemma framed_operation2 : framed (make_operation2 ord fresh).
Proof.
  intros st a. unfold make_operation2. do 2 (apply bind_over; intros ?). rewrite framed_operation.
  apply over_bind. intros st' op. apply operation1_over.
Qed.
Lemma prefix_over st l : prefix ord (with_vars st i d q) l = over (prefix ord st l).
Proof. unfold prefix. do 3 (apply bind_over; intros ?). reflexivity. Qed.
Lemma framed_prefix : framed (make_prefix ord).
Proof. intros st a. unfold make_prefix. apply bind_over. intros l. apply prefix_over. Qed.
Lemma framed_infix c : framed (make_infix ord c).
Proof. intros st a. unfold make_infix. apply bind_over. intros l. apply prefix_over. Qed.
Lemma framed_negation : framed (make_negation ord).
Proof. intros st a. unfold make_negation. do 4 (apply bind_over; intros ?). reflexivity. Qed.
Lemma framed_single n m : framed (make_single ord n m).
Proof. intros st a. unfold make_single. do 5 (apply bind_over; intros ?). reflexivity. Qed.

Lemma methods_framed : Forall (fun x => In (fst x) ["independent_var"; "dependent_var"; "query_var"]%string \/ framed (snd x)) (methods ord fresh).
Proof.
  unfold methods. repeat (apply Forall_cons; [cbn [fst snd]; first
    [ left; cbn; tauto
    | right; first
      [ apply framed_constant | apply framed_task | apply framed_belief | apply framed_query | apply framed_pass_term | apply framed_pass
      | apply framed_truth | apply framed_budget | apply framed_string | apply framed_number | apply framed_interval | apply framed_time
      | apply framed_atom | apply framed_operation | apply framed_statement | apply framed_operation1 | apply framed_operation2
      | apply framed_prefix | apply framed_infix | apply framed_negation | apply framed_single ] ]|]).
  constructor.
Qed.

Lemma lookup_in {A} k (v : A) : forall l, lookup String.eqb k l = Some v -> In (k, v) l.
Proof.
  induction l as [|[k' v'] l IH]; cbn; [discriminate|]. destruct (String.eqb_spec k k') as [->|N]; intros H; [injection H as <-; auto|auto].
Qed.

Lemma call_framed e st a : ~ In e ["independent_var"; "dependent_var"; "query_var"]%string ->
  call ord fresh e (with_vars st i d q) a = over (call ord fresh e st a).
Proof.
  intros N. unfold call. destruct (lookup String.eqb e (methods ord fresh)) as [f|] eqn:E; [|reflexivity].
  apply lookup_in in E. pose proof methods_framed as M. rewrite Forall_forall in M. destruct (M _ E) as [X|X]; [destruct (N X)|exact (X st a)].
Qed.

Lemma transform_over : forall n, unnamed n -> forall st, transform ord fresh (with_vars st i d q) n = over (transform ord fresh st n).
Proof.
  induction n as [e tok|e kids IH] using ast_ind'; intros U st; inversion U as [? ? N|? ? N F]; subst; cbn [transform].
  - apply call_framed, N.
  - match goal with |- bind (?g (with_vars st i d q) kids) _ = _ => assert (G : forall st, g (with_vars st i d q) kids = over (g st kids)) end.
    { clear U N st. induction IH as [|n l P IH' IH2]; intros st; [reflexivity|]. inversion F as [|? ? U1 F1]; subst.
      rewrite (P U1 st). apply over_bind. intros st1 v. rewrite (IH2 F1 st1). apply over_bind. intros st2 vs. reflexivity. }
    rewrite G. apply over_bind. intros st1 vs. apply call_framed, N.
Qed.

Lemma transform_all_over : forall l, Forall unnamed l -> forall st,
  transform_all ord fresh (with_vars st i d q) l = over (transform_all ord fresh st l).
Proof.
  induction 1 as [|n l U F IH]; intros st; [reflexivity|]. cbn [transform_all]. rewrite (transform_over n U st).
  apply over_bind. intros st1 v. rewrite (IH st1). apply over_bind. intros st2 vs. reflexivity.
Qed.
End Frame.

Section Hearing.
Variable ord : list (option connector * list term) -> list (option connector * list term).
Variable fresh : Interning.world -> Z.

Lemma alike_cleared st st0 : alike st st0 -> with_vars st0 [] [] [] = with_vars st [] [] [].
Proof. intros (A & B & C & D). unfold with_vars. rewrite A, B, C, D. reflexivity. Qed.

Lemma finish_unnamed st st0 l : alike st st0 -> Forall unnamed l ->
  finish_input ord fresh st (Accepted l) =
  rmap (fun '(st1, v, th) => (with_vars st1 (ivars st) (dvars st) (qvars st), v, th)) (finish ord fresh st0 (Accepted l)).
Proof.
  intros A U. unfold finish. rewrite (alike_cleared st st0 A). unfold finish_input. cbv zeta.
  assert (E : st = with_vars (with_vars st [] [] []) (ivars st) (dvars st) (qvars st)) by (destruct st; reflexivity).
  destruct l as [|n l]; [cbn; rewrite <- E; reflexivity|]. rewrite E at 1. rewrite transform_all_over by exact U.
  destruct (transform_all ord fresh (with_vars st [] [] []) (n :: l)) as [[st1 [|v vs]]| | |]; cbn; try reflexivity.
Qed.

Lemma parse_input_unnamed room st st0 b s later t st1 left v thrown :
  (match room with Some n => 1 <= n | None => True end)%nat -> idle b -> plain s -> (String.length s <= 127)%nat ->
  alike st st0 -> parse room [] s = Ok (Accepted t, []) -> Forall unnamed t ->
  parse_task ord fresh room st0 [] s = Ok (st1, left, v, thrown) ->
  left = [] /\ exists b', parse_input ord fresh room st b (typed s ++ later) =
    Ok (with_vars st1 (ivars st) (dvars st) (qvars st), b', v, thrown) /\ idle b' /\ queue b' = later.
Proof.
  intros RM ID P L A E U T. unfold parse_task in T. rewrite E in T. cbn [bind] in T.
  destruct (finish ord fresh st0 (Accepted t)) as [[[st2 v2] th2]| | |] eqn:EF; cbn [bind] in T; try discriminate.
  injection T as -> <- -> ->. split; [reflexivity|].
  destruct (console_read room b s later _ RM ID P L E) as (e & b' & E1 & SM & I1 & Q).
  destruct e as [t'|]; [|destruct SM]. cbn [same] in SM. subst t'.
  exists b'. split; [|split; [exact I1|apply Q; discriminate]].
  unfold parse_input. rewrite E1. cbn [bind outcome_of]. rewrite (finish_unnamed st st0 t A U), EF. reflexivity.
Qed.

Theorem hearings_unnamed room : (match room with Some n => 1 <= n | None => True end)%nat ->
  forall lines trees st st0 b later st1 left vs, alike st st0 -> idle b ->
  Forall (fun s => plain s /\ String.length s <= 127)%nat lines ->
  Forall2 (fun s t => parse room [] s = Ok (Accepted t, []) /\ Forall unnamed t) lines trees ->
  readings ord fresh room st0 [] lines = Ok (st1, left, vs) ->
  exists st' b', hearings ord fresh room (length lines) st b (concat (map typed lines) ++ later) = Ok (st', b', vs) /\
    alike st' st1 /\ idle b' /\ queue b' = later.
Proof.
  intros RM. induction lines as [|s lines IH]; intros trees st st0 b later st1 left vs A ID F F2 R; inversion F2; subst.
  - cbn [readings] in R. injection R as <- _ <-. do 2 eexists. split; [reflexivity|]. split; [exact A|]. split; [exact ID|reflexivity].
  - inversion F as [|? ? [P L] F']; subst. cbn [readings] in R. destruct H1 as [E U].
    destruct (parse_task ord fresh room st0 [] s) as [[[[st2 left2] v] th]| | |] eqn:T; cbn [bind] in R; try discriminate.
    destruct (parse_input_unnamed room st st0 b s (concat (map typed lines) ++ later) y st2 left2 v th RM ID P L A E U T)
      as (-> & b1 & E1 & I1 & Q1).
    destruct (readings ord fresh room st2 [] lines) as [[[st3 left3] vs3]| | |] eqn:R2; cbn [bind] in R; try discriminate.
    injection R as -> -> <-.
    destruct (IH l' (with_vars st2 (ivars st) (dvars st) (qvars st)) st2 b1 later st1 left vs3) as (st' & b' & E2 & A2 & I2 & Q2);
      [repeat split|exact I1|exact F'|exact H3|exact R2|].
    exists st', b'. cbn [length map concat hearings]. rewrite <- app_assoc, E1. cbn [bind]. rewrite Q1, E2. cbn [bind].
    split; [reflexivity|]. auto.
Qed.
End Hearing.
