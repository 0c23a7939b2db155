(* The kinds of the values that actions get and give. *)
From Coq Require Import ZArith String Ascii List Bool Lia.
From Verif Require Import Base Enums Term Compound Maps Parser Grammar Numeral Actions ActionsSpec AstFacts.
From Verif Require ParserRuns ParserFacts3.
Import ListNotations.
Open Scope string_scope.
Open Scope Z_scope.
Open Scope list_scope.

Definition coarse (l : label) : kind :=
  match l with
  | LText => KText
  | LString => KString
  | LInteger | LPriority | LDurability | LQuality | LFrequency | LConfidence | LEvidence => KNumber
  | LTerm => KTerm
  | LCopula => KCopula
  | LConnector => KConnector
  | LTime => KTime
  | LTruth => KTruth
  | LBudget => KBudget
  | LSentence => KSentence
  | LTask => KTask
  end.

Lemma find_sig_in l n s y : find_sig l n = Some (s, y) -> In (n, s, y) l.
Proof.
  induction l as [|[[m s'] y'] l IH]; cbn [find_sig]; intros H; [discriminate H|].
  destruct (String.eqb_spec m n) as [->|_]; [injection H as -> ->; left; reflexivity|right; exact (IH H)].
Qed.

Lemma sig_in n s y : sig n = Some (s, y) -> In (n, s, y) signatures.
Proof. apply find_sig_in. Qed.

Lemma coarse_terms m : map coarse (repeat LTerm m) = repeat KTerm m.
Proof. induction m as [|m IH]; cbn; [reflexivity|]. f_equal. exact IH. Qed.

Lemma coarse_app l m : map coarse (l ++ repeat LTerm m) = map coarse l ++ repeat KTerm m.
Proof. rewrite map_app, coarse_terms. reflexivity. Qed.

Ltac pick := cbn [In]; repeat (first [left; reflexivity | right]).

(* The signatures say what the specification says. *)
Lemma sig_takes n s y ls : sig n = Some (s, y) -> Exists (member ls) s -> takes n (map coarse ls).
Proof.
  intros S E. apply sig_in in S.
  cbn [signatures In] in S.
  repeat match type of S with
         | _ \/ _ => destruct S as [S|S]
         end; try contradiction; injection S as <- <- <-;
  repeat match goal with
         | E : Exists _ (_ :: _) |- _ => inversion E as [? ? M|? ? E']; subst; clear E; [|rename E' into E]
         | E : Exists _ [] |- _ => inversion E
         end;
  destruct M as (m & -> & Z0); rewrite coarse_app; cbn [fst snd] in *;
  try (rewrite (Z0 eq_refl); cbn [repeat]; rewrite app_nil_r); cbn [map coarse app];
  first
    [ apply T_task | apply T_task_budget | apply T_statement | apply T_negation
    | apply T_single_prefix | apply T_single_infix
    | apply T_sentence; pick; fail | apply T_sentence_tense; pick; fail | apply T_sentence_truth; pick; fail
    | apply T_sentence_both; pick; fail
    | apply T_operation1; exists m; split; [lia|reflexivity]
    | apply T_operation2; exists (S m); split; [lia|reflexivity]
    | apply T_none; pick; fail | apply T_term; pick; fail | apply T_word; pick; fail | apply T_number; pick; fail
    | apply T_prefix; [pick; fail|exists (S m); split; [lia|reflexivity]]
    | apply T_many; [pick; fail|exists (S (S m)); split; [lia|reflexivity]]
    | apply (T_numbers _ 1%nat); [pick; fail|lia]
    | apply (T_numbers _ 2%nat); [pick; fail|lia]
    | apply (T_numbers _ 3%nat); [pick; fail|lia]
    | apply T_token; pick; fail ].
Qed.

Section Kinds.
Variable ord : list (option connector * list term) -> list (option connector * list term).
Variable fresh : Interning.world -> Z.

Ltac bust :=
  repeat match goal with
  | H : Ok _ = Ok _ |- _ => injection H as <- <-
  | H : bind ?x _ = Ok _ |- _ => destruct x eqn:?; cbn [bind] in H; try discriminate H
  | H : match ?x with _ => _ end = Ok _ |- _ => destruct x eqn:?; try discriminate H
  | H : UB = Ok _ |- _ => discriminate H
  end.

Lemma prefix_kind st l st' v : prefix ord st l = Ok (st', v) -> kind_of v = Some KTerm.
Proof. unfold prefix. intros H. bust; reflexivity. Qed.

Lemma operation1_kind st l st' v : operation1 ord st l = Ok (st', v) -> kind_of v = Some KTerm.
Proof. unfold operation1. intros H. bust; reflexivity. Qed.

(* The arguments an action is called with. *)
Definition given (vs : list value) : arguments := match vs with [] => None | _ => Some vs end.

Definition gives (k : kind) (f : method) : Prop :=
  forall st a st' v, f st a = Ok (st', v) -> kind_of v = Some k.

Lemma gives_task : gives KTask make_task.
Proof.
  intros st a st' v H. unfold make_task in H.
  repeat match type of H with
         | bind ?x _ = _ => destruct x; cbn [bind] in H; [|discriminate H|discriminate H|discriminate H]
         end.
  injection H as <- <-. reflexivity.
Qed.
Lemma gives_belief p c : gives KSentence (make_belief p c).
Proof. intros st a st' v H. unfold make_belief in H. bust; reflexivity. Qed.
Lemma gives_query p : gives KSentence (make_query p).
Proof. intros st a st' v H. unfold make_query in H. bust; reflexivity. Qed.
Lemma gives_statement : gives KTerm (make_statement ord).
Proof. intros st a st' v H. unfold make_statement in H. bust; reflexivity. Qed.
Lemma gives_operation1 : gives KTerm (make_operation1 ord).
Proof. intros st a st' v H. unfold make_operation1 in H. bust; exact (operation1_kind _ _ _ _ H). Qed.
Lemma gives_operation : gives KTerm (make_operation fresh).
Proof. intros st a st' v H. unfold make_operation in H. bust; reflexivity. Qed.
Lemma gives_operation2 : gives KTerm (make_operation2 ord fresh).
Proof. intros st a st' v H. unfold make_operation2 in H. bust; exact (operation1_kind _ _ _ _ H). Qed.
Lemma gives_constant v : forall k, kind_of v = Some k -> gives k (constant v).
Proof. intros k E st a st' v' H. unfold constant in H. injection H as <- <-. exact E. Qed.
Lemma gives_pass_term : gives KTerm pass_term.
Proof. intros st a st' v H. unfold pass_term in H. bust; reflexivity. Qed.
Lemma gives_atom : gives KTerm (make_atom fresh).
Proof. intros st a st' v H. unfold make_atom in H. bust; reflexivity. Qed.
Lemma gives_interval : gives KTerm make_interval.
Proof. intros st a st' v H. unfold make_interval in H. bust; reflexivity. Qed.
Lemma gives_prefix : gives KTerm (make_prefix ord).
Proof. intros st a st' v H. unfold make_prefix in H. bust; exact (prefix_kind _ _ _ _ H). Qed.
Lemma gives_negation : gives KTerm (make_negation ord).
Proof. intros st a st' v H. unfold make_negation in H. bust; reflexivity. Qed.
Lemma gives_infix c : gives KTerm (make_infix ord c).
Proof. intros st a st' v H. unfold make_infix in H. bust; exact (prefix_kind _ _ _ _ H). Qed.
Lemma gives_single i j : gives KTerm (make_single ord i j).
Proof. intros st a st' v H. unfold make_single in H. bust; reflexivity. Qed.
Lemma gives_variable k : gives KTerm (make_variable k).
Proof.
  intros st a st' v H. unfold make_variable in H. destruct k.
  all: destruct (all_args a); cbn [bind] in H; try discriminate H.
  all: destruct (bind (arg a0 0) as_string); cbn [bind] in H; try discriminate H.
  all: match type of H with (let '(_, _) := ?x in _) = _ => destruct x end.
  all: injection H as <- <-; reflexivity.
Qed.
Lemma gives_time : gives KTime make_time.
Proof. intros st a st' v H. unfold make_time in H. bust; reflexivity. Qed.
Lemma gives_truth : gives KTruth make_truth.
Proof.
  intros st a st' v H. unfold make_truth in H.
  destruct (all_args a); cbn [bind] in H; try discriminate H.
  repeat match type of H with
         | bind ?x _ = _ => destruct x; cbn [bind] in H; [|discriminate H|discriminate H|discriminate H]
         end.
  injection H as <- <-. reflexivity.
Qed.
Lemma gives_budget : gives KBudget make_budget.
Proof.
  intros st a st' v H. unfold make_budget in H.
  destruct (all_args a); cbn [bind] in H; try discriminate H.
  repeat match type of H with
         | bind ?x _ = _ => destruct x; cbn [bind] in H; [|discriminate H|discriminate H|discriminate H]
         end.
  injection H as <- <-. reflexivity.
Qed.
Lemma gives_string : gives KString make_string.
Proof. intros st a st' v H. unfold make_string in H. bust; reflexivity. Qed.
Lemma gives_number : gives KNumber make_number.
Proof.
  intros st a st' v H. unfold make_number in H.
  destruct (all_args a); cbn [bind] in H; try discriminate H.
  destruct (bind (arg a0 0) as_text); cbn [bind] in H; try discriminate H.
  destruct (stod a1); cbn [bind] in H; try discriminate H. injection H as <- <-. reflexivity.
Qed.

Definition yields (nf : string * method) : Prop :=
  forall s y, sig (fst nf) = Some (s, y) -> fst nf <> "multi_infix" -> gives (coarse y) (snd nf).

Lemma all_yield : Forall yields (methods ord fresh).
Proof.
  unfold methods.
  repeat (apply Forall_cons; [
    intros s y S N; cbn [fst snd] in *; cbv in S; injection S as <- <-;
    first
      [ apply gives_task | apply gives_belief | apply gives_query | apply gives_statement | apply gives_operation1
      | apply gives_operation2 | apply gives_constant; reflexivity | apply gives_pass_term | apply gives_atom
      | apply gives_operation | apply gives_interval | apply gives_prefix | apply gives_negation
      | exfalso; apply N; reflexivity
      | apply gives_infix | apply gives_single | apply gives_variable | apply gives_time | apply gives_truth
      | apply gives_budget | apply gives_string | apply gives_number ]|]).
  constructor.
Qed.

Lemma lookup_in {A} (l : list (string * A)) n f : lookup String.eqb n l = Some f -> In (n, f) l.
Proof.
  induction l as [|[m g] l IH]; cbn [lookup]; intros H; [discriminate H|].
  destruct (String.eqb_spec n m) as [->|_]; [injection H as ->; left; reflexivity|right; exact (IH H)].
Qed.

Lemma lookup_some {A} (l : list (string * A)) n : In n (map fst l) -> exists f, lookup String.eqb n l = Some f.
Proof.
  induction l as [|[m g] l IH]; cbn [map fst In lookup]; intros H; [contradiction|].
  destruct (String.eqb_spec n m) as [->|N]; [exists g; reflexivity|].
  apply IH. destruct H as [->|H]; [contradiction|exact H].
Qed.

(* Every name with a signature is registered. *)
Lemma sig_registered n s y : sig n = Some (s, y) -> exists f, lookup String.eqb n (methods ord fresh) = Some f.
Proof.
  intros S. apply lookup_some. apply sig_in in S.
  assert (E : forallb (fun x => existsb (String.eqb (fst (fst x))) (map fst (methods ord fresh))) signatures = true)
    by (vm_compute; reflexivity).
  rewrite forallb_forall in E. specialize (E _ S). cbn [fst] in E.
  apply existsb_exists in E. destruct E as (m & I & Q). apply String.eqb_eq in Q. subst m. exact I.
Qed.

Lemma call_kind n s y ls vs st st' v : sig n = Some (s, y) -> Exists (member ls) s ->
  map kind_of vs = map (fun l => Some (coarse l)) ls ->
  call ord fresh n st (given vs) = Ok (st', v) -> kind_of v = Some (coarse y).
Proof.
  intros S E K C. destruct (sig_registered _ _ _ S) as [f L]. unfold call in C. rewrite L in C.
  destruct (String.eqb_spec n "multi_infix") as [->|N].
  - cbv in S. injection S as <- <-.
    assert (F : f = pass) by (cbv in L; injection L as <-; reflexivity). subst f.
    inversion E as [? ? (m & -> & Z0)|? ? X]; subst; [|inversion X]. rewrite (Z0 eq_refl) in K. cbn in K.
    destruct vs as [|w [|]]; try discriminate K. cbn in K. injection K as K.
    cbn in C. injection C as <- <-. exact K.
  - apply lookup_in in L. pose proof all_yield as Y. rewrite Forall_forall in Y.
    exact (Y _ L _ _ S N _ _ _ _ C).
Qed.
End Kinds.

(* ---- whole trees ---- *)

Section Trees.
Variable ord : list (option connector * list term) -> list (option connector * list term).
Variable fresh : Interning.world -> Z.

Lemma transform_node st e kids : transform ord fresh st (Node e kids) =
  bind (transform_all ord fresh st kids)
    (fun '(st, vs) => call ord fresh e st (match kids with [] => None | _ => Some vs end)).
Proof.
  reflexivity.
Qed.

Lemma transform_all_length l : forall st st' vs, transform_all ord fresh st l = Ok (st', vs) -> length vs = length l.
Proof.
  induction l as [|n l IH]; intros st st' vs H; cbn [transform_all] in H.
  - injection H as <- <-. reflexivity.
  - destruct (transform ord fresh st n) as [[st1 v]| | |]; cbn [bind] in H; try discriminate H.
    destruct (transform_all ord fresh st1 l) as [[st2 us]| | |] eqn:T; cbn [bind] in H; try discriminate H.
    injection H as <- <-. cbn [length]. f_equal. exact (IH _ _ _ T).
Qed.

Lemma given_kids (kids : list ast) (vs : list value) : length vs = length kids ->
  (match kids with [] => None | _ => Some vs end : arguments) = given vs.
Proof. destruct kids, vs; intros H; try discriminate H; reflexivity. Qed.

Definition kinded (n : ast) : Prop := forall st st' v,
  transform ord fresh st n = Ok (st', v) -> kind_of v = Some (coarse (label_of n)).

Lemma all_kinded l : Forall kinded l -> forall st st' vs, transform_all ord fresh st l = Ok (st', vs) ->
  map kind_of vs = map (fun x => Some (coarse x)) (map label_of l).
Proof.
  induction 1 as [|n l K _ IH]; intros st st' vs H; cbn [transform_all] in H.
  - injection H as <- <-. reflexivity.
  - destruct (transform ord fresh st n) as [[st1 v]| | |] eqn:N; cbn [bind] in H; try discriminate H.
    destruct (transform_all ord fresh st1 l) as [[st2 us]| | |] eqn:T; cbn [bind] in H; try discriminate H.
    injection H as <- <-. cbn [map]. f_equal; [exact (K _ _ _ N)|exact (IH _ _ _ T)].
Qed.

Lemma good_kinded : forall n, good n -> kinded n.
Proof.
  fix self 2. intros n G. destruct G as [e tok ss y S E W|e kids ss y S E F].
  - intros st st' v H. cbn [transform] in H. unfold label_of. cbn [name_of]. rewrite S.
    exact (call_kind ord fresh e ss y [LText] [VText tok] st st' v S E eq_refl H).
  - assert (K : Forall kinded kids).
    { clear S E. induction F as [|k kids G F IH]; constructor; [exact (self _ G)|exact IH]. }
    intros st st' v H. rewrite transform_node in H.
    destruct (transform_all ord fresh st kids) as [[st1 vs]| | |] eqn:T; cbn [bind] in H; try discriminate H.
    rewrite (given_kids _ _ (transform_all_length _ _ _ _ T)) in H.
    unfold label_of. cbn [name_of]. rewrite S.
    exact (call_kind ord fresh e ss y _ vs st1 st' v S E (all_kinded _ K _ _ _ T) H).
Qed.

Lemma good_within n m : within n m -> good m -> good n.
Proof.
  induction 1 as [|name kids k I _ IH]; intros G; [exact G|]. apply IH.
  inversion G as [|e ks ss y S E F]; subst. rewrite Forall_forall in F. exact (F _ I).
Qed.

Lemma good_node e kids : good (Node e kids) -> (exists f, lookup String.eqb e (methods ord fresh) = Some f) /\
  forall st st' vs, transform_all ord fresh st kids = Ok (st', vs) ->
    exists ks, map kind_of vs = map Some ks /\ takes e ks.
Proof.
  intros G. inversion G as [|e' ks ss y S E F]; subst. split; [exact (sig_registered ord fresh _ _ _ S)|].
  intros st st' vs T. exists (map coarse (map label_of kids)). split.
  - rewrite map_map, map_map. rewrite (all_kinded kids) with (st := st) (st' := st') (vs := vs); [apply map_map| |exact T].
    rewrite Forall_forall in *. intros k I. exact (good_kinded _ (F _ I)).
  - exact (sig_takes _ _ _ _ S E).
Qed.

Lemma good_leaf e tok : good (Leaf e tok) -> (exists f, lookup String.eqb e (methods ord fresh) = Some f) /\
  takes e [KText].
Proof.
  intros G. inversion G as [e' tok' ss y S E W|]; subst. split; [exact (sig_registered ord fresh _ _ _ S)|].
  exact (sig_takes _ _ _ [LText] S E).
Qed.
End Trees.

(* The tree of an accepted input. *)
Lemma accepted_good room input trees left : (match room with Some n => 1 <= n | None => True end)%nat ->
  parse room [] input = Ok (Accepted trees, left) ->
  exists n, trees = [n] /\ good n /\ label_of n = LTask.
Proof.
  intros R P. destruct (ParserRuns.accepted _ _ _ _ R P) as (t & D & Q & _ & ->).
  destruct (task_tree _ D Q) as (n & E & G & L). exists n. rewrite E. repeat split; assumption.
Qed.

Lemma action_arguments ord fresh room input trees left :
  (match room with Some n => 1 <= n | None => True end)%nat ->
  parse room [] input = Ok (Accepted trees, left) ->
  forall t n, In t trees -> within n t ->
    match n with
    | Leaf e _ => In e (map fst (methods ord fresh)) /\ takes e [KText]
    | Node e kids => In e (map fst (methods ord fresh)) /\
        forall st st' vs, transform_all ord fresh st kids = Ok (st', vs) ->
          exists ks, map kind_of vs = map Some ks /\ takes e ks
    end.
Proof.
  intros R P t n I W. destruct (accepted_good _ _ _ _ R P) as (m & -> & G & _).
  destruct I as [<-|[]]. pose proof (good_within _ _ W G) as GN.
  assert (F : forall e, (exists f, lookup String.eqb e (methods ord fresh) = Some f) ->
    In e (map fst (methods ord fresh))).
  { intros e [f L]. apply lookup_in in L. apply (in_map fst) in L. exact L. }
  destruct n as [e tok|e kids].
  - destruct (good_leaf ord fresh _ _ GN) as [A B]. exact (conj (F _ A) B).
  - destruct (good_node ord fresh _ _ GN) as [A B]. exact (conj (F _ A) B).
Qed.
