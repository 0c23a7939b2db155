(* The terminals of a derivation: which may be first, last, and next to each
   other; what the scanner makes of them. *)
From Coq Require Import ZArith String Ascii List Bool Lia.
From Verif Require Import Base Tables Parser Grammar GrammarSpec LexFacts LexFacts2 ParserCert ParserFacts ParserAhead.
Import ListNotations.
Open Scope list_scope.
Open Scope Z_scope.

(** * Sets of terminals *)

Definition among (a m : Z) : bool := Z.testbit m a.
Definition within (m m' : Z) : bool := Z.land m m' =? m.

Lemma within_among m m' a : within m m' = true -> among a m = true -> among a m' = true.
Proof.
  unfold within, among. rewrite Z.eqb_eq. intros E A. rewrite <- E, Z.land_spec in A.
  apply andb_true_iff in A. tauto.
Qed.

Lemma among_or a m m' : among a (Z.lor m m') = among a m || among a m'.
Proof. apply Z.lor_spec. Qed.

Definition empty (x : Z) : bool := existsb (Z.eqb x) empties.
Definition start_of (x : Z) : Z := nth (Z.to_nat x) starts 0.
Definition end_of (x : Z) : Z := nth (Z.to_nat x) ends 0.
Definition near_to (a : Z) : Z := nth (Z.to_nat a) neighbours 0.

(* The terminals a sequence of symbols may start with, when la may follow. *)
Fixpoint firsts (xs : list Z) (la : Z) : Z :=
  match xs with
  | [] => la
  | x :: xs' => if empty x then Z.lor (start_of x) (firsts xs' la) else start_of x
  end.

Fixpoint lasts (xs : list Z) : Z :=
  match xs with
  | [] => 0
  | x :: xs' => Z.lor (lasts xs') (if forallb empty xs' then end_of x else 0)
  end.

Fixpoint beside (xs : list Z) : bool :=
  match xs with
  | [] => true
  | x :: xs' =>
      forallb (fun a => negb (among a (end_of x)) || within (firsts xs' 0) (near_to a)) (upto 59)
      && beside xs'
  end.

Definition terminal_ok (a : Z) : bool := among a (start_of a) && among a (end_of a).
Definition frame_ok (r : Z * list Z * string) : bool :=
  let '(lhs, rhs, _) := r in
  (negb (forallb empty rhs) || empty lhs)
  && within (firsts rhs 0) (start_of lhs) && within (lasts rhs) (end_of lhs) && beside rhs.

Lemma terminals_checked : forallb terminal_ok (upto 59) = true.
Proof. vm_compute. reflexivity. Qed.

Lemma frames_checked : forallb frame_ok rules = true.
Proof. vm_compute. reflexivity. Qed.

Definition head_in (toks : list (Z * list ascii)) (m : Z) : Prop :=
  match toks with [] => True | (a, _) :: _ => among a m = true end.

Definition last_in (toks : list (Z * list ascii)) (m : Z) : Prop :=
  match rev toks with [] => True | (a, _) :: _ => among a m = true end.

Fixpoint adjacent (toks : list (Z * list ascii)) : Prop :=
  match toks with
  | [] => True
  | (a, _) :: toks' => 0 <= a < 59 /\ head_in toks' (near_to a) /\ adjacent toks'
  end.

Lemma adjacent_app l1 l2 m : adjacent l1 -> adjacent l2 -> last_in l1 m ->
  (forall a, 0 <= a < 59 -> among a m = true -> head_in l2 (near_to a)) -> adjacent (l1 ++ l2).
Proof.
  induction l1 as [|[a w] l1 IH]; intros A1 A2 L H; [exact A2|].
  cbn [app adjacent] in *. destruct A1 as (B & A1 & A3).
  split; [exact B|]. destruct l1 as [|p l1].
  - cbn [app]. split; [|exact A2]. apply H; [exact B|]. exact L.
  - split; [exact A1|]. apply IH; try assumption.
    unfold last_in in *. cbn [rev] in *. rewrite <- app_assoc in L. cbn [app] in L.
    destruct (rev l1) as [|q l]; cbn [app] in *; exact L.
Qed.

Lemma head_in_app l1 l2 m : head_in l1 m -> (l1 = [] -> head_in l2 m) -> head_in (l1 ++ l2) m.
Proof. destruct l1 as [|[a w] l1]; cbn; auto. Qed.

Lemma last_in_app l1 l2 m : last_in l2 m -> (l2 = [] -> last_in l1 m) -> last_in (l1 ++ l2) m.
Proof.
  unfold last_in. rewrite rev_app_distr. destruct (rev l2) as [|[a w] l] eqn:E; cbn [app].
  - intros _ H. apply H. rewrite <- (rev_involutive l2), E. reflexivity.
  - auto.
Qed.

Lemma head_in_within toks m m' : within m m' = true -> head_in toks m -> head_in toks m'.
Proof. destruct toks as [|[a w] toks]; cbn; [auto|]. apply within_among. Qed.

Lemma last_in_within toks m m' : within m m' = true -> last_in toks m -> last_in toks m'.
Proof. unfold last_in. destruct (rev toks) as [|[a w] l]; [auto|]. apply within_among. Qed.

Lemma head_in_or toks m m' : head_in toks m \/ head_in toks m' -> head_in toks (Z.lor m m').
Proof.
  destruct toks as [|[a w] toks]; cbn; [auto|]. rewrite among_or. intros [ -> | -> ]; [reflexivity|apply orb_true_r].
Qed.

Lemma last_in_or toks m m' : last_in toks m \/ last_in toks m' -> last_in toks (Z.lor m m').
Proof.
  unfold last_in. destruct (rev toks) as [|[a w] l]; [auto|]. rewrite among_or. intros [ -> | -> ]; [reflexivity|apply orb_true_r].
Qed.

(* What the certificates say of a tree. *)
Definition framed (t : tree) : Prop :=
  (tokens t = [] -> empty (root t) = true) /\ head_in (tokens t) (start_of (root t)) /\
  last_in (tokens t) (end_of (root t)) /\ adjacent (tokens t).

Definition tokens_all (kids : list tree) : list (Z * list ascii) := concat (map tokens kids).

Lemma frame_all kids la toks : Forall framed kids -> head_in toks la ->
  head_in (tokens_all kids ++ toks) (firsts (map root kids) la).
Proof.
  induction 1 as [|k kids (F1 & F2 & _) F IH]; intros H; [exact H|].
  unfold tokens_all in *. cbn [map concat firsts]. rewrite <- app_assoc.
  destruct (tokens k) as [|[a w] l] eqn:E.
  - rewrite F1 by reflexivity. apply head_in_or. right. apply IH. exact H.
  - cbn [app head_in] in *. destruct (empty (root k)); [|exact F2].
    rewrite among_or, F2. reflexivity.
Qed.

Lemma frame_empty kids : Forall framed kids -> tokens_all kids = [] -> forallb empty (map root kids) = true.
Proof.
  induction 1 as [|k kids (F1 & _) F IH]; [reflexivity|].
  unfold tokens_all in *. cbn [map concat forallb]. intros E. apply app_eq_nil in E as [E1 E2].
  rewrite (F1 E1), (IH E2). reflexivity.
Qed.

Lemma frame_last kids : Forall framed kids -> last_in (tokens_all kids) (lasts (map root kids)).
Proof.
  induction 1 as [|k kids (F1 & F2 & F3 & _) F IH]; [exact I|].
  unfold tokens_all in *. cbn [map concat lasts]. apply last_in_app.
  - apply last_in_or. left. exact IH.
  - intros E. apply last_in_or. right. rewrite (frame_empty kids F E). exact F3.
Qed.

Lemma frame_adjacent kids : Forall framed kids -> beside (map root kids) = true -> adjacent (tokens_all kids).
Proof.
  induction 1 as [|k kids (F1 & F2 & F3 & F4) F IH]; [exact (fun _ => I)|].
  cbn [map beside]. rewrite andb_true_iff. intros [B1 B2].
  unfold tokens_all in *. cbn [map concat].
  apply adjacent_app with (m := end_of (root k)); auto.
  intros a Ha A. rewrite forallb_forall in B1. specialize (B1 a (upto_In 59 a Ha)).
  rewrite A in B1. cbn [negb orb] in B1. apply (head_in_within _ _ _ B1).
  pose proof (frame_all kids 0 [] F Logic.I) as H. rewrite app_nil_r in H. exact H.
Qed.

Lemma terminal_fact a : 0 <= a < 59 -> among a (start_of a) = true /\ among a (end_of a) = true.
Proof.
  intros H. pose proof terminals_checked as K.
  rewrite forallb_forall in K. specialize (K a (upto_In 59 a H)). apply andb_true_iff in K. exact K.
Qed.

Lemma rule_frame r lhs rhs name : nth_error rules r = Some (lhs, rhs, name) ->
  (forallb empty rhs = true -> empty lhs = true) /\ within (firsts rhs 0) (start_of lhs) = true /\
  within (lasts rhs) (end_of lhs) = true /\ beside rhs = true.
Proof.
  intros N. pose proof frames_checked as K.
  rewrite forallb_forall in K. specialize (K _ (nth_error_In _ _ N)). unfold frame_ok in K.
  rewrite !andb_true_iff in K. destruct K as [[[K3 K4] K5] K6].
  split; [|auto]. intros E. rewrite E in K3. exact K3.
Qed.

Lemma derivation_framed t : derivation t -> framed t.
Proof.
  intros D. induction D using derivation_ind'.
  - destruct (terminal_fact sym H) as [K1 K3].
    unfold framed, last_in. cbn [tokens root head_in rev app adjacent]. split; [discriminate|]. auto.
  - destruct (rule_frame _ _ _ _ H) as (K3 & K4 & K5 & K6). subst rhs.
    assert (R : root (Derived r kids) = lhs) by (cbn [root]; rewrite H; reflexivity).
    unfold framed. rewrite R. change (tokens (Derived r kids)) with (tokens_all kids).
    split; [|split; [|split]].
    + intros E. exact (K3 (frame_empty _ H2 E)).
    + apply (head_in_within _ _ _ K4). pose proof (frame_all kids 0 [] H2 I) as Q.
      rewrite app_nil_r in Q. exact Q.
    + apply (last_in_within _ _ _ K5), frame_last, H2.
    + apply frame_adjacent; assumption.
Qed.
