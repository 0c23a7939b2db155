(* Inputs showing that the hypotheses on the semantic actions can be met, and
   inputs that refute some of the properties. *)
From Coq Require Import ZArith String Ascii List Bool Lia Permutation.
From Verif Require Import Base Enums Term Compound CompoundSpec NumeralSpec Parser ParserSpec ParserCases Actions ActionsSpec.
From Flocq Require BinarySingleNaN.
From Verif Require Float Truth.
From Verif Require Interning Evidence EvidenceSpec.
Import ListNotations.
Open Scope string_scope.
Open Scope Z_scope.
Open Scope list_scope.

Definition id_ord (l : list (option connector * list term)) := l.
(* The allocator of the examples. *)
Definition bump (w : Interning.world) : Z := 4096 + 64 * Interning.next w.

Definition blank_state : state :=
  State [] [] [] Interning.world0 [] (EvidenceSpec.start 0) [].

Definition content_of (v : value) : option term :=
  match v with
  | VTask t => Some (content (sentence_of t))
  | VSentence s => Some (content s)
  | VTerm t => Some t
  | _ => None
  end.

(* The contents of the values a tree evaluates to. *)
Definition contents (st : state) (l : list ast) : option (list (option term)) :=
  match transform_all id_ord bump st l with
  | Ok (_, vs) => Some (map content_of vs)
  | _ => None
  end.

Definition evaluates (st : state) (l : list ast) : bool :=
  match transform_all id_ord bump st l with Ok _ => true | _ => false end.

Lemma evaluates_exists st l : evaluates st l = true ->
  exists st' vs, transform_all id_ord bump st l = Ok (st', vs).
Proof.
  unfold evaluates. destruct (transform_all id_ord bump st l) as [[st' vs]| | |]; intros E; try discriminate E.
  exists st', vs. reflexivity.
Qed.

Lemma sample_evaluates : exists st' vs, transform_all id_ord bump blank_state sample_tree = Ok (st', vs).
Proof. apply evaluates_exists. vm_compute. reflexivity. Qed.

(* Variables that come back, in two kinds. *)
Definition product_tree : list ast :=
  [Node "task" [Node "judgement" [Node "statement" [
    Node "compound_term" [Node "multi_infix" [Node "multi_prod_expr" [
      Node "variable_term" [Node "dependent_var" [Leaf "string_raw" "x"]];
      Node "variable_term" [Node "independent_var" [Leaf "string_raw" "y"]];
      Node "variable_term" [Node "dependent_var" [Leaf "string_raw" "z"]]]]];
    Node "inheritance" [];
    Node "variable_term" [Node "dependent_var" [Leaf "string_raw" "x"]]]]]].

Lemma product_accepted : parse allocated [] "<(#x * $y * #z) --> #x>." = Ok (Accepted product_tree, []).
Proof. vm_compute. reflexivity. Qed.

Lemma product_contents : contents blank_state product_tree =
  Some [Some (Stmt Inheritance (Comp Product [Var Dependent 0; Var Independent 0; Var Dependent 1]) (Var Dependent 0))].
Proof. vm_compute. reflexivity. Qed.

(* The last variable of that tree, and the state it is evaluated in. *)
Definition before_last : state :=
  State [("$y", 0)] [("#z", 1); ("#x", 0)] [] Interning.world0 [] (EvidenceSpec.start 0) [].

Lemma product_visits : visits id_ord bump blank_state (hd (Leaf "" "") product_tree) before_last
    (Node "dependent_var" [Leaf "string_raw" "x"]) /\
  transform id_ord bump before_last (Node "dependent_var" [Leaf "string_raw" "x"]) =
    Ok (before_last, VTerm (Var Dependent 0)).
Proof.
  split; [|vm_compute; reflexivity]. unfold product_tree. cbn [hd].
  eapply (V_child id_ord bump) with (before := []) (after := []); [cbn [app]; reflexivity|reflexivity|].
  eapply (V_child id_ord bump) with (before := []) (after := []); [cbn [app]; reflexivity|reflexivity|].
  match goal with |- visits _ _ _ (Node _ [?a; ?b; ?c]) _ _ =>
    eapply (V_child id_ord bump) with (before := [a; b]) (after := []); [cbn [app]; reflexivity|vm_compute; reflexivity|]
  end.
  eapply (V_child id_ord bump) with (before := []) (after := []); [cbn [app]; reflexivity|reflexivity|].
  exact (V_self id_ord bump _ _).
Qed.

Lemma product_first : exists st1 st2, visits id_ord bump blank_state (hd (Leaf "" "") product_tree) st1
    (Node "dependent_var" [Leaf "string_raw" "z"]) /\
  transform id_ord bump st1 (Node "dependent_var" [Leaf "string_raw" "z"]) = Ok (st2, VTerm (Var Dependent 1)).
Proof.
  eexists _, _. split.
  - unfold product_tree. cbn [hd].
    do 5 (eapply (V_child id_ord bump) with (before := []); [cbn [app]; reflexivity|reflexivity|]).
    match goal with |- visits _ _ _ (Node _ [?a; ?b; ?c]) _ _ =>
      eapply (V_child id_ord bump) with (before := [a; b]) (after := []); [cbn [app]; reflexivity|vm_compute; reflexivity|]
    end.
    eapply (V_child id_ord bump) with (before := []) (after := []); [cbn [app]; reflexivity|reflexivity|].
    exact (V_self id_ord bump _ _).
  - vm_compute. reflexivity.
Qed.

(* The value of an input is a task. *)
Definition task_ok (r : res (state * list ascii * option value * bool)) : bool :=
  match r with Ok (_, _, Some (VTask _), false) => true | _ => false end.

Lemma task_ok_exists r : task_ok r = true -> exists st left tk, r = Ok (st, left, Some (VTask tk), false).
Proof.
  destruct r as [[[[st left] [v|]] [|]]| | |]; try discriminate; [destruct v; discriminate|].
  destruct v; try discriminate. intros _. eexists _, _, _. reflexivity.
Qed.

Lemma product_task : exists st left tk,
  parse_task id_ord bump allocated before_last [] "<(#x * $y * #z) --> #x>." = Ok (st, left, Some (VTask tk), false).
Proof. apply task_ok_exists. vm_compute. reflexivity. Qed.

(* A statement with sugar. *)
Lemma sugar_case : exists st1 st2,
  transform id_ord bump blank_state (Node "atom_term" [Leaf "string_raw" "a"]) = Ok (st1, VTerm (Atom false 4160)) /\
  transform id_ord bump st1 (Node "atom_term" [Leaf "string_raw" "b"]) = Ok (st2, VTerm (Atom false 4224)).
Proof. eexists _, _. split; [vm_compute; reflexivity|]. vm_compute. reflexivity. Qed.

(* A conjunction before an instance copula: its components become the members
   of the set. *)
Definition dissolved_tree : ast :=
  Node "statement" [Node "compound_term" [Node "multi_prefix" [Node "con_conjunction" [];
      Node "atom_term" [Leaf "string_raw" "a"]; Node "atom_term" [Leaf "string_raw" "b"]]];
    Node "instance" []; Node "atom_term" [Leaf "string_raw" "c"]].

Lemma dissolved_accepted : parse allocated [] "<(&&,a,b) {-- c>." =
  Ok (Accepted [Node "task" [Node "judgement" [dissolved_tree]]], []).
Proof. vm_compute. reflexivity. Qed.

Lemma dissolved : exists st1 st2,
  transform id_ord bump blank_state (Node "compound_term" [Node "multi_prefix" [Node "con_conjunction" [];
      Node "atom_term" [Leaf "string_raw" "a"]; Node "atom_term" [Leaf "string_raw" "b"]]]) =
    Ok (st1, VTerm (Comp Conjunction [Atom false 4160; Atom false 4224])) /\
  transform id_ord bump blank_state dissolved_tree =
    Ok (st2, VTerm (Stmt Inheritance (Comp ExtensionalSet [Atom false 4160; Atom false 4224]) (Atom false 4288))).
Proof. eexists _, _. split; [vm_compute; reflexivity|]. vm_compute. reflexivity. Qed.

(* A number too small for a double, then a rejected input. *)
Definition tiny : string := ("<a --> b>. %0." ++ times 320 "0" ++ "1%")%string.

(* What a second input comes to after a first one: does it throw although it
   is rejected? *)
Definition stale_throws (first second : string) : bool :=
  match history id_ord bump allocated blank_state [] [first] with
  | Ok (st, rest, _) =>
      match parse allocated rest second, parse_task id_ord bump allocated st rest second with
      | Ok (Rejected, _), Ok (_, _, None, true) => true
      | _, _ => false
      end
  | _ => false
  end.

Lemma stale_checked : stale_throws tiny "<a" = true.
Proof. vm_compute. reflexivity. Qed.

Lemma stale : exists st rest b rest', history id_ord bump allocated blank_state [] [tiny] = Ok (st, rest, b) /\
  parse allocated rest "<a" = Ok (Rejected, rest') /\
  exists st', parse_task id_ord bump allocated st rest "<a" = Ok (st', rest', None, true).
Proof.
  pose proof stale_checked as C. unfold stale_throws in C.
  destruct (history id_ord bump allocated blank_state [] [tiny]) as [[[st rest] b]| | |]; try discriminate C.
  destruct (parse allocated rest "<a") as [[[l|] rest']| | |] eqn:P; try discriminate C.
  assert (E : exists st1 v t, parse_task id_ord bump allocated st rest "<a" = Ok (st1, rest', v, t) \/ 
    forall x, parse_task id_ord bump allocated st rest "<a" <> Ok x).
  { unfold parse_task. rewrite P. cbn [bind]. destruct (finish id_ord bump st Rejected) as [[[st1 v] t]| | |]; cbn [bind].
    - exists st1, v, t. left. reflexivity.
    - exists st, None, true. right. discriminate.
    - exists st, None, true. right. discriminate.
    - exists st, None, true. right. discriminate. }
  destruct E as (st1 & v & t & [E|E]).
  - rewrite E in C. destruct v, t; try discriminate C.
    exists st, rest, b, rest'. split; [reflexivity|]. split; [exact P|]. exists st1. exact E.
  - exfalso. destruct (parse_task id_ord bump allocated st rest "<a") as [x| | |]; try discriminate C. exact (E x eq_refl).
Qed.

Definition no_exception (r : res (state * list ascii * bool)) : bool :=
  match r with Ok (_, _, b) => negb b | _ => false end.

Lemma no_exception_exists r : no_exception r = true -> exists st rest, r = Ok (st, rest, false).
Proof. destruct r as [[[st rest] [|]]| | |]; cbn; try discriminate. intros _. eexists _, _. reflexivity. Qed.

Lemma quiet_case : exists st rest,
  history id_ord bump allocated blank_state [] [sample; "<a"; "<(#x * $y * #z) --> #x>."] = Ok (st, rest, false).
Proof. apply no_exception_exists. vm_compute. reflexivity. Qed.

(* The confidence of the task an input stands for. *)
Definition confidence_of (st : state) (l : list ast) : option SpecFloat.spec_float :=
  match transform_all id_ord bump st l with
  | Ok (_, [VTask tk]) =>
      match truth_of (sentence_of tk) with Some t => Some (BinarySingleNaN.B2SF (Truth.co Float.ieee t : Float.float32)) | None => None end
  | _ => None
  end.

Definition certain_tree : list ast :=
  [Node "task" [Node "judgement" [
    Node "statement" [Node "atom_term" [Leaf "string_raw" "a"]; Node "inheritance" []; Node "atom_term" [Leaf "string_raw" "b"]];
    Node "truth" [Leaf "frequency" "1.0"; Leaf "confidence" "0.99999999"]]]].

Lemma certain_accepted : parse allocated [] "<a --> b>. %1.0;0.99999999%" = Ok (Accepted certain_tree, []).
Proof. vm_compute. reflexivity. Qed.

Lemma certain : confidence_of blank_state certain_tree = Some (SpecFloat.S754_finite false 8388608 (-23)).
Proof. vm_compute. reflexivity. Qed.

(* Their intervals: 2^32, the largest and the smallest int. *)
Lemma whole_cases : whole (list_ascii_of_string "4294967296") 4294967296 /\
  whole (list_ascii_of_string "2147483647") 2147483647 /\ whole (list_ascii_of_string "-2147483648") (-2147483648).
Proof.
  assert (D : forall l, forallb (fun c => (48 <=? nat_of_ascii c) && (nat_of_ascii c <=? 57))%nat l = true ->
    Forall decimal_digit l).
  { intros l H. apply Forall_forall. intros c I. rewrite forallb_forall in H. specialize (H _ I).
    apply andb_true_iff in H. rewrite !Nat.leb_le in H. unfold decimal_digit. lia. }
  split; [|split].
  - change 4294967296 with (number (list_ascii_of_string "4294967296")). constructor; [discriminate|apply D; reflexivity].
  - change 2147483647 with (number (list_ascii_of_string "2147483647")). constructor; [discriminate|apply D; reflexivity].
  - change (-2147483648) with (- number (list_ascii_of_string "2147483648")).
    apply (whole_minus (list_ascii_of_string "2147483648")); [discriminate|apply D; reflexivity].
Qed.
