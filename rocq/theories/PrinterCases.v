(* Printing: witnesses and instances. *)
From Coq Require Import ZArith Bool Lia String Ascii List Reals Lra.
From Flocq Require Import Core BinarySingleNaN.
From Verif Require Import Base Enums Term TermFacts Maps Float Truth Numeral Actions Printer PrinterSpec PrinterFacts PrinterFacts2 PrinterFacts3 ActionsCases.
From Verif Require Import Parser.
From Verif Require Interning InterningSpec InterningCases Evidence ActionsSpec.
Import ListNotations.
Open Scope string_scope.
Open Scope list_scope.
Local Open Scope Z_scope.

(* ---- a statement printed as an atom ---- *)

Definition clash : list Interning.act :=
  [Interning.Create "A" 94000000000000; Interning.Create "B" 94000000000176; Interning.Create "C" 94000580486176].

Lemma clash_history : InterningSpec.history InterningSpec.basic InterningSpec.apart (InterningCases.result clash).
Proof.
  apply (InterningCases.acts_history InterningCases.basicb InterningSpec.basic InterningCases.apartb InterningSpec.apart
           InterningCases.basicb_ok InterningCases.apartb_ok clash Interning.world0).
  - constructor.
  - vm_compute. reflexivity.
  - vm_compute. reflexivity.
Qed.

Lemma wrong_name : exists w a b c,
  InterningSpec.history InterningSpec.basic InterningSpec.apart w /\
  Interning.handles w = [Interning.Hd c "C"; Interning.Hd b "B"; Interning.Hd a "A"] /\
  interpret (dictionary_of (Interning.tab w)) false (Stmt Inheritance (Atom false a) (Atom false b)) = Ok "C".
Proof.
  exists (InterningCases.result clash), 94000000000000, 94000000000176, 94000580486176.
  split; [exact clash_history|]. split; vm_compute; reflexivity.
Qed.

(* ---- names ---- *)

Definition few : Interning.world :=
  InterningCases.result [Interning.Create "A" 4096; Interning.Create "B" 4160; Interning.ParseOp "go" 4224].
Definition few_names : Z -> option string := dictionary_of (Interning.tab few).

Definition atom_a := Atom false 4096.
Definition atom_b := Atom false 4160.
Definition op_go := Atom true 4224.

Definition example1 : term :=
  Stmt Implication
    (Comp Conjunction
       [Stmt Inheritance (Var Independent 0) atom_a; Comp ExtensionalSet [atom_a; atom_b];
        Stmt Inheritance (Comp Product [atom_b; Itv 5]) op_go])
    (Comp SequentialEvents [atom_b; Itv 7; atom_a]).

Ltac plainly := split; [discriminate|]; cbn; repeat (constructor; [split; [cbn; lia|cbn; intuition discriminate]|]); constructor.

Lemma plain_a : plain "A". Proof. plainly. Qed.
Lemma plain_b : plain "B". Proof. plainly. Qed.
Lemma plain_go : plain "go". Proof. plainly. Qed.

Lemma named_a : named few_names atom_a.
Proof. apply N_atom with "A"; [vm_compute; reflexivity|exact plain_a]. Qed.
Lemma named_b : named few_names atom_b.
Proof. apply N_atom with "B"; [vm_compute; reflexivity|exact plain_b]. Qed.

Lemma example1_named : named few_names example1.
Proof.
  apply N_statement; [vm_compute; reflexivity|reflexivity| |].
  - apply N_compound; [vm_compute; reflexivity|discriminate|]. constructor; [|constructor; [|constructor; [|constructor]]].
    + apply N_statement; [vm_compute; reflexivity|reflexivity|apply N_variable|exact named_a].
    + apply N_compound; [vm_compute; reflexivity|discriminate|].
      constructor; [exact named_a|constructor; [exact named_b|constructor]].
    + apply N_call with "go"; [vm_compute; reflexivity|vm_compute; reflexivity|exact plain_go|discriminate|].
      constructor; [exact named_b|constructor; [apply N_interval|constructor]].
  - apply N_compound; [vm_compute; reflexivity|discriminate|].
    constructor; [exact named_b|constructor; [apply N_interval|constructor; [exact named_a|constructor]]].
Qed.

Lemma example1_distinct : distinct few_names example1 example1.
Proof.
  intros op a b A B E. cbn in A, B.
  repeat (destruct A as [<-|A]; [repeat (destruct B as [<-|B]; [destruct op; vm_compute in E; first [reflexivity|discriminate E]|]); contradiction B|]).
  contradiction A.
Qed.

Definition call1 : term := Stmt Inheritance (Comp Product [atom_b; Itv 5]) op_go.

Lemma call1_named : named few_names call1.
Proof.
  apply N_call with "go"; [vm_compute; reflexivity|vm_compute; reflexivity|exact plain_go|discriminate|].
  constructor; [exact named_b|constructor; [apply N_interval|constructor]].
Qed.

Lemma call1_distinct : distinct few_names call1 call1.
Proof.
  intros op a b A B. apply example1_distinct; cbn in A, B |- *; tauto.
Qed.

Lemma example1_text : interpret few_names false example1 =
  Ok "<(&&, <$0 --> A>, {A, B}, (^go, B, +5)) ==> (&/, B, +7, A)>".
Proof. vm_compute. reflexivity. Qed.

(* ---- operation statements ---- *)

Definition one_subject (c : copula) : term := Stmt c (Comp Product [atom_a]) op_go.

Lemma operation_undefined : interpret few_names false (Stmt Inheritance atom_a op_go) = UB /\
  interpret few_names true (Stmt Inheritance atom_a op_go) = UB.
Proof. split; vm_compute; reflexivity. Qed.

Lemma operation_texts : exists s, interpret few_names false (one_subject Inheritance) = Ok s /\
  interpret few_names false (one_subject Implication) = Ok s /\
  interpret few_names false (Stmt Inheritance (Comp ExtensionalSet [atom_a]) op_go) = Ok s.
Proof. exists "(^go, A)". repeat split; vm_compute; reflexivity. Qed.

(* ---- intervals ---- *)

Lemma negative_interval : interpret few_names false (Comp SequentialEvents [atom_a; Itv (-5)]) = Ok "(&/, A, -5)" /\
  parse None [] "(&/, A, -5)." = Ok (Rejected, []).
Proof. split; vm_compute; reflexivity. Qed.

Lemma interval_lost : exists names l w, In (Itv (-5)) l /\
  interpret names false (Comp SequentialEvents l) = Ok w /\
  parse None [] (w ++ ".")%string = Ok (Rejected, []).
Proof.
  exists few_names, [atom_a; Itv (-5)], "(&/, A, -5)". split; [right; left; reflexivity|]. exact negative_interval.
Qed.

(* ---- coloured sentences ---- *)

Lemma coloured_never names st s w : interpret_sentence names true st s <> Ok w.
Proof.
  unfold interpret_sentence. destruct (interpret names true (content s)) as [a| | |]; try discriminate.
  cbn [bind]. destruct (interpret_truth true s) as [b| | |]; try discriminate. cbn [bind].
  destruct (fg color_punct (punct_repr (punct s)) []) as [c| | |]; try discriminate. cbn [bind].
  destruct (if Evidence.is_eternal (stamp_of s) then Ok "" else fg color_tense "{} " _) as [d| | |]; discriminate.
Qed.

Definition plain_question : sentence :=
  Sentence atom_a Question None (snd (Evidence.stamp_bool (store blank_state) true)).

Lemma question_prints : interpret_sentence few_names false (store blank_state) plain_question = Ok "A? " /\
  interpret_sentence few_names true (store blank_state) plain_question = Throw.
Proof. split; vm_compute; reflexivity. Qed.

(* ---- budgets ---- *)

Definition odd_task : task := Task (Budget B754_nan (of_Z64 2) (cfg 5555 10000)) plain_question.

Lemma odd_text : interpret_task few_names false (store blank_state) odd_task = Ok "$0.00;1.00;0.56$ A? ".
Proof. vm_compute. reflexivity. Qed.

(* ---- colours ---- *)

Definition braces : Z -> option string :=
  dictionary_of (Interning.tab (InterningCases.result [Interning.Create "{x}" 4096])).

Lemma braces_text : interpret braces false atom_a = Ok "{x}" /\ interpret braces true atom_a = Throw.
Proof. split; vm_compute; reflexivity. Qed.

Lemma instance_text : interpret few_names false (Stmt Instance atom_a atom_b) = Ok "<A {-- B>" /\
  interpret few_names true (Stmt Instance atom_a atom_b) = Throw.
Proof. split; vm_compute; reflexivity. Qed.

Lemma few_tame k s : few_names k = Some s -> tame s.
Proof.
  unfold few_names, dictionary_of.
  assert (E : forall l, Forall (fun x : Z * string => tame (snd x)) l -> lookup Z.eqb k l = Some s -> tame s).
  { induction 1 as [|[k' s'] l H F IH]; cbn; [discriminate|]. destruct (Z.eqb k k'); [intros E; injection E as <-; exact H|exact IH]. }
  apply E. apply Forall_forall. intros x I. vm_compute in I.
  repeat (destruct I as [<-|I]; [apply tameb_ok; vm_compute; reflexivity|]). contradiction I.
Qed.

Lemma example1_tame : tame_copulas example1.
Proof.
  assert (A : forall a, tame_copulas (Atom false a)) by (intros; constructor).
  repeat first [apply M_atom|apply M_variable|apply M_interval|apply M_statement; [apply tameb_ok; reflexivity| |]|apply M_compound|constructor].
Qed.

(* ---- tasks that cannot be read back ---- *)

Definition unreadable (input : string) : bool :=
  match parse_task id_ord bump allocated blank_state [] input with
  | Ok (st, [], Some (VTask tk), false) =>
      match interpret_task (dictionary_of (Interning.tab (atoms st))) false (store st) tk with
      | Ok w => match parse allocated [] w with Ok (Rejected, []) => true | _ => false end
      | _ => false
      end
  | _ => false
  end.

Lemma sure_checked : unreadable "A. %1.0;0.9996%" = true.
Proof. vm_compute. reflexivity. Qed.

Lemma unreadable_exists input : unreadable input = true -> exists st tk w,
  parse_task id_ord bump allocated blank_state [] input = Ok (st, [], Some (VTask tk), false) /\
  interpret_task (dictionary_of (Interning.tab (atoms st))) false (store st) tk = Ok w /\
  parse allocated [] w = Ok (Rejected, []).
Proof.
  unfold unreadable. destruct (parse_task id_ord bump allocated blank_state [] input) as [[[[st l] v] th]| | |]; try discriminate.
  destruct l; try discriminate. destruct v as [[]|]; try discriminate. destruct th; try discriminate.
  destruct (interpret_task (dictionary_of (Interning.tab (atoms st))) false (store st) t) as [w| | |] eqn:W; try discriminate.
  destruct (parse allocated [] w) as [[[] []]| | |] eqn:P; try discriminate. intros _.
  exists st, t, w. split; [reflexivity|]. split; [exact W|exact P].
Qed.

(* Two ties *)
Definition halves : sentence :=
  Sentence atom_a Goal (Some (Truth.Truth ieee (ActionsSpec.literal 1 16) (ActionsSpec.literal 13 16) (ActionsSpec.literal 1 1))) (stamp_of plain_question).
