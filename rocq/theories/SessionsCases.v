(* Sessions: witnesses and instances. *)
From Coq Require Import ZArith String Ascii List Bool Lia Permutation.
From Verif Require Import Base Enums Hash Term TermFacts Maps Compound CompoundFacts Parser ParserSpec Actions ActionsCases Printer PrinterSpec.
From Verif Require Import Forms FormCases Sessions SessionsSpec SessionsFacts2 SessionsFacts3 SessionsFacts4 SessionsFacts5.
From Verif Require Import Interning InterningSpec InterningFacts2 InterningCases.
Import ListNotations.
Open Scope string_scope.
Open Scope list_scope.
Open Scope Z_scope.

(* ---- allocators ---- *)

(* The address whose key would be 0, modulo 2^32. *)
Definition zero_residue : Z := (golden - atomK) mod 4294967296.

Lemma zero_residue_key : key_of zero_residue = 0.
Proof. vm_compute. reflexivity. Qed.

(* The first free place from 16 times 2^32 on *)
Definition thoughtful_fresh (w : world) : Z :=
  68719476736 + first_free (S (length (zero_residue :: residues w))) 0 (zero_residue :: residues w).

Lemma live_residue w a : live w a -> In (a mod 4294967296) (residues w).
Proof.
  intros L. unfold residues. apply in_or_app. destruct L as [L|L]; [left|right];
    apply in_map_iff in L as (e & <- & I); apply in_map_iff; exists e; split; auto.
Qed.

Lemma thoughtful_fresh_thoughtful : thoughtful thoughtful_fresh.
Proof.
  intros w P. pose proof (first_free_stop _ _ 0 (first_free_bound (zero_residue :: residues w) 0)) as St.
  pose proof (first_free_range (S (length (zero_residue :: residues w))) (zero_residue :: residues w) 0) as R.
  pose proof (first_free_bound (zero_residue :: residues w) 0) as B.
  assert (X : Z.of_nat (length (residues w)) = population w).
  { unfold residues, population. rewrite app_length, !map_length. lia. }
  cbn [length] in R, B, St. unfold thoughtful_fresh. cbn [length].
  set (k := first_free (S (S (length (residues w)))) 0 (zero_residue :: residues w)) in *.
  assert (M : (68719476736 + k) mod 4294967296 = k).
  { replace (68719476736 + k) with (k + 16 * 4294967296) by lia. rewrite Z.mod_add by lia. apply Z.mod_small. lia. }
  split.
  - intros a L E. apply St. right. rewrite M in E. rewrite E. apply live_residue. exact L.
  - intros E. rewrite <- zero_residue_key in E. apply key_inj in E. rewrite M in E. apply St. left.
    rewrite E. symmetry. apply Z.mod_small. unfold zero_residue. apply Z.mod_pos_bound. lia.
Qed.

(* Wishes are granted if they can be. *)
Definition placeable (w : world) (a : Z) : bool :=
  negb (existsb (Z.eqb (a mod 4294967296)) (residues w)) && negb (key_of a =? 0).

Definition wishing (wishes : list Z) (w : world) : Z :=
  match find (placeable w) wishes with Some a => a | None => thoughtful_fresh w end.

Lemma free_placed w a : placeable w a = true -> well_placed w a.
Proof.
  unfold placeable. rewrite andb_true_iff, !negb_true_iff. intros [A B]. split.
  - intros b L E. apply not_true_iff_false in A. apply A, existsb_exists. exists (b mod 4294967296).
    split; [apply live_residue; exact L|apply Z.eqb_eq; exact E].
  - apply Z.eqb_neq. exact B.
Qed.

Lemma wishing_thoughtful wishes : thoughtful (wishing wishes).
Proof.
  intros w P. unfold wishing. destruct (find (placeable w) wishes) as [a|] eqn:E.
  - apply find_some in E as [_ E]. apply free_placed. exact E.
  - apply thoughtful_fresh_thoughtful. exact P.
Qed.

(* ---- histories ---- *)

Definition no_assignb (x : act) : bool := match x with Assign _ _ => false | _ => true end.

Lemma no_assignb_ok x : no_assignb x = true -> no_assign x.
Proof. destruct x; cbn; intros H; try exact I. discriminate H. Qed.

(* Two operators ^go; the newer one goes. *)
Definition two_operators : list act := [ParseOp "go" 94000000000000; ParseOp "go" 94000000000176; Drop 0].

Lemma two_operators_history : history no_assign well_placed (result two_operators).
Proof.
  apply (acts_history no_assignb no_assign placeable well_placed no_assignb_ok free_placed two_operators world0).
  - constructor.
  - vm_compute. reflexivity.
  - vm_compute. reflexivity.
Qed.

Lemma operator_forgotten : exists w n a, history no_assign well_placed w /\ In (Hd a n) (handles w) /\
  check_by_name (tab w) n = false /\ lookup Z.eqb (key_of a) (dict (tab w)) = Some n.
Proof.
  exists (result two_operators), "^go", 94000000000000. split; [exact two_operators_history|].
  vm_compute. split; [left; reflexivity|split; reflexivity].
Qed.

(* Two atoms and an operator, with a copy of the first *)
Definition some_acts : list act :=
  [Create "robin" 94000000000000; ParseOp "go" 94000000000176; Copy 1; Create "bird" 94000000000352; Create "robin" 94000000000528; Drop 2].

Lemma some_history : history no_assign well_placed (result some_acts).
Proof.
  apply (acts_history no_assignb no_assign placeable well_placed no_assignb_ok free_placed some_acts world0).
  - constructor.
  - vm_compute. reflexivity.
  - vm_compute. reflexivity.
Qed.

(* ---- sessions ---- *)

Definition is_ok {A} (r : res A) : bool := match r with Ok _ => true | _ => false end.
Definition got {A} (d : A) (r : res A) : A := match r with Ok x => x | _ => d end.
Lemma got_ok {A} (d : A) r : is_ok r = true -> r = Ok (got d r).
Proof. destruct r; cbn; intros H; try discriminate H. reflexivity. Qed.

Lemma id_any_order : any_order id_ord.
Proof. intros m. apply Permutation_refl. Qed.

Definition relation_case (a b : string) : task_form * nat * list nat :=
  (Written [] (Relation true Inheritance (Word a) (Word b)) Judgement None [], O, [0; 0; 0; 0; 0; 0]%nat).
Definition word_case (a : string) : task_form * nat * list nat :=
  (Written [] (Word a) Judgement None [], O, [0; 0]%nat).

Lemma relation_alone a b : In a ["A"; "B"; "C"] -> In b ["A"; "B"; "C"] -> alone allocated (relation_case a b).
Proof.
  intros A B.
  assert (Wo : forall c, In c ["A"; "B"; "C"] -> word c).
  { intros c I. left. cbn in I. repeat (destruct I as [ <- |I]; [split; [discriminate|]; repeat (apply Forall_cons; [split; [cbn; lia|cbn; intuition discriminate]|]); apply Forall_nil|]). contradiction. }
  split; [|split; [|split]].
  - right. split; [reflexivity|]. repeat (destruct A as [<-|A]; [repeat (destruct B as [<-|B]; [cbn; lia|]); contradiction|]). contradiction.
  - split; [|reflexivity]. apply usual_proper; [|discriminate]. apply F_relation; apply F_word, Wo; assumption.
  - cbn. lia.
  - intros s [].
Qed.

Lemma word_alone a : In a ["A"; "B"; "C"] -> alone allocated (word_case a).
Proof.
  intros A.
  assert (Wo : forall c, In c ["A"; "B"; "C"] -> word c).
  { intros c I. left. cbn in I. repeat (destruct I as [ <- |I]; [split; [discriminate|]; repeat (apply Forall_cons; [split; [cbn; lia|cbn; intuition discriminate]|]); apply Forall_nil|]). contradiction. }
  split; [|split; [|split]].
  - right. split; [reflexivity|]. repeat (destruct A as [<-|A]; [cbn; lia|]). contradiction.
  - split; [|reflexivity]. apply usual_proper; [|discriminate]. apply F_word, Wo; assumption.
  - cbn. lia.
  - intros s [].
Qed.

Lemma alone_allows d x : alone allocated x -> operators (body (task_in x)) = [] ->
  population (atoms (reader d)) + 2 * Z.of_nat (mentions (body (task_in x))) < 4294967295 -> allowed allocated d x.
Proof.
  intros (R & P & _) E M. split; [exact R|]. split; [exact P|]. split; [exact M|]. intros s H. rewrite E in H. destruct H.
Qed.

(* An allocator that places the third atom where the key of <A-->B> is *)
Definition unlucky : world -> Z := wishing [94000000000000; 94000000000176; 94000580486176].

Definition start : desk := Desk blank_state [] [].
Definition after1 : desk := got start (read_text id_ord unlucky allocated start (text_for (relation_case "A" "B"))).
Definition after2 : desk := got start (read_text id_ord unlucky allocated after1 (text_for (word_case "C"))).

Lemma after1_ok : read_text id_ord unlucky allocated start (text_for (relation_case "A" "B")) = Ok after1.
Proof. apply got_ok. vm_compute. reflexivity. Qed.
Lemma after2_ok : read_text id_ord unlucky allocated after1 (text_for (word_case "C")) = Ok after2.
Proof. apply got_ok. vm_compute. reflexivity. Qed.

Lemma start_orderly fresh : orderly id_ord fresh allocated start.
Proof. apply or_start. reflexivity. Qed.

Lemma after1_orderly : orderly id_ord unlucky allocated after1.
Proof.
  eapply or_read; [apply start_orderly| |exact after1_ok]. apply alone_allows; [apply relation_alone; cbn; tauto|reflexivity|reflexivity].
Qed.

Lemma after2_allowed : allowed allocated after1 (word_case "C").
Proof. apply alone_allows; [apply word_alone; cbn; tauto|reflexivity|vm_compute; reflexivity]. Qed.

Lemma after2_orderly : orderly id_ord unlucky allocated after2.
Proof. eapply or_read; [exact after1_orderly|exact after2_allowed|exact after2_ok]. Qed.

Definition nothing : kept := Kept VNull O.
Definition first_item : kept := nth 0 (items after1) nothing.
Definition no_task : task := Task (new_budget (Float.of_Z64 0) (Float.of_Z64 0) (Float.of_Z64 0))
  (Sentence (Itv 0) Question None (Evidence.Stamp None 0 0 0 true)).
Definition first_task : task := match item first_item with VTask t => t | _ => no_task end.

Lemma first_item_task : item first_item = VTask first_task.
Proof.
  assert (E : (match item first_item with VTask _ => true | _ => false end) = true) by (vm_compute; reflexivity).
  unfold first_task. destruct (item first_item); try discriminate E. reflexivity.
Qed.

Lemma first_there : nth_error (items after1) 0 = Some first_item.
Proof.
  assert (E : List.length (items after1) = 1%nat) by (vm_compute; reflexivity).
  unfold first_item. destruct (items after1) as [|x l]; [discriminate E|]. reflexivity.
Qed.

Lemma onward2 : onward id_ord unlucky allocated first_item after1 after2.
Proof.
  apply (on_step _ _ _ _ _ after1 (Read (text_for (word_case "C"))) after2 0).
  - apply on_here. exact (nth_error_In _ _ first_there).
  - destruct (orderly_settled id_ord id_any_order unlucky (wishing_thoughtful _) allocated after1 after1_orderly) as [S _].
    destruct (settled_read id_ord id_any_order unlucky (wishing_thoughtful _) allocated after1 (word_case "C") S after2_allowed)
      as [(d' & _ & _ & U & _)|(E & _)]; [exact U|]. rewrite after2_ok in E. discriminate E.
  - exact after2_ok.
  - exact first_there.
  - discriminate.
Qed.

Lemma reached1 : reached id_ord unlucky allocated after1.
Proof. exact (proj2 (orderly_settled id_ord id_any_order unlucky (wishing_thoughtful _) allocated after1 after1_orderly)). Qed.

Lemma text_before : interpret_task (names_at after1) false (store (reader after1)) first_task = Ok (line "<A --> B>").
Proof. vm_compute. reflexivity. Qed.
Lemma text_after : interpret_task (names_at after2) false (store (reader after2)) first_task = Ok (line "C").
Proof. vm_compute. reflexivity. Qed.

(* A longer session with another allocator: <A-->B>. is read, then a task with
   an operation, and the first task goes. *)
Definition example_case : task_form * nat * list nat := (example_task, 1%nat, example_pads).

Lemma example_alone : alone allocated example_case.
Proof.
  split; [exact example_room|]. split; [split; [exact example_proper|vm_compute; reflexivity]|]. split; [vm_compute; reflexivity|].
  intros s H. exact (proj1 (example_names s H)).
Qed.

Definition later1 : desk := got start (read_text id_ord thoughtful_fresh allocated start (text_for (relation_case "A" "B"))).
Definition later2 : desk := got start (read_text id_ord thoughtful_fresh allocated later1 (text_for example_case)).
Definition later3 : desk := got start (release later2 1).

Lemma later1_ok : read_text id_ord thoughtful_fresh allocated start (text_for (relation_case "A" "B")) = Ok later1.
Proof. apply got_ok. vm_compute. reflexivity. Qed.
Lemma later2_ok : read_text id_ord thoughtful_fresh allocated later1 (text_for example_case) = Ok later2.
Proof. apply got_ok. vm_compute. reflexivity. Qed.
Lemma later3_ok : release later2 1 = Ok later3.
Proof. apply got_ok. vm_compute. reflexivity. Qed.

Lemma later1_orderly : orderly id_ord thoughtful_fresh allocated later1.
Proof.
  eapply or_read; [apply start_orderly| |exact later1_ok]. apply alone_allows; [apply relation_alone; cbn; tauto|reflexivity|reflexivity].
Qed.

Lemma example_allowed : allowed allocated later1 example_case.
Proof.
  destruct example_alone as (R & P & _ & N). split; [exact R|]. split; [exact P|]. split; [vm_compute; reflexivity|].
  intros s H. split; [exact (N s H)|]. destruct H as [ <- |[]]. vm_compute. reflexivity.
Qed.

Lemma later2_orderly : orderly id_ord thoughtful_fresh allocated later2.
Proof. eapply or_read; [exact later1_orderly|exact example_allowed|exact later2_ok]. Qed.

Lemma later3_orderly : orderly id_ord thoughtful_fresh allocated later3.
Proof. eapply or_release; [exact later2_orderly|exact later3_ok]. Qed.

Lemma later3_items : List.length (items later3) = 1%nat.
Proof. vm_compute. reflexivity. Qed.

Lemma later3_allows : allowed allocated later3 example_case.
Proof.
  destruct example_alone as (R & P & _ & N). split; [exact R|]. split; [exact P|]. split; [vm_compute; reflexivity|].
  intros s H. split; [exact (N s H)|]. destruct H as [ <- |[]]. vm_compute. reflexivity.
Qed.

Lemma later3_reached : reached id_ord thoughtful_fresh allocated later3.
Proof. exact (proj2 (orderly_settled id_ord id_any_order thoughtful_fresh thoughtful_fresh_thoughtful allocated later3 later3_orderly)). Qed.

Lemma later1_reached : reached id_ord thoughtful_fresh allocated later1.
Proof. exact (proj2 (orderly_settled id_ord id_any_order thoughtful_fresh thoughtful_fresh_thoughtful allocated later1 later1_orderly)). Qed.

Definition item1 : kept := nth 0 (items later1) nothing.
Definition task1 : task := match item item1 with VTask t => t | _ => no_task end.

Lemma item1_task : item item1 = VTask task1.
Proof.
  assert (E : (match item item1 with VTask _ => true | _ => false end) = true) by (vm_compute; reflexivity).
  unfold task1. destruct (item item1); try discriminate E. reflexivity.
Qed.

Lemma item1_there : nth_error (items later1) 0 = Some item1.
Proof.
  assert (E : List.length (items later1) = 1%nat) by (vm_compute; reflexivity).
  unfold item1. destruct (items later1) as [|x l]; [discriminate E|]. reflexivity.
Qed.

Lemma onward_later : onward id_ord thoughtful_fresh allocated item1 later1 later2.
Proof.
  apply (on_step _ _ _ _ _ later1 (Read (text_for example_case)) later2 0).
  - apply on_here. exact (nth_error_In _ _ item1_there).
  - destruct (orderly_settled id_ord id_any_order thoughtful_fresh thoughtful_fresh_thoughtful allocated later1 later1_orderly) as [S _].
    destruct (settled_read id_ord id_any_order thoughtful_fresh thoughtful_fresh_thoughtful allocated later1 example_case S example_allowed)
      as [(d' & _ & _ & U & _)|(E & _)]; [exact U|]. rewrite later2_ok in E. discriminate E.
  - exact later2_ok.
  - exact item1_there.
  - discriminate.
Qed.

Lemma later_unshadowed : unshadowed (names_at later1) (content (sentence_of task1)) /\ unshadowed (names_at later2) (content (sentence_of task1)).
Proof. vm_compute. tauto. Qed.

(* The text of a kept task changes *)
Lemma text_changes : exists ord fresh room it t d d' s s', any_order ord /\ thoughtful fresh /\
  reached ord fresh room d /\ onward ord fresh room it d d' /\ item it = VTask t /\
  interpret_task (names_at d) false (store (reader d)) t = Ok s /\
  interpret_task (names_at d') false (store (reader d')) t = Ok s' /\ s <> s'.
Proof.
  exists id_ord, unlucky, allocated, first_item, first_task, after1, after2, (line "<A --> B>"), (line "C").
  split; [exact id_any_order|]. split; [apply wishing_thoughtful|]. split; [exact reached1|]. split; [exact onward2|].
  split; [exact first_item_task|]. split; [exact text_before|]. split; [exact text_after|]. discriminate.
Qed.

(* What main prints depends on where the atoms are. *)
Definition upward : world -> Z := wishing [94000000000000; 94000000000176].
Definition downward : world -> Z := wishing [94000000000176; 94000000000000].

Definition lines_of (fresh : world -> Z) : list string :=
  snd (got (start, []) (rounds id_ord fresh allocated start test_cases)).

Lemma lines_ok fresh : is_ok (rounds id_ord fresh allocated start test_cases) = true ->
  exists d, rounds id_ord fresh allocated start test_cases = Ok (d, lines_of fresh).
Proof.
  intros H. apply (got_ok (start, [])) in H. exists (fst (got (start, []) (rounds id_ord fresh allocated start test_cases))).
  unfold lines_of. rewrite <- surjective_pairing. exact H.
Qed.

Lemma lines_differ : exists fresh1 fresh2 st d1 d2 out1 out2, thoughtful fresh1 /\ thoughtful fresh2 /\ atoms st = world0 /\
  rounds id_ord fresh1 allocated (Desk st [] []) test_cases = Ok (d1, out1) /\
  rounds id_ord fresh2 allocated (Desk st [] []) test_cases = Ok (d2, out2) /\ out1 <> out2.
Proof.
  destruct (lines_ok upward) as (d1 & E1); [vm_compute; reflexivity|].
  destruct (lines_ok downward) as (d2 & E2); [vm_compute; reflexivity|].
  exists upward, downward, blank_state, d1, d2, (lines_of upward), (lines_of downward).
  split; [apply wishing_thoughtful|]. split; [apply wishing_thoughtful|]. split; [reflexivity|].
  split; [exact E1|]. split; [exact E2|].
  assert (L : (if list_eq_dec string_dec (lines_of upward) (lines_of downward) then true else false) = false) by (vm_compute; reflexivity).
  destruct (list_eq_dec string_dec (lines_of upward) (lines_of downward)) as [|N]; [discriminate L|exact N].
Qed.

Lemma some_names : map hname (handles (result some_acts)) = ["robin"; "bird"; "^go"; "robin"].
Proof. vm_compute. reflexivity. Qed.

Lemma some_alone : Forall (alone allocated) [relation_case "A" "B"; example_case; word_case "C"].
Proof.
  apply Forall_cons; [apply relation_alone; cbn; tauto|]. apply Forall_cons; [exact example_alone|].
  apply Forall_cons; [apply word_alone; cbn; tauto|apply Forall_nil].
Qed.
