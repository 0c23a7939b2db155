From Coq Require Import ZArith List Bool Lia.
From Verif Require Import Base Float Truth Maps Term Kinds KindsSpec KindsFacts KindsFacts2.
From Verif Require Evidence Actions.
Import ListNotations.
Local Open Scope nat_scope.

Lemma kinds_no : forall m c t,
  (exists w s, run (start m) [(c, NewSentence t Actions.Judgement None None)] = Ok w /\
     look w 0 = Ok s /\ s_punct s = Actions.Judgement /\ s_truth s = None) /\
  (exists w s, run (start m) [(c, NewJudgement t None None); (c, Move 0)] = Ok w /\
     look w 0 = Ok s /\ s_punct s = Actions.Judgement /\ s_truth s = None /\ s_stamp s = None).
Proof. intros m c t. split; do 2 eexists; (split; [reflexivity|]); (split; [reflexivity|]); repeat split. Qed.

Lemma desire_no : forall m c t,
  (exists w, run (start m) [(c, NewGoal t None None); (c, Copy 0); (c, SetTruth 1 (Some 5))] = Ok w /\
     read_truth w 1 = Ok (Some 5) /\ read_desire w 1 = Ok (Some 0)) /\
  (exists w, run (start m) [(c, NewGoal t None None); (c, Move 0)] = Ok w /\
     read_truth w 1 = Ok (Some 0) /\ read_desire w 1 = Ok None) /\
  (exists w, run (start m) [(c, NewGoal t None None); (c, Copy 0); (c, Delete 0)] = Ok w /\
     read_truth w 1 = Ok (Some 0) /\ read_desire w 1 = UB).
Proof. intros m c t. repeat split; eexists; (split; [reflexivity|]); split; reflexivity. Qed.

(* A program with sentences of all classes, copies, an assignment and an end. *)
Definition some_config : config := Config Actions.cfg_f Actions.cfg_c_judgement Actions.cfg_c_goal Actions.cfg_k.
Definition some_memory : Evidence.store := Evidence.Store (fun _ => []) (fun _ => Evidence.Base 0 0 false) 1 1 0 0.
Definition bird : term := Atom false 16.
Definition program : list (config * op) :=
  map (pair some_config)
    [NewQuestion bird None; NewGoal bird None None; Copy 1; NewJudgement bird (Some 9) None;
     Slice 2; Assign 0 3; NewQuest bird (Some 4); Copy 2; Delete 1].

Definition runs (l : list (config * op)) : bool :=
  match run (start some_memory) l with Ok _ => true | _ => false end.
Lemma runs_ok : forall l, runs l = true -> exists w, run (start some_memory) l = Ok w.
Proof. intros l. unfold runs. destruct (run (start some_memory) l); [eauto|discriminate..]. Qed.

Lemma program_runs : exists w, run (start some_memory) program = Ok w.
Proof. apply runs_ok. vm_compute. reflexivity. Qed.

Lemma program_careful : Forall careful (map snd program).
Proof. repeat constructor. Qed.

Lemma program_replacing : Forall replacing (map snd (program ++ [(some_config, SetTruth 5 (Some 3))])) /\
  exists w, run (start some_memory) (program ++ [(some_config, SetTruth 5 (Some 3))]) = Ok w.
Proof.
  split; [|apply runs_ok; vm_compute; reflexivity].
  repeat constructor; discriminate.
Qed.

Lemma program_living : living program 6 /\ comes_from program 6 1 /\ ~ living program 1.
Proof.
  repeat split.
  - cbn. lia.
  - cbn. intuition discriminate.
  - eapply Copied with (m := 2); [reflexivity|lia|].
    eapply Copied with (m := 1); [reflexivity|lia|].
    eapply Made. reflexivity.
  - intros [_ H]. apply H. cbn. tauto.
Qed.

Lemma program_untouched : exists l1 l2, program = l1 ++ (some_config, NewJudgement bird (Some 9) None) :: l2 /\
  length (makings l1) = 3 /\ untouched (l1 ++ [(some_config, NewJudgement bird (Some 9) None)]) l2 3.
Proof.
  exists (firstn 3 program), (skipn 4 program). repeat split.
  intros x H. cbn in H. intuition (subst; cbn; auto; discriminate).
Qed.

Lemma goal_made : nth_error (makings (firstn 8 program)) 1 = Some (NewGoal bird None None) /\
  living (firstn 8 program) 1 /\ exists w, run (start some_memory) (firstn 8 program) = Ok w.
Proof.
  repeat split.
  - cbn. lia.
  - cbn. intuition discriminate.
  - apply runs_ok. vm_compute. reflexivity.
Qed.
