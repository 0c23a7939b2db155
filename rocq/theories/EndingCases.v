(* Concrete programs for the properties of edited tables and the end of the program. *)
From Coq Require Import ZArith List Bool String Lia.
From Verif Require Import Base Maps Interning InterningSpec InterningFacts InterningCases Ending EndingSpec
  EndingFacts EndingFacts2 EndingFacts3.
Import ListNotations.
Local Open Scope string_scope.
Local Open Scope Z_scope.

Definition properb (w : world) (m : move) : bool :=
  match m with
  | Act (Create _ a) => apartb w a
  | Act (ParseOp _ _) => false
  | _ => true
  end.

Lemma properb_ok w m : properb w m = true -> proper w m.
Proof.
  destruct m as [x|k|n|k|]; cbn [properb proper]; auto. destruct x as [n a|i|i|i j|n a]; cbn [no_op]; try discriminate.
  - intros E. split; [exact I|]. intros m b [X|X]; [|discriminate]. injection X as <- <-. apply apartb_ok. assumption.
  - split; [exact I|]. intros m b [X|X]; discriminate.
  - split; [exact I|]. intros m b [X|X]; discriminate.
  - split; [exact I|]. intros m b [X|X]; discriminate.
Qed.

Fixpoint moves (w : world) (ms : list move) : option world :=
  match ms with
  | [] => Some w
  | m :: ms' => if properb w m then match move_on w m with Ok w' => moves w' ms' | _ => None end else None
  end.

Definition is_reset (m : move) : bool := match m with ResetTable => true | _ => false end.

Lemma moves_course : forall ms w left w', course w left -> moves w ms = Some w' -> exists left', course w' left'.
Proof.
  induction ms as [|m ms IH]; intros w left w' C E; cbn [moves] in E.
  - injection E as <-. eauto.
  - destruct (properb w m) eqn:Pm; [|discriminate]. destruct (move_on w m) as [w2| | |] eqn:Em; try discriminate.
    destruct (is_reset m) eqn:Er.
    + destruct m; try discriminate. eapply IH; [|exact E]. eapply course_reset; eauto.
    + eapply IH; [|exact E]. eapply course_move; eauto; [apply properb_ok; assumption|]. intros ->. discriminate.
Qed.

Definition ends (ms : list move) : world := match moves world0 ms with Some w => w | None => world0 end.

Lemma ends_course ms : moves world0 ms <> None -> exists left, course (ends ms) left.
Proof.
  intros N. unfold ends. destruct (moves world0 ms) as [w|] eqn:E; [|congruence].
  eapply moves_course; [constructor|exact E].
Qed.

(* Two handles of a, the table emptied, a asked for again, b made and its name removed. *)
Definition edited : list move :=
  [Act (Create "a" 94000000000000); Act (Copy 0); ResetTable; Act (Create "a" 94000000000512);
   Act (Create "b" 94000000001024); Act (Create "c" 94000000001536); RemoveNamed "b"].

Lemma edited_runs : exists left, course (ends edited) left
  /\ map hname (handles (ends edited)) = ["c"; "b"; "a"; "a"; "a"]
  /\ map hat (handles (ends edited)) = [94000000001536; 94000000001024; 94000000000512; 94000000000000; 94000000000000]
  /\ map fst (inv (tab (ends edited))) = ["c"; "a"].
Proof.
  destruct (ends_course edited) as (left & C); [vm_compute; discriminate|]. exists left. split; [exact C|].
  vm_compute. auto.
Qed.

Lemma renamed : ~ (forall w left, course w left -> forall h h', In h (handles w) -> In h' (handles w) ->
  (hname h = hname h' <-> hat h = hat h')).
Proof.
  intros H. destruct (ends_course edited) as (left & C); [vm_compute; discriminate|].
  specialize (H _ _ C (Hd 94000000000512 "a") (Hd 94000000000000 "a")).
  assert (X : 94000000000512 = 94000000000000); [|discriminate].
  apply H; [| |reflexivity]; vm_compute; auto 10.
Qed.

(* Both handles of a destroyed after the table was emptied. *)
Definition orphan : list move :=
  [Act (Create "a" 94000000000000); Act (Create "b" 94000000001024); Act (Drop 0); ResetTable; Act (Drop 0)].

Lemma orphan_runs : exists left, course (ends orphan) left /\ handles (ends orphan) = [] /\ left 94000000000000.
Proof.
  destruct (ends_course orphan) as (left & C); [vm_compute; discriminate|]. exists left. split; [exact C|].
  split; [vm_compute; reflexivity|]. destruct (course_heap _ _ C) as (H & _).
  assert (X : on_heap (ends orphan) 94000000000000) by (vm_compute; auto).
  destruct (proj1 (H _) X) as [(k & p & E & _)|Y]; [|exact Y]. vm_compute in E. discriminate.
Qed.

Lemma not_all_freed : ~ (forall w left w', course w left -> handles w = [] -> finish_table w = Ok w' ->
  forall a, ~ live w' a).
Proof.
  intros H. destruct orphan_runs as (left & C & Eh & La).
  destruct (left_behind _ _ C) as (_ & _ & w' & E & _ & _ & Y).
  exact (H _ _ _ C Eh E 94000000000000 (proj2 (Y Eh 94000000000000) La)).
Qed.

Lemma ordinary_runs : history no_op apart (result overwrite)
  /\ map hname (handles (result overwrite)) = ["b"; "b"] /\ takes [0; 0]%nat (List.length (handles (result overwrite)))
  /\ without [0; 0]%nat (handles (result overwrite)) = []
  /\ exists w', finish_table (result overwrite) = Ok w' /\ map snd (held w') = [94000000000512]
     /\ late_all w' [Drop 0; Drop 0] = UB /\ late_all w' [Drop 0] <> UB.
Proof.
  split; [apply (acts_history no_opb no_op apartb apart no_opb_ok apartb_ok overwrite world0 (result overwrite) (hist_start _ _)); vm_compute; reflexivity|].
  split; [vm_compute; reflexivity|]. split; [vm_compute; repeat split; lia|]. split; [vm_compute; reflexivity|].
  eexists. split; [vm_compute; reflexivity|]. split; [vm_compute; reflexivity|]. split; [vm_compute; reflexivity|].
  vm_compute. discriminate.
Qed.

Lemma not_destroyed_late : ~ (forall w w' i, history no_op apart w -> finish_table w = Ok w' ->
  (i < List.length (handles w))%nat -> exists w2, late_act w' (Drop i) = Ok w2).
Proof.
  intros H. set (w := result [Create "a" 94000000000000]).
  assert (C : history no_op apart w).
  { apply (acts_history no_opb no_op apartb apart no_opb_ok apartb_ok [Create "a" 94000000000000] world0 w (hist_start _ _)); vm_compute; reflexivity. }
  destruct (finish_table w) as [w'| | |] eqn:E; try (vm_compute in E; discriminate).
  destruct (H w w' 0%nat C E) as (w2 & X); [vm_compute; lia|].
  vm_compute in E. injection E as <-. vm_compute in X. discriminate.
Qed.

Lemma two_registered : exists left h h', course (ends edited) left
  /\ In h (handles (ends edited)) /\ In h' (handles (ends edited))
  /\ registered (ends edited) (hat h) /\ registered (ends edited) (hat h') /\ hname h <> hname h'
  /\ apart (ends edited) 94000000002048 /\ live (ends edited) 94000000001024.
Proof.
  destruct edited_runs as (left & C & _). exists left, (Hd 94000000001536 "c"), (Hd 94000000000512 "a").
  split; [exact C|]. split; [vm_compute; auto 10|]. split; [vm_compute; auto 10|].
  split; [exists (key_of 94000000001536); eexists; split; vm_compute; reflexivity|].
  split; [exists (key_of 94000000000512); eexists; split; vm_compute; reflexivity|].
  split; [discriminate|]. split; [apply apartb_ok; vm_compute; reflexivity|]. vm_compute. auto 10.
Qed.
