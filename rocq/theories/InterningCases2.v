(* Instances for what goes right in the symbol table. *)
From Coq Require Import ZArith List Bool String Ascii Lia.
From Verif Require Import Base Hash Enums Term Maps MapsFacts Interning InterningSpec InterningFacts InterningFacts2
  InterningCases InterningSpec2.
Import ListNotations.
Local Open Scope string_scope.
Local Open Scope Z_scope.

Definition base0 : Z := 94000000000000.
Definition windowb (w : world) (a : Z) : bool :=
  negb (liveb w a) && (base0 <=? a) && (a <? base0 + 4294967296).
Definition near : list act :=
  [Create "a" 94000000000000; Create "b" 94004294967295; Copy 1; Assign 0 1; Drop 2; Create "c" 94000000000008].
Lemma near_history : history no_op (window base0) (result near) /\
  map hname (handles (result near)) = ["c"; "b"; "b"].
Proof.
  split; [|vm_compute; reflexivity].
  eapply (acts_history no_opb no_op windowb (window base0)); [apply no_opb_ok| |constructor| |].
  - intros w a H. unfold windowb in H. rewrite !andb_true_iff, negb_true_iff, Z.leb_le, Z.ltb_lt in H.
    split; [apply liveb_ok; tauto|tauto].
  - instantiate (1 := near). vm_compute. reflexivity.
  - vm_compute. reflexivity.
Qed.

Lemma overwriting_case : overwriting (result overwrite) ["a"] /\ map hname (handles (result overwrite)) = ["b"; "b"].
Proof.
  split; [|vm_compute; reflexivity].
  set (w1 := result [Create "a" 94000000000000]).
  set (w2 := result [Create "a" 94000000000000; Create "b" 94000000000512]).
  assert (O1 : overwriting w1 []).
  { apply (ow_step world0 [] (Create "a" 94000000000000) w1 ow_start I).
    - intros n a [X|X]; [|discriminate]. injection X as _ <-. apply apartb_ok. vm_compute. reflexivity.
    - vm_compute. reflexivity. }
  assert (O2 : overwriting w2 []).
  { apply (ow_step w1 [] (Create "b" 94000000000512) w2 O1 I).
    - intros n a [X|X]; [|discriminate]. injection X as _ <-. apply apartb_ok. vm_compute. reflexivity.
    - vm_compute. reflexivity. }
  apply (ow_step w2 [] (Assign 1 0) (result overwrite) O2 I).
  - intros n a [X|X]; discriminate.
  - vm_compute. reflexivity.
Qed.

(* ^go, then go is dropped and both are made again *)
Definition ops_story : list act := [ParseOp "go" 94000000000000; Create "go" 94000000000512; ParseOp "go" 94000000001024].
Lemma ops_case : op_history (result ops_story) /\
  map hname (handles (result ops_story)) = ["^go"; "go"; "^go"] /\
  map hat (handles (result ops_story)) = [94000000000000; 94000000000512; 94000000000000].
Proof.
  split; [|split; vm_compute; reflexivity].
  set (w1 := result [ParseOp "go" 94000000000000]).
  set (w2 := result [ParseOp "go" 94000000000000; Create "go" 94000000000512]).
  assert (O1 : op_history w1).
  { apply (oph_step world0 (ParseOp "go" 94000000000000) w1 oph_start).
    - split; intros (h & [] & _).
    - intros n a [X|X]; [discriminate|]. injection X as _ <-. apply apartb_ok. vm_compute. reflexivity.
    - vm_compute. reflexivity. }
  assert (O2 : op_history w2).
  { apply (oph_step w1 (Create "go" 94000000000512) w2 O1 I).
    - intros n a [X|X]; [|discriminate]. injection X as _ <-. apply apartb_ok. vm_compute. reflexivity.
    - vm_compute. reflexivity. }
  apply (oph_step w2 (ParseOp "go" 94000000001024) (result ops_story) O2).
  - split; intros _; [exists (Hd 94000000000000 "^go") | exists (Hd 94000000000512 "go")];
      (split; [vm_compute; auto | reflexivity]).
  - intros n a [X|X]; [discriminate|]. injection X as _ <-. apply apartb_ok. vm_compute. reflexivity.
  - vm_compute. reflexivity.
Qed.
