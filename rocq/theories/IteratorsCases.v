(* Concrete cases for the iterators *)
From Coq Require Import ZArith String List Bool Lia Permutation.
From Verif Require Import Base Maps Term Printer Iterators IteratorsSpec IteratorsFacts IteratorsFacts2 IteratorsFacts3.
Import ListNotations.
Open Scope string_scope.
Open Scope list_scope.
Open Scope Z_scope.

Definition t1 := Atom false 4096.
Definition t2 := Atom false 4160.
Definition t3 := Atom false 4224.

(* A set of three members and a vector of two. *)
Definition two : containers := [(16, Container true [t1; t2; t3]); (48, Container false [t2; t1])].

(* One block of somebody else's. *)
Definition before : memory := Memory 8 [(3, Spot true 16 1)] 0.

Lemma before_sound : sound before.
Proof. split; [repeat constructor; intros []|]. intros a s [E|[]]. injection E as <- <-. reflexivity. Qed.

(* Both containers are walked over; the last member of the set is read. *)
Definition walking : list instr :=
  [Begin "x" 16; End "e" 16; Copy "y" "x"; Next "x"; Read "x"; Read "y"; Equal "x" "y"; Minus "l" "e" 1; Read "l";
   Begin "v" 48; Plus "w" "v" 2; End "u" 48; Differ "w" "u"; Gone 48; Drop "w"; Drop "u"; Drop "v";
   Drop "l"; Drop "y"; Drop "e"; Drop "x"].

Lemma walking_plain : forallb plain walking = true.
Proof. reflexivity. Qed.

Lemma walking_ideal : exists v, ideal (View two []) walking = Ok (v, [Saw t2; Saw t1; Told false; Saw t3; Told false]) /\ marks v = [].
Proof. eexists. split; vm_compute; reflexivity. Qed.

Lemma plain_programs cs h p : sound h -> forallb plain p = true ->
  match ideal (View cs []) p with
  | Ok (v, out) => exists h' m l, run (Machine cs []) p h = (h', Ok (m, out)) /\ conts m = boxes v /\ sound h' /\
      held (vars m) (marks v) l /\ Permutation (live h') (l ++ live h)
  | UB => exists h', run (Machine cs []) p h = (h', UB)
  | _ => False
  end.
Proof. intros S P. destruct (stepped_plain p P) as [E U]. pose proof (programs cs h p S U) as R. rewrite E in R. exact R. Qed.

(* ---- assignment ---- *)

Definition moving : list instr := [Begin "x" 16; End "y" 16; Assign "x" "y"; Drop "y"; Drop "x"].

Lemma moving_bad : forallb (fun i => match i with Post _ _ => false | _ => true end) moving = true /\
  exists v out h', ideal (View two []) moving = Ok (v, out) /\ marks v = [] /\ run (Machine two []) moving before = (h', UB).
Proof. split; [reflexivity|]. eexists _, _, _. split; [|split]; vm_compute; reflexivity. Qed.

Lemma standing : exists h' m, run (Machine two []) [Begin "x" 16; Assign "x" "x"; Read "x"; Drop "x"] before = (h', Ok (m, [Saw t1])) /\ vars m = [].
Proof. eexists _, _. split; vm_compute; reflexivity. Qed.

(* ---- x++ ---- *)

Lemma post_bad : forallb unassigned [Begin "x" 16; Post "y" "x"; Read "y"] = true /\
  (exists v, ideal (View two []) [Begin "x" 16; Post "y" "x"; Read "y"] = Ok (v, [Saw t1])) /\
  exists h' m, run (Machine two []) [Begin "x" 16; Post "y" "x"; Read "y"] before = (h', Ok (m, [Saw t2])).
Proof. split; [reflexivity|]. split; eexists; [|eexists]; vm_compute; reflexivity. Qed.

Lemma post_case : forallb unassigned [Begin "x" 16; Post "y" "x"; Next "y"; Read "x"; Read "y"; Drop "x"; Drop "y"] = true /\
  exists v, ideal (View two []) (flat_map stepped [Begin "x" 16; Post "y" "x"; Next "y"; Read "x"; Read "y"; Drop "x"; Drop "y"]) =
    Ok (v, [Saw t2; Saw t3]).
Proof. split; [reflexivity|]. eexists. vm_compute. reflexivity. Qed.

(* ---- deleting ---- *)

Lemma odd_delete : exists h' m, run (Machine two []) [Begin "x" 16; Drop "x"] before = (h', Ok (m, [])) /\ odd before = 0%nat /\ odd h' = 1%nat.
Proof. eexists _, _. split; [|split]; vm_compute; reflexivity. Qed.

Lemma walking_odd : exists h' m out, run (Machine two []) walking before = (h', Ok (m, out)) /\ odd h' = 7%nat /\ vars m = [].
Proof. eexists _, _, _. split; [|split]; vm_compute; reflexivity. Qed.

(* ---- loops ---- *)

Lemma there_set : lookup Z.eqb 16 two = Some (Container true [t1; t2; t3]).
Proof. reflexivity. Qed.

(* Takes two members and throws at the third. *)
Definition greedy (acc : list term) (t : term) : res (list term) :=
  if (length acc <? 2)%nat then Ok (acc ++ [t]) else Throw.

Lemma greedy_throws : folded greedy [t1; t2; t3] [] = Throw /\ folded greedy [t2; t1] [] = Ok [t2; t1].
Proof. split; reflexivity. Qed.

Lemma appended : append_strs false (fun t => Ok (if (match t with Atom _ w => w | _ => 0 end =? 4096) then "A" else "B")) [t1; t2; t3] = Ok "A, B, B".
Proof. vm_compute. reflexivity. Qed.

Lemma py_bad : exists h', py_for two 16 (Some 1%nat) before = (h', UB).
Proof. eexists. vm_compute. reflexivity. Qed.

Lemma py_bad_refuted : exists cs c k h n h', lookup Z.eqb c cs = Some k /\ sound h /\ py_for cs c (Some n) h = (h', UB).
Proof.
  destruct py_bad as (h' & E). exists two, 16, (Container true [t1; t2; t3]), before, 1%nat, h'.
  split; [reflexivity|]. split; [exact before_sound|exact E].
Qed.

Lemma post_refuted : exists cs p h v out h' m out', forallb unassigned p = true /\ sound h /\
  ideal (View cs []) p = Ok (v, out) /\ run (Machine cs []) p h = (h', Ok (m, out')) /\ out <> out'.
Proof.
  destruct post_bad as (U & (v & E) & h' & m & R). eexists two, _, before, v, _, h', m, _.
  split; [exact U|]. split; [exact before_sound|]. split; [exact E|]. split; [exact R|]. discriminate.
Qed.
