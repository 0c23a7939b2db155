(* Evidential bases and stamps: witnesses and instances. *)
From Coq Require Import ZArith List Bool Sorting.Sorted Lia.
From Verif Require Import Base Hash Evidence EvidenceSpec EvidenceFacts EvidenceFacts2 EvidenceFacts3.
Import ListNotations.
Local Open Scope Z_scope.

Definition the_store (r : res store) : store := match r with Ok st => st | _ => start 0 end.

(* A Base on {1,2,3}, one on {3,4} and one with a fresh id. *)
Definition after1 (t : Z) : store := fst (new_base_of (start t) [1; 2; 3]).
Definition after2 (t : Z) : store := fst (new_base_of (after1 t) [3; 4]).
Definition after3 (t : Z) : store := fst (new_base (after2 t)).

Lemma more maximum duration (P : kind -> Prop) st st' st'' k n n' m :
  steps maximum duration P st n st' -> P k -> step maximum duration st' k n' st'' ->
  m = n + n' -> steps maximum duration P st m st''.
Proof. intros H Hk Hs ->. eapply steps_more; eauto. Qed.

Lemma after1_steps maximum duration t : steps maximum duration plain (start t) 0 (after1 t).
Proof.
  eapply (more _ _ _ _ _ _ Make); [apply steps_none|exact I| |reflexivity].
  apply step_of with (s := [1; 2; 3]) (b := 1); [repeat constructor; lia|reflexivity].
Qed.

Lemma after2_steps maximum duration t : steps maximum duration plain (start t) 0 (after2 t).
Proof.
  eapply (more _ _ _ _ _ _ Make); [apply after1_steps|exact I| |reflexivity].
  apply step_of with (s := [3; 4]) (b := 2); [repeat constructor; lia|reflexivity].
Qed.

Lemma after3_steps maximum duration t : steps maximum duration plain (start t) 1 (after3 t).
Proof.
  eapply (more _ _ _ _ _ _ Make); [apply after2_steps|exact I| |reflexivity].
  apply step_new with (b := 3). reflexivity.
Qed.

Lemma plain_any maximum duration st n st' :
  steps maximum duration plain st n st' -> steps maximum duration any st n st'.
Proof.
  induction 1; [constructor|]. eapply steps_more; eauto. exact I.
Qed.

Lemma after3_reached maximum duration t : 0 <= t < two64 -> reached maximum duration (after3 t).
Proof.
  intros Ht. exists t, 1. split; auto. apply plain_any, after3_steps.
Qed.

Lemma now_ok : 0 <= 10 < two64.
Proof. split; [lia|reflexivity]. Qed.

Lemma after3_ids : ids (after3 10) 1 = [1; 2; 3] /\ ids (after3 10) 2 = [3; 4] /\ ids (after3 10) 3 = [0]
  /\ made (after3 10) 1 /\ made (after3 10) 2 /\ made (after3 10) 3
  /\ separate (after3 10) 3 1 /\ separate (after3 10) 3 2 /\ separate (after3 10) 1 2.
Proof.
  unfold made, separate. vm_compute.
  repeat split; try discriminate; reflexivity.
Qed.

(* With room for two ids, each source gives one. *)
Lemma interleave_case : ids (the_store (interleave3 2 (after3 10) 3 1 2)) 3 = [0; 1; 3]
  /\ ids (the_store (interleave3 20000 (after3 10) 3 1 2)) 3 = [0; 1; 2; 3; 4].
Proof. split; reflexivity. Qed.

Lemma extend_loses :
  ~ (forall maximum duration st b other st', reached maximum duration st ->
       made st b -> made st other -> size (ids st b) + size (ids st other) <= maximum ->
       extend maximum st b other = Ok st' ->
       forall x, In x (ids st b) \/ In x (ids st other) -> In x (ids st' b)).
Proof.
  intros H.
  destruct after3_ids as (I1 & I2 & _ & M1 & M2 & _).
  specialize (H 20000 5 (after3 10) 1 2 (the_store (extend 20000 (after3 10) 1 2))
                (after3_reached _ _ _ now_ok) M1 M2).
  rewrite I1, I2 in H. specialize (H ltac:(vm_compute; discriminate) eq_refl 1).
  cbn [In] in H. specialize (H ltac:(auto)).
  replace (ids (the_store (extend 20000 (after3 10) 1 2)) 1) with [3; 4] in H by reflexivity.
  cbn in H. lia.
Qed.

Lemma extend_self_loses : exists maximum duration st b st',
  reached maximum duration st /\ made st b /\ ids st b = [1; 2; 3] /\ size (ids st b) <= maximum /\
  extend maximum st b b = Ok st' /\ ids st' b = [].
Proof.
  exists 20000, 5, (after3 10), 1, (the_store (extend 20000 (after3 10) 1 1)).
  split; [apply after3_reached, now_ok|]. split; [apply after3_ids|].
  repeat split. vm_compute. discriminate.
Qed.

Lemma interleave2_adds :
  ~ (forall maximum duration st b1 b2 st' b, reached maximum duration st ->
       made st b1 -> made st b2 -> interleave2 maximum st b1 b2 = Ok (st', b) ->
       forall x, In x (ids st' b) -> In x (ids st b1) \/ In x (ids st b2)).
Proof.
  intros H. destruct after3_ids as (I1 & I2 & _ & M1 & M2 & _).
  destruct (interleave2 1000 (after2 10) 1 2) as [[st' b]| | |] eqn:E; try discriminate E.
  assert (R : reached 1000 5 (after2 10)).
  { exists 10, 0. split; [apply now_ok|]. apply plain_any, after2_steps. }
  assert (N1 : made (after2 10) 1) by (unfold made; vm_compute; split; discriminate || reflexivity).
  assert (N2 : made (after2 10) 2) by (unfold made; vm_compute; split; discriminate || reflexivity).
  specialize (H 1000 5 (after2 10) 1 2 st' b R N1 N2 E 0).
  vm_compute in E. injection E as <- <-. vm_compute in H.
  specialize (H (or_introl eq_refl)). intuition lia.
Qed.

(* Two untensed sentences with a Base made in between. *)
Lemma apart_case : exists st1 s1 b1 st2 st3 s2 b2,
  parsed_stamp 5 (after3 10) None = (st1, s1) /\ evidential_base s1 = Some b1 /\
  steps 20000 5 (sparing [set_at (bases st1 b1)]) st1 1 st2 /\
  parsed_stamp 5 st2 None = (st3, s2) /\ evidential_base s2 = Some b2 /\
  ids st3 b1 = [1] /\ ids st3 b2 = [3].
Proof.
  exists (fst (parsed_stamp 5 (after3 10) None)), (snd (parsed_stamp 5 (after3 10) None)), 4.
  set (st1 := fst _).
  exists (fst (new_base st1)). set (st2 := fst (new_base st1)).
  exists (fst (parsed_stamp 5 st2 None)), (snd (parsed_stamp 5 st2 None)), 6.
  split; [apply surjective_pairing|]. split; [vm_compute; reflexivity|]. split.
  - eapply (more _ _ _ _ _ _ Make); [apply steps_none|exact I| |].
    { apply step_new with (b := snd (new_base st1)). apply surjective_pairing. }
    reflexivity.
  - split; [apply surjective_pairing|].
    split; [vm_compute; reflexivity|]. split; vm_compute; reflexivity.
Qed.

Lemma tensed_no_base :
  ~ (forall maximum duration st mk st' s, reached maximum duration st ->
       parsed_stamp duration st mk = (st', s) -> exists b, evidential_base s = Some b).
Proof.
  intros H.
  destruct (H 20000 5 (after3 10) (Some MPresent) _ _ (after3_reached _ _ _ now_ok) eq_refl) as (b & E).
  discriminate E.
Qed.

Definition hashed : store := fst (hash_of (after3 10) 1).
Definition hashed_extended : store := the_store (extend 20000 hashed 1 2).

Lemma hash_stale :
  ~ (forall maximum duration st b, reached maximum duration st -> made st b ->
       snd (hash_of st b) = hash_container (ids st b)).
Proof.
  intros H.
  assert (R : reached 20000 5 hashed_extended).
  { exists 10, (1 + 0 + 0). split; [apply now_ok|].
    eapply steps_more with (k := Merge _).
    - eapply steps_more with (k := Ask); [apply plain_any, after3_steps|exact I|].
      eapply step_hash with (b := 1); [apply after3_ids|reflexivity].
    - exact I.
    - eapply step_extend with (b := 1) (other := 2);
        [unfold made; vm_compute; split; discriminate || reflexivity
        |unfold made; vm_compute; split; discriminate || reflexivity
        |reflexivity]. }
  specialize (H 20000 5 hashed_extended 1 R).
  assert (M : made hashed_extended 1) by (unfold made; vm_compute; split; discriminate || reflexivity).
  specialize (H M). vm_compute in H. discriminate H.
Qed.

Lemma hash_case : snd (hash_of (add (fst (hash_of (after3 10) 1)) 1 7) 1) = hash_container [1; 2; 3; 7].
Proof. vm_compute. reflexivity. Qed.

(* At time 10 the marker of the present means the past. *)
Lemma marker_moves :
  ~ (forall maximum duration st mk st' s, 0 < duration -> reached maximum duration st ->
       parsed_stamp duration st mk = (st', s) ->
       match mk with
       | None => tense_of duration st' s = Eternal
       | Some MPast => tense_of duration st' s = Past
       | Some MPresent => tense_of duration st' s = Present
       | Some MFuture => tense_of duration st' s = Future
       | Some (MTime _) => True
       end).
Proof.
  intros H.
  specialize (H 20000 5 (after3 10) (Some MPresent) _ _ eq_refl
                (after3_reached _ _ _ now_ok) eq_refl).
  discriminate H.
Qed.

Lemma tense_case : let at_time t := Stamp None 10 t (-1) false in
  tense_of 5 (after3 10) (at_time 5) = Past /\ tense_of 5 (after3 10) (at_time 6) = Present /\
  tense_of 5 (after3 10) (at_time 14) = Present /\ tense_of 5 (after3 10) (at_time 15) = Future.
Proof. cbn. repeat split. Qed.

Lemma extend_stamp_case : exists st' s', extend_evidential_base 20000 (after3 10) (Stamp None 10 0 (-1) false) 1
  = Ok (st', s') /\ ids st' 4 = [1; 2; 3] /\ evidential_base s' = Some 4.
Proof. eexists _, _. split; [reflexivity|]. split; reflexivity. Qed.

Lemma extending_case : exists st' s',
  extend_evidential_base 20000 (after3 10) (Stamp (Some 1) 10 10 (-1) true) 2 = Ok (st', s').
Proof. do 2 eexists. reflexivity. Qed.
