(* The symbol table: witnesses and instances. *)
From Coq Require Import ZArith List Bool String Lia.
From Verif Require Import Base Hash Enums Term Maps MapsFacts Interning InterningSpec InterningFacts InterningFacts2.
Import ListNotations.
Local Open Scope string_scope.
Local Open Scope Z_scope.

Definition result (xs : list act) : world := match act_all world0 xs with Ok w => w | _ => world0 end.

Definition liveb (w : world) (a : Z) : bool :=
  existsb (Z.eqb a) (map snd (held w)) || existsb (Z.eqb a) (map hat (handles w)).

Lemma liveb_ok : forall w a, liveb w a = false -> ~ live w a.
Proof.
  intros w a H L. apply orb_false_elim in H. destruct H as (H1 & H2).
  destruct L as [L|L]; [rewrite <- not_true_iff_false in H1; apply H1|rewrite <- not_true_iff_false in H2; apply H2];
    apply existsb_exists; exists a; (split; [assumption|apply Z.eqb_refl]).
Qed.

Definition apartb (w : world) (a : Z) : bool :=
  forallb (fun b => negb (a mod 4294967296 =? b mod 4294967296)) (map snd (held w) ++ map hat (handles w)).

Lemma apartb_ok : forall w a, apartb w a = true -> apart w a.
Proof.
  intros w a H b L E. unfold apartb in H. rewrite forallb_forall in H.
  specialize (H b). rewrite E, Z.eqb_refl in H. apply diff_false_true, H. apply in_or_app. exact L.
Qed.

(* Runs checked by computation. *)
Definition act_ok (ops : act -> bool) (place : world -> Z -> bool) (w : world) (x : act) : bool :=
  ops x && match x with Create _ a | ParseOp _ a => place w a | _ => true end.

Fixpoint acts_ok (ops : act -> bool) (place : world -> Z -> bool) (w : world) (xs : list act) : bool :=
  match xs with
  | [] => true
  | x :: xs' => act_ok ops place w x &&
      match act_on w x with Ok w' => acts_ok ops place w' xs' | _ => false end
  end.

Lemma acts_history : forall (opsb : act -> bool) (ops : act -> Prop) (placeb : world -> Z -> bool) (place : world -> Z -> Prop),
  (forall x, opsb x = true -> ops x) -> (forall w a, placeb w a = true -> place w a) ->
  forall xs w w', history ops place w -> acts_ok opsb placeb w xs = true -> act_all w xs = Ok w' ->
  history ops place w'.
Proof.
  intros opsb ops placeb place Ho Hp. induction xs as [|x xs IH]; intros w w' H C E; cbn [acts_ok act_all] in *.
  - apply Ok_inj in E. subst. assumption.
  - apply andb_prop in C. destruct C as (C1 & C2). apply andb_prop in C1. destruct C1 as (C0 & C1).
    destruct (act_on w x) as [w1| | |] eqn:E1; try discriminate. cbn [bind] in E.
    apply (IH w1 w'); [|assumption|assumption].
    apply (hist_step ops place w x w1); auto.
    intros n a [->| ->]; apply Hp; exact C1.
Qed.

Definition basicb (x : act) : bool := match x with Create _ _ | Copy _ | Drop _ => true | _ => false end.
Lemma basicb_ok : forall x, basicb x = true -> basic x.
Proof. intros [] H; try discriminate; exact I. Qed.
Definition no_opb (x : act) : bool := match x with ParseOp _ _ => false | _ => true end.
Lemma no_opb_ok : forall x, no_opb x = true -> no_op x.
Proof. intros [] H; try discriminate; exact I. Qed.
Definition anyb (x : act) : bool := true.
Definition any (x : act) : Prop := True.

(* Two atoms 4 GiB apart. *)
Definition collide : list act := [Create "a" 94000000000000; Create "b" 94004294967296; Create "a" 1].

Lemma placement_matters :
  ~ (forall w, history basic free_place w -> forall h h', In h (handles w) -> In h' (handles w) ->
      (hname h = hname h' <-> hat h = hat h')).
Proof.
  intros H.
  assert (Hw : history basic free_place (result collide)).
  { eapply (acts_history basicb basic (fun w a => negb (liveb w a)) free_place); [apply basicb_ok| |constructor| |].
    - intros w a E. apply liveb_ok. apply negb_true_iff. exact E.
    - instantiate (1 := collide). vm_compute. reflexivity.
    - vm_compute. reflexivity. }
  destruct (H _ Hw (Hd 94004294967296 "a") (Hd 94004294967296 "b")) as (_ & X).
  - vm_compute. auto.
  - vm_compute. auto.
  - specialize (X eq_refl). discriminate X.
Qed.

(* the request for "a" while a handle to it is alive returns another atom *)
Lemma placement_changes_atom : exists w w', history basic free_place w /\
  In (Hd 94000000000000 "a") (handles w) /\ free_place w 1 /\
  act_on w (Create "a" 1) = Ok w' /\ hd_error (handles w') = Some (Hd 94004294967296 "a").
Proof.
  set (xs := [Create "a" 94000000000000; Create "b" 94004294967296]).
  exists (result xs). eexists. split.
  { eapply (acts_history basicb basic (fun w a => negb (liveb w a)) free_place); [apply basicb_ok| |constructor| |].
    - intros w a E. apply liveb_ok. apply negb_true_iff. exact E.
    - instantiate (1 := xs). vm_compute. reflexivity.
    - vm_compute. reflexivity. }
  split; [vm_compute; auto|]. split; [apply liveb_ok; vm_compute; reflexivity|].
  split; [vm_compute; reflexivity|]. vm_compute. reflexivity.
Qed.

(* A history with sharing, dropping and reuse of an address. *)
Definition story : list act :=
  [Create "a" 94000000000000; Create "b" 94000000000512; Create "a" 1; Copy 0; Drop 3; Drop 0;
   Create "c" 94000000001024; Drop 1; Create "d" 94000000000000].

Lemma story_history : history basic apart (result story).
Proof.
  eapply (acts_history basicb basic apartb apart); [apply basicb_ok|apply apartb_ok|constructor| |].
  - instantiate (1 := story). vm_compute. reflexivity.
  - vm_compute. reflexivity.
Qed.

Lemma story_handles : map hname (handles (result story)) = ["d"; "c"; "b"]
  /\ history no_op apart (result story).
Proof.
  split; [vm_compute; reflexivity|]. eapply history_more; [|exact story_history].
  intros [] B; try contradiction; exact I.
Qed.

(* Overwriting the last handle. *)
Definition overwrite : list act := [Create "a" 94000000000000; Create "b" 94000000000512; Assign 1 0].

Lemma overwriting_leaks :
  ~ (forall w, history no_op apart w ->
      forall n, check_by_name (tab w) n = true <-> exists h, In h (handles w) /\ hname h = n).
Proof.
  intros H.
  assert (Hw : history no_op apart (result overwrite)).
  { eapply (acts_history no_opb no_op apartb apart); [apply no_opb_ok|apply apartb_ok|constructor| |].
    - instantiate (1 := overwrite). vm_compute. reflexivity.
    - vm_compute. reflexivity. }
  destruct (H _ Hw "a") as (X & _). destruct X as (h & Hh & E); [vm_compute; reflexivity|].
  vm_compute in Hh. destruct Hh as [<-|[<-|[]]]; discriminate E.
Qed.

(* Operations. *)
Definition twice : list act := [ParseOp "go" 94000000000000; ParseOp "go" 94000000000512].

Lemma operations_differ :
  ~ (forall w, history any apart w -> forall h h', In h (handles w) -> In h' (handles w) ->
      hname h = hname h' -> teq (Atom true (hat h)) (Atom true (hat h')) = Ok true).
Proof.
  intros H.
  assert (Hw : history any apart (result twice)).
  { eapply (acts_history anyb any apartb apart); [intros; exact I|apply apartb_ok|constructor| |].
    - instantiate (1 := twice). vm_compute. reflexivity.
    - vm_compute. reflexivity. }
  specialize (H _ Hw (Hd 94000000000000 "^go") (Hd 94000000000512 "^go")).
  assert (E : Ok false = Ok true); [|discriminate E].
  rewrite <- H; [vm_compute; reflexivity|vm_compute; auto|vm_compute; auto|reflexivity].
Qed.

Lemma operation_undefined :
  ~ (forall w n a, history any apart w -> apart w a -> exists w', act_on w (ParseOp n a) = Ok w').
Proof.
  intros H. set (xs := [Create "go" 94000000000000]).
  assert (Hw : history any apart (result xs)).
  { eapply (acts_history anyb any apartb apart); [intros; exact I|apply apartb_ok|constructor| |].
    - instantiate (1 := xs). vm_compute. reflexivity.
    - vm_compute. reflexivity. }
  destruct (H _ "go" 94000000000512 Hw) as (w' & E).
  - apply apartb_ok. vm_compute. reflexivity.
  - vm_compute in E. discriminate.
Qed.

(* An atom's name may be forgotten although a handle is alive, when operations are parsed. *)
Definition op_story : list act :=
  [ParseOp "go" 94000000000000; ParseOp "go" 94000000000512; Drop 1].

Lemma operation_forgotten :
  ~ (forall w, history any apart w -> forall h, In h (handles w) -> check_by_name (tab w) (hname h) = true).
Proof.
  intros H.
  assert (Hw : history any apart (result op_story)).
  { eapply (acts_history anyb any apartb apart); [intros; exact I|apply apartb_ok|constructor| |].
    - instantiate (1 := op_story). vm_compute. reflexivity.
    - vm_compute. reflexivity. }
  specialize (H _ Hw (Hd 94000000000512 "^go")).
  assert (E : false = true); [|discriminate E].
  rewrite <- H; [vm_compute; reflexivity|vm_compute; auto].
Qed.

(* Calls on the table. *)
Definition registrations : list call :=
  [Put 3 "x" 11; Put 4 "y" 12; Get 9; Put 3 "x" 13; GetByName "zz"; Erase 4; Erase 3; Remove 9; CheckCount 3].

Lemma registrations_ok :
  Forall (fun c => own_call 3 "x" c \/ side_call 3 "x" c) registrations
  /\ balance 3 0 registrations = 1 /\ last_object 3 0 registrations = 13.
Proof.
  split; [|split; vm_compute; reflexivity].
  repeat (apply Forall_cons; [first [left; constructor | right; constructor; discriminate | right; constructor]|]).
  apply Forall_nil.
Qed.

Definition paired : list call := [Put 3 "x" 11; Put 4 "y" 12; Put 3 "x" 13; RemoveByName "y"; Put 5 "y" 1; Erase 3; Remove 7].

Lemma paired_ok : Forall update_call paired /\ one_to_one empty_table paired
  /\ exists t, after_all empty_table paired = Ok t /\ lookup Z.eqb 5 (dict t) = Some "y".
Proof.
  split; [repeat constructor|]. split.
  - repeat match goal with
    | |- True => exact I
    | |- one_to_one _ _ => cbn [one_to_one paired]; split
    | |- forall t', after _ _ = Ok t' -> _ => let E := fresh in intros ? E; vm_compute in E; apply Ok_inj in E; subst
    | |- _ /\ _ => split
    | |- forall n', _ = Some n' -> _ => let E := fresh in intros ? E; vm_compute in E; congruence
    end.
  - eexists. split; [vm_compute; reflexivity|]. vm_compute. reflexivity.
Qed.

Lemma no_null_case : Forall no_null [Put 3 "x" 11; Get 9; GetByName "q"; Reset (fun _ => true); Put 1 "a" 2; Reset (fun _ => false)].
Proof. repeat constructor; discriminate. Qed.

Lemma known_case : exists t, after_all empty_table registrations = Ok t
  /\ lookup Z.eqb 3 (dict t) = Some "x" /\ lookup Z.eqb 3 (objs t) = Some 13
  /\ lookup String.eqb "x" (inv t) = Some 3 /\ exists c, lookup Z.eqb 3 (cnt t) = Some c /\ c <> 0.
Proof.
  eexists. split; [vm_compute; reflexivity|]. repeat split; try (vm_compute; reflexivity).
  eexists. split; [vm_compute; reflexivity | discriminate].
Qed.
