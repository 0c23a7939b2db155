(* Concrete cases for the memory of the semantic actions *)
From Coq Require Import ZArith String Ascii List Bool Lia Permutation.
From Verif Require Import Base Enums Term Float Truth Actions ActionsSpec ActionsCases Parser.
From Verif Require Import Storage StorageSpec StorageFacts4.
Import ListNotations.
Open Scope string_scope.
Open Scope Z_scope.
Open Scope list_scope.

Definition no_memory : heap := Heap 0 [].
(* One block of somebody else's. *)
Definition some_memory : heap := Heap 8 [(3, BString "kept")].

Lemma no_sound : sound no_memory.
Proof. split; [constructor|]. intros a b []. Qed.

Lemma some_sound : sound some_memory.
Proof. split; [repeat constructor; intros []|]. intros a b [E|[]]. injection E as <- <-. reflexivity. Qed.

(* What is left after one input: how many blocks, and how it went. *)
Definition evaluated (strict : bool) (h : heap) (input : string) : option (nat * res bool) :=
  match parse allocated [] input with
  | Ok (Accepted trees, _) =>
      match evaluate strict id_ord bump blank_state trees h with
      | (h', Ok _) => Some (length (live h'), Ok true)
      | (h', Throw) => Some (length (live h'), Throw)
      | (h', UB) => Some (length (live h'), UB)
      | (h', OutOfFuel) => Some (length (live h'), OutOfFuel)
      end
  | _ => None
  end.

Definition full : string := "$0.5;0.2;0.1$ <(*, a, {b, c}) --> ^d>. :!7: %0.9;0.8%".
Definition plain : string := "$0.5$ <a --> (b & c)>.".

Lemma full_blocks : evaluated false some_memory full = Some (6%nat, Ok true).
Proof. vm_compute. reflexivity. Qed.
Lemma plain_blocks : evaluated true some_memory plain = Some (6%nat, Ok true).
Proof. vm_compute. reflexivity. Qed.

(* Whether an input evaluates in the model without memory. *)
Definition understood (input : string) : bool :=
  match parse allocated [] input with
  | Ok (Accepted trees, _) => match transform_all id_ord bump blank_state trees with Ok _ => true | _ => false end
  | _ => false
  end.

Lemma understood_spec input : understood input = true -> exists trees rest st vs,
  parse allocated [] input = Ok (Accepted trees, rest) /\ transform_all id_ord bump blank_state trees = Ok (st, vs).
Proof.
  unfold understood. intros E. destruct (parse allocated [] input) as [[[trees|] rest]| | |]; try discriminate E.
  destruct (transform_all id_ord bump blank_state trees) as [[st vs]| | |] eqn:T; try discriminate E.
  exists trees, rest, st, vs. split; [reflexivity|exact T].
Qed.

Lemma full_understood : exists trees rest st vs,
  parse allocated [] full = Ok (Accepted trees, rest) /\ transform_all id_ord bump blank_state trees = Ok (st, vs).
Proof. apply understood_spec. vm_compute. reflexivity. Qed.

Lemma plain_understood : exists trees rest st vs,
  parse allocated [] plain = Ok (Accepted trees, rest) /\ transform_all id_ord bump blank_state trees = Ok (st, vs).
Proof. apply understood_spec. vm_compute. reflexivity. Qed.

(* ---- what is written in a tree, decided ---- *)

Fixpoint mentions_b (p : string -> bool) (n : ast) : bool :=
  match n with
  | Leaf e _ => p e
  | Node e l => p e || (fix any (l : list ast) := match l with [] => false | k :: l' => mentions_b p k || any l' end) l
  end.

Definition marked_b (e : string) : bool :=
  existsb (String.eqb e) ["truth"; "tense_time"; "tense_future"; "tense_present"; "tense_past"].

Lemma marked_b_spec e : marked_b e = true <-> marked e.
Proof.
  unfold marked_b, marked. rewrite existsb_exists. split.
  - intros (x & I & E). apply String.eqb_eq in E. subst x. exact I.
  - intros I. exists e. split; [exact I|apply String.eqb_refl].
Qed.

Lemma mentions_b_spec : forall n, mentions_b marked_b n = true <-> mentions marked n.
Proof.
  fix self 1. intros [e s|e l]; cbn [mentions_b].
  - rewrite marked_b_spec. split; [apply M_leaf|]. intros M. inversion M; subst; assumption.
  - rewrite orb_true_iff, marked_b_spec.
    assert (A : (fix any (l : list ast) := match l with [] => false | k :: l' => mentions_b marked_b k || any l' end) l = true
                <-> exists k, In k l /\ mentions marked k).
    { induction l as [|k l IH]; [split; [discriminate|intros (k & [] & _)]|].
      rewrite orb_true_iff, self, IH. split.
      - intros [M|(k' & I & M)]; [exists k; split; [left; reflexivity|exact M]|exists k'; split; [right; exact I|exact M]].
      - intros (k' & [<-|I] & M); [left; exact M|right; exists k'; split; assumption]. }
    rewrite A. split.
    + intros [M|(k & I & M)]; [apply M_node; exact M|exact (M_below _ _ _ k I M)].
    + intros M. inversion M as [|e' l' P|e' l' k I M']; subst; [left; exact P|right; exists k; split; assumption].
Qed.

Definition says (input : string) (answer : bool) : bool :=
  match parse allocated [] input with
  | Ok (Accepted trees, _) => Bool.eqb answer (existsb (mentions_b marked_b) trees)
  | _ => false
  end.

Lemma says_yes input : says input true = true -> forall trees rest, parse allocated [] input = Ok (Accepted trees, rest) ->
  exists t, In t trees /\ mentions marked t.
Proof.
  unfold says. intros E trees rest P. rewrite P in E. apply Bool.eqb_prop in E. symmetry in E. apply existsb_exists in E.
  destruct E as (t & I & M). exists t. split; [exact I|apply mentions_b_spec; exact M].
Qed.

Lemma says_no input : says input false = true -> forall trees rest, parse allocated [] input = Ok (Accepted trees, rest) ->
  forall t, In t trees -> ~ mentions marked t.
Proof.
  unfold says. intros E trees rest P t I M. rewrite P in E. apply Bool.eqb_prop in E. symmetry in E.
  apply mentions_b_spec in M. assert (X : existsb (mentions_b marked_b) trees = true) by (apply existsb_exists; exists t; split; assumption).
  rewrite X in E. discriminate E.
Qed.

Lemma full_says : forall trees rest, parse allocated [] full = Ok (Accepted trees, rest) ->
  exists t, In t trees /\ mentions marked t.
Proof. apply says_yes. vm_compute. reflexivity. Qed.

Lemma plain_says : forall trees rest, parse allocated [] plain = Ok (Accepted trees, rest) ->
  forall t, In t trees -> ~ mentions marked t.
Proof. apply says_no. vm_compute. reflexivity. Qed.

(* ---- exceptions ---- *)

(* A session as a whole: blocks left behind, and whether there was an exception. *)
Definition served (strict : bool) (h : heap) (inputs : list string) : option (nat * bool) :=
  match serve strict id_ord bump allocated blank_state inputs h with
  | (h', Ok (_, thrown)) => Some (length (live h'), thrown)
  | _ => None
  end.

Definition told (inputs : list string) : option bool :=
  match history id_ord bump allocated blank_state [] inputs with Ok (_, _, thrown) => Some thrown | _ => None end.

Lemma served_spec strict h inputs n thrown : served strict h inputs = Some (n, thrown) ->
  exists h' st, serve strict id_ord bump allocated blank_state inputs h = (h', Ok (st, thrown)) /\ length (live h') = n.
Proof.
  unfold served. destruct (serve strict id_ord bump allocated blank_state inputs h) as [h' [[st t]| | |]]; try discriminate.
  intros E. injection E as <- <-. exists h', st. split; reflexivity.
Qed.

Lemma told_spec inputs thrown : told inputs = Some thrown ->
  exists st left, history id_ord bump allocated blank_state [] inputs = Ok (st, left, thrown).
Proof.
  unfold told. destruct (history id_ord bump allocated blank_state [] inputs) as [[[st left] t]| | |]; try discriminate.
  intros E. injection E as <-. exists st, left. reflexivity.
Qed.

Lemma tiny_leaks : exists h st, serve false id_ord bump allocated blank_state [tiny] no_memory = (h, Ok (st, true)) /\
  length (live h) = 5%nat.
Proof. apply served_spec. vm_compute. reflexivity. Qed.

Lemma session_told : exists st left, history id_ord bump allocated blank_state [] [full; "<a"; plain] = Ok (st, left, false).
Proof. apply told_spec. vm_compute. reflexivity. Qed.

Lemma session_served : exists h st, serve false id_ord bump allocated blank_state [full; "<a"; plain] some_memory = (h, Ok (st, false)) /\
  length (live h) = 1%nat.
Proof. apply served_spec. vm_compute. reflexivity. Qed.

Lemma blank_pending : pending blank_state = [].
Proof. reflexivity. Qed.

Lemma one_room : match allocated with Some n => (1 <= n)%nat | None => True end.
Proof. apply Nat.leb_le. reflexivity. Qed.

(* A task in memory. *)
Lemma task_stored : exists p tk l h, stored p (VTask tk) l /\ sound h /\ adds some_memory h l.
Proof.
  destruct full_understood as (trees & rest & st & vs & P & T).
  pose proof (evaluate_accepted false id_ord bump allocated full trees rest blank_state some_memory one_room P some_sound (or_introl eq_refl)) as E.
  rewrite T in E. destruct E as (h & p & tk & l & _ & _ & S & ST & A). exists p, tk, l, h. auto.
Qed.
