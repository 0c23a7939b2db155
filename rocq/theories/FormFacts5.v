(* What meeting a name does to a symbol table in order. *)
From Coq Require Import ZArith String Ascii List Bool Lia.
From Verif Require Import Base Enums Term Maps MapsFacts Interning InterningSpec InterningFacts InterningFacts2.
From Verif Require Import PrinterSpec Forms.
Import ListNotations.
Open Scope string_scope.
Open Scope list_scope.
Open Scope Z_scope.

Lemma apart_key w a b : apart w a -> live w b -> key_of b <> key_of a.
Proof. intros A L E. apply (A b L). symmetry. apply key_inj, E. Qed.

Lemma apart_neq w a b : apart w a -> live w b -> b <> a.
Proof. intros A L ->. apply (A a L). reflexivity. Qed.

Lemma handle_live w n a : handed_out w n a -> live w a.
Proof. intros H. right. apply (in_map hat) in H. exact H. Qed.

Lemma held_live' w p a : lookup Z.eqb p (held w) = Some a -> live w a.
Proof. apply held_live. Qed.

Lemma unset_length {K V} (eqb : K -> K -> bool) k (m : list (K * V)) : (length (unset eqb k m) <= length m)%nat.
Proof. unfold unset. induction m as [|x m IH]; cbn [filter length]; [lia|]. destruct (negb (eqb k (fst x))); cbn [length]; lia. Qed.

Lemma population_register w n a h : population (add_handle (register w n a) h) <= population w + 2.
Proof.
  unfold population, add_handle, register. cbn [held handles length]. unfold set. cbn [length].
  pose proof (unset_length Z.eqb (next w) (held w)). lia.
Qed.

Definition known_in (w : world) (n : string) : Prop := check_by_name (tab w) n = true.

Lemma known_iff w n : known_in w n <-> exists k, lookup String.eqb n (inv (tab w)) = Some k.
Proof.
  unfold known_in, check_by_name, has. destruct (lookup String.eqb n (inv (tab w))) as [k|]; split; intros H; eauto.
  - discriminate H.
  - destruct H as (k & H). discriminate H.
Qed.

Lemma unknown_none w n : check_by_name (tab w) n = false -> lookup String.eqb n (inv (tab w)) = None.
Proof. unfold check_by_name, has. destruct (lookup String.eqb n (inv (tab w))); congruence. Qed.

(* A new atom. *)
Lemma register_order w ops s a : in_order w ops -> ~ operator_name s -> check_by_name (tab w) s = false -> apart w a ->
  in_order (add_handle (register w s a) (Hd a s)) (filter (fun x => negb (x =? a)) ops).
Proof.
  intros [N H O P X] S K A. apply unknown_none in K. destruct (put_entries (tab w) (key_of a) s (next w)) as (P1 & P2 & P3 & _).
  assert (NF : ~ In a (filter (fun x => negb (x =? a)) ops)).
  { intros I. apply filter_In in I as [_ I]. rewrite Z.eqb_refl in I. discriminate I. }
  assert (IF : forall b, In b (filter (fun x => negb (x =? a)) ops) -> In b ops) by (intros b I; apply filter_In in I as [I _]; exact I).
  constructor; cbn [add_handle register tab held next handles].
  - intros n k Nn. rewrite P3. destruct (String.eqb_spec n s) as [->|D].
    + intros E. injection E as <-. exists (next w), a. rewrite P2, P1, Z.eqb_refl, zl_set, Z.eqb_refl. repeat split; assumption.
    + intros E. destruct (N n k Nn E) as (p & b & E1 & E2 & E3 & E4 & E5). exists p, b.
      assert (D' : k <> key_of a) by (rewrite <- E3; apply (apart_key w); [exact A|eapply held_live', E2]).
      rewrite P2, P1, zl_set. apply Z.eqb_neq in D'. rewrite D'.
      pose proof (P p b E2) as R. destruct (Z.eqb_spec p (next w)) as [Q|_]; [lia|]. repeat split; auto.
  - intros n b Nn [E|I].
    + injection E as <- <-. rewrite P3, String.eqb_refl. split; [reflexivity|]. exists (next w).
      rewrite P2, Z.eqb_refl, zl_set, Z.eqb_refl. split; reflexivity.
    + destruct (H n b Nn I) as (E1 & p & E2 & E3). rewrite P3. destruct (String.eqb_spec n s) as [->|D]; [congruence|].
      split; [exact E1|]. exists p. rewrite P2, zl_set.
      assert (D' : key_of b <> key_of a) by (apply (apart_key w); [exact A|apply (handle_live w n), I]).
      apply Z.eqb_neq in D'. rewrite D'. pose proof (P p b E3) as R. destruct (Z.eqb_spec p (next w)); [lia|]. split; assumption.
  - intros n b On [E|I].
    + injection E as <- <-. contradiction.
    + apply filter_In. split; [apply (O n b On I)|].
      assert (D' : b <> a) by (apply (apart_neq w); [exact A|apply (handle_live w n), I]).
      apply Z.eqb_neq in D'. rewrite D'. reflexivity.
  - intros p b. rewrite zl_set. destruct (Z.eqb_spec p (next w)) as [->|D].
    + intros _. lia.
    + intros E. specialize (P p b E). lia.
  - lia.
Qed.

(* A name the table knows. *)
Lemma again_order w ops s a : in_order w ops -> ~ operator_name s ->
  lookup String.eqb s (inv (tab w)) = Some (key_of a) ->
  (exists p, lookup Z.eqb (key_of a) (objs (tab w)) = Some p /\ lookup Z.eqb p (held w) = Some a) ->
  in_order (add_handle w (Hd a s)) ops.
Proof.
  intros [N H O P X] S K V. constructor; cbn [add_handle tab held next handles]; auto.
  - intros n b Nn [E|I]; [|auto]. injection E as <- <-. split; assumption.
  - intros n b On [E|I]; [|eapply O; eauto]. injection E as <- <-. contradiction.
Qed.

Lemma operator_order w ops s a : in_order w ops -> apart w a ->
  in_order (add_handle (register w ("^" ++ s)%string a) (Hd a ("^" ++ s)%string)) (a :: ops).
Proof.
  intros [N H O P X] A. destruct (put_entries (tab w) (key_of a) ("^" ++ s)%string (next w)) as (P1 & P2 & P3 & _).
  constructor; cbn [add_handle register tab held next handles].
  - intros n k Nn. rewrite P3. destruct (String.eqb_spec n ("^" ++ s)%string) as [->|D]; [exfalso; apply Nn; exists s; reflexivity|].
    intros E. destruct (N n k Nn E) as (p & b & E1 & E2 & E3 & E4 & E5). exists p, b.
    assert (L : live w b) by (eapply held_live', E2).
    assert (D' : k <> key_of a) by (rewrite <- E3; apply (apart_key w); assumption).
    rewrite P2, P1, zl_set. apply Z.eqb_neq in D'. rewrite D'. pose proof (P p b E2) as R. destruct (Z.eqb_spec p (next w)) as [Q|_]; [lia|].
    repeat split; auto. intros [Q|I]; [|auto]. apply (apart_neq w a b A L). symmetry. exact Q.
  - intros n b Nn [E|I]; [injection E as <- <-; exfalso; apply Nn; exists s; reflexivity|].
    destruct (H n b Nn I) as (E1 & p & E2 & E3). rewrite P3.
    destruct (String.eqb_spec n ("^" ++ s)%string) as [->|D]; [exfalso; apply Nn; exists s; reflexivity|].
    split; [exact E1|]. exists p. rewrite P2, zl_set.
    assert (D' : key_of b <> key_of a) by (apply (apart_key w); [exact A|apply (handle_live w n), I]).
    apply Z.eqb_neq in D'. rewrite D'. pose proof (P p b E3) as R. destruct (Z.eqb_spec p (next w)); [lia|]. split; assumption.
  - intros n b On [E|I]; [injection E as <- <-; left; reflexivity|]. right. eapply O; eauto.
  - intros p b. rewrite zl_set. destruct (Z.eqb_spec p (next w)) as [->|D].
    + intros _. lia.
    + intros E. specialize (P p b E). lia.
  - lia.
Qed.

(** * The two ways of meeting a name *)

Definition atom_ops (w : world) (ops : list Z) (s : string) (new : Z) : list Z :=
  if check_by_name (tab w) s then ops else filter (fun x => negb (x =? new)) ops.

Lemma not_in_existsb x l : ~ In x l -> existsb (Z.eqb x) l = false.
Proof.
  intros N. apply not_true_iff_false. intros E. apply existsb_exists in E as (y & I & E). apply Z.eqb_eq in E. subst y. contradiction.
Qed.

Lemma create_step w ops s new : in_order w ops -> ~ operator_name s -> apart w new ->
  exists w' a, create w s new = Ok w' /\ handles w' = Hd a s :: handles w /\ in_order w' (atom_ops w ops s new) /\
    existsb (Z.eqb a) (atom_ops w ops s new) = false /\ population w' <= population w + 2 /\
    (forall n, known_in w' n -> known_in w n \/ n = s) /\ (known_in w s -> tab w' = tab w).
Proof.
  intros I S A. unfold create, atom_ops. destruct (check_by_name (tab w) s) eqn:C.
  - pose proof C as C'. apply known_iff in C' as (k & E). unfold get_by_name. rewrite E.
    destruct (order_names _ _ I s k S E) as (p & a & E1 & E2 & E3 & E4 & E5). unfold get_object. rewrite E1.
    unfold deref. pose proof (order_pointers _ _ I p a E2) as R. destruct (Z.eqb_spec p 0) as [Q|_]; [lia|].
    cbn [with_tab held]. rewrite E2. cbn [bind]. replace (with_tab w (tab w)) with w by (destruct w; reflexivity).
    exists (add_handle w (Hd a s)), a. split; [reflexivity|]. split; [reflexivity|]. split; [|split; [|split]].
    + apply again_order; [assumption|assumption|rewrite E3; exact E|]. rewrite E3. exists p. split; assumption.
    + apply not_in_existsb, E5.
    + unfold population, add_handle. cbn [held handles length]. lia.
    + split; [intros n K; left; exact K|reflexivity].
  - exists (add_handle (register w s new) (Hd new s)), new. split; [reflexivity|]. split; [reflexivity|].
    split; [apply register_order; assumption|]. split; [|split; [apply population_register|split; [|unfold known_in; congruence]]].
    + apply not_in_existsb. intros J. apply filter_In in J as [_ J]. rewrite Z.eqb_refl in J. discriminate J.
    + intros n K. apply known_iff in K as (k & K). cbn [add_handle register tab] in K.
      destruct (put_entries (tab w) (key_of new) s (next w)) as (_ & _ & P3 & _). rewrite P3 in K.
      destruct (String.eqb_spec n s); [right; assumption|]. left. apply known_iff. exists k. exact K.
Qed.

Lemma operation_step w ops s new : in_order w ops -> check_by_name (tab w) s = false -> apart w new ->
  exists w', parse_op w s new = Ok w' /\ handles w' = Hd new ("^" ++ s)%string :: handles w /\ in_order w' (new :: ops) /\
    population w' <= population w + 2 /\ (forall n, known_in w' n -> known_in w n \/ n = ("^" ++ s)%string).
Proof.
  intros I C A. unfold parse_op. rewrite C. eexists. split; [reflexivity|]. split; [reflexivity|].
  split; [apply operator_order; assumption|]. split; [apply population_register|].
  intros n K. apply known_iff in K as (k & K). cbn [add_handle register tab] in K.
  destruct (put_entries (tab w) (key_of new) (String "^" s) (next w)) as (_ & _ & P3 & _). rewrite P3 in K.
  destruct (String.eqb_spec n (String "^" s)) as [->|D]; [right; reflexivity|]. left. apply known_iff. exists k. exact K.
Qed.

(** * In order, names and atoms match *)

Lemma order_unique w ops n a b : in_order w ops -> ~ operator_name n -> handed_out w n a -> handed_out w n b -> a = b.
Proof.
  intros I N A B. destruct (order_handles _ _ I n a N A) as (E1 & p & E2 & E3).
  destruct (order_handles _ _ I n b N B) as (F1 & q & F2 & F3). rewrite E1 in F1. injection F1 as F1.
  rewrite <- F1, E2 in F2. injection F2 as <-. congruence.
Qed.

Lemma order_distinct w ops n m a : in_order w ops -> ~ operator_name n -> ~ operator_name m ->
  handed_out w n a -> handed_out w m a -> n = m.
Proof.
  intros I N M A B. destruct (order_handles _ _ I n a N A) as (E1 & _). destruct (order_handles _ _ I m a M B) as (F1 & _).
  destruct (order_names _ _ I n _ N E1) as (_ & _ & _ & _ & _ & D1 & _). destruct (order_names _ _ I m _ M F1) as (_ & _ & _ & _ & _ & D2 & _).
  congruence.
Qed.
