(* Counting shared pointers. *)
From Coq Require Import String ZArith List Bool Arith Lia Permutation.
From Verif Require Import Base Lifetimes LifetimesSpec.
Import ListNotations.

Definition occ (n : nat) (l : list nat) : nat := count_occ Nat.eq_dec l n.

Lemma occ_app : forall n a b, occ n (a ++ b) = occ n a + occ n b.
Proof. intros. apply count_occ_app. Qed.

Lemma occ_in : forall n l, In n l <-> 0 < occ n l.
Proof. intros. apply count_occ_In. Qed.

Lemma occ_not : forall n l, ~ In n l <-> occ n l = 0.
Proof. intros. apply count_occ_not_In. Qed.

Lemma occ_cons : forall n x l, occ n (x :: l) = (if Nat.eq_dec x n then 1 else 0) + occ n l.
Proof. intros. unfold occ. simpl. destruct (Nat.eq_dec x n); reflexivity. Qed.

Lemma occ_nil : forall n, occ n [] = 0.
Proof. reflexivity. Qed.

Lemma occ_rev : forall n l, occ n (rev l) = occ n l.
Proof.
  induction l as [|x l IH]; [reflexivity|]. simpl rev. rewrite occ_app, IH, !occ_cons, occ_nil. lia.
Qed.

Lemma set_nth_length : forall (A : Type) n (x : A) l, length (set_nth n x l) = length l.
Proof. induction n; destruct l; simpl; auto. Qed.

Lemma set_nth_same : forall (A : Type) n (x : A) l y, nth_error l n = Some y -> nth_error (set_nth n x l) n = Some x.
Proof. induction n; destruct l; simpl; intros; try discriminate; eauto. Qed.

Lemma set_nth_other : forall (A : Type) n k (x : A) l, n <> k -> nth_error (set_nth n x l) k = nth_error l k.
Proof. induction n; destruct l, k; simpl; intros; try reflexivity; try congruence. apply IHn. congruence. Qed.

(* ---- pointers in the living ---- *)
Definition lrefs (s : slot) : list nat := if s_live s then refs (s_body s) else [].

Lemma pointers_app : forall a b, pointers (a ++ b) = pointers a ++ pointers b.
Proof. intros. apply flat_map_app. Qed.

Lemma pointers_one : forall s, pointers [s] = lrefs s.
Proof. intros. unfold pointers, lrefs. simpl. apply app_nil_r. Qed.

Lemma pointers_set : forall r n s s' m, nth_error m n = Some s ->
  occ r (pointers (set_nth n s' m)) + occ r (lrefs s) = occ r (pointers m) + occ r (lrefs s').
Proof.
  intros r. induction n as [|n IH]; intros s s' [|x m] E; try discriminate; simpl in E.
  - injection E as <-. simpl set_nth. change (pointers (s' :: m)) with (lrefs s' ++ pointers m).
    change (pointers (x :: m)) with (lrefs x ++ pointers m). rewrite !occ_app. lia.
  - simpl set_nth. change (pointers (x :: set_nth n s' m)) with (lrefs x ++ pointers (set_nth n s' m)).
    change (pointers (x :: m)) with (lrefs x ++ pointers m). rewrite !occ_app.
    specialize (IH s s' m E). lia.
Qed.

Lemma in_pointers : forall r m, In r (pointers m) <-> exists n, points m n r.
Proof.
  intros r m. unfold pointers. rewrite in_flat_map. split.
  - intros (s & A & B). apply In_nth_error in A. destruct A as [n A]. exists n, s.
    destruct (s_live s); [auto|contradiction].
  - intros (n & s & A & B & C). exists s. split; [eapply nth_error_In; eassumption|]. rewrite B. assumption.
Qed.

(* ---- kinds of objects ---- *)
Inductive kind : Type := KTerm | KTerms | KIndex | KInt | KVector.
Definition kind_of (b : body) : kind :=
  match b with
  | BTerm _ _ _ _ _ _ _ _ => KTerm
  | BTerms _ => KTerms
  | BIndex _ _ _ _ => KIndex
  | BInt => KInt
  | BVector => KVector
  end.
Definition is_kind (k : kind) (m : mem) (n : nat) : Prop := exists s, nth_error m n = Some s /\ kind_of (s_body s) = k.

Lemma term_kind : forall m n, is_term m n <-> is_kind KTerm m n.
Proof.
  intros m n. split.
  - intros (s & c & f & a & b & t & x & y & z & E & B). exists s. rewrite B. auto.
  - intros (s & E & K). destruct (s_body s) eqn:B; try discriminate. repeat eexists; eassumption.
Qed.

Lemma terms_kind : forall m n, is_terms m n <-> is_kind KTerms m n.
Proof.
  intros m n. split.
  - intros (s & l & E & B). exists s. rewrite B. auto.
  - intros (s & E & K). destruct (s_body s) eqn:B; try discriminate. repeat eexists; eassumption.
Qed.

Definition all_kind (k : kind) (m : mem) (l : list nat) : Prop := forall n, In n l -> is_kind k m n.

Definition right_class (c : tclass) (f : flags) (s p t : option nat) : Prop :=
  match c with
  | CPlain | COperation | CInterval => f_var f = false /\ s = None /\ p = None /\ t = None
  | CVariable _ => s = None /\ p = None /\ t = None
  | CStatement => s <> None /\ p <> None /\ t = None
  | CCompound => s = None /\ p = None /\ t <> None
  end.

Definition typed (m : mem) (b : body) : Prop :=
  match b with
  | BTerm c f s p t vi vd vq =>
      all_kind KTerm m (opt s ++ opt p) /\ all_kind KTerms m (opt t) /\ all_kind KIndex m [vi; vd; vq]
      /\ right_class c f s p t
  | BTerms l => all_kind KTerm m l
  | BIndex n i s _ => all_kind KVector m (opt n) /\ all_kind KInt m i /\ all_kind KIndex m s
  | BInt | BVector => True
  end.

Definition leaf (m : mem) (n : nat) : Prop := is_kind KInt m n \/ is_kind KVector m n.

Definition ranked (m : mem) (rank : nat -> nat) : Prop := forall n r, points m n r -> rank r < rank n.

Definition cnt (m : mem) (n : nat) : nat :=
  match nth_error m n with Some s => if s_live s then s_count s else 0 | None => 0 end.

(* Memory in which X are objects to which exactly one pointer leads, held by
   the program, and H are all other pointers held. *)
Record good (m : mem) (X H : list nat) : Prop := {
  g_cnt : forall n, cnt m n = occ n X + occ n H + occ n (pointers m);
  g_pos : forall n s, nth_error m n = Some s -> s_live s = true -> 0 < s_count s;
  g_x : forall x, In x X -> occ x X = 1 /\ occ x H = 0 /\ occ x (pointers m) = 0;
  g_ty : forall n s, nth_error m n = Some s -> s_live s = true -> typed m (s_body s);
  g_rk : exists rank, ranked m rank
}.

Lemma good_same : forall m X H H', (forall n, occ n H = occ n H') -> good m X H -> good m X H'.
Proof.
  intros m X H H' E [A B C D F]. constructor; auto.
  - intros n. rewrite A, E. reflexivity.
  - intros x I. rewrite <- E. auto.
Qed.

(* An object owned alone may be treated like any other. *)
Lemma good_weaken : forall m x X H, good m (x :: X) H -> good m X (x :: H).
Proof.
  intros m x X H [A B C D F]. constructor; auto.
  - intros n. rewrite A, !occ_cons. lia.
  - intros y I. destruct (C y (or_intror I)) as (C1 & C2 & C3).
    destruct (C x (or_introl eq_refl)) as (C4 & _ & _). rewrite occ_cons in C1, C4. apply occ_in in I.
    assert (x <> y). { intros ->. destruct (Nat.eq_dec y y); lia. }
    rewrite occ_cons. destruct (Nat.eq_dec x y); [congruence|]. lia.
Qed.

Lemma look_ok : forall m X H n, good m X H -> In n (X ++ H ++ pointers m) ->
  exists s, look m n = Ok s /\ nth_error m n = Some s /\ s_live s = true.
Proof.
  intros m X H n G I. apply occ_in in I. rewrite !occ_app in I. pose proof (g_cnt _ _ _ G n) as E. unfold cnt in E.
  unfold look. destruct (nth_error m n) as [s|]; [|lia]. destruct (s_live s) eqn:L; [|lia]. exists s. auto.
Qed.

Lemma look_inv : forall m n s, look m n = Ok s -> nth_error m n = Some s /\ s_live s = true.
Proof.
  intros m n s E. unfold look in E. destruct (nth_error m n) as [s'|]; [|discriminate].
  destruct (s_live s') eqn:L; [|discriminate]. injection E as ->. auto.
Qed.

Lemma body_inv : forall m n b, body_at m n = Ok b -> exists s, nth_error m n = Some s /\ s_live s = true /\ s_body s = b.
Proof.
  intros m n b E. unfold body_at in E. destruct (look m n) eqn:L; try discriminate. simpl in E. injection E as <-.
  apply look_inv in L. exists a. tauto.
Qed.

Lemma body_ok : forall m X H n, good m X H -> In n (X ++ H ++ pointers m) ->
  exists s, body_at m n = Ok (s_body s) /\ nth_error m n = Some s /\ s_live s = true.
Proof.
  intros m X H n G I. destruct (look_ok m X H n G I) as (s & A & B & C). exists s. unfold body_at. rewrite A. auto.
Qed.

(* ---- what stays ---- *)
Definition succs (b : body) : list nat := match b with BIndex _ _ s _ => s | _ => [] end.
Definition fixed (b b' : body) : Prop :=
  kind_of b' = kind_of b /\ incl (succs b) (succs b')
  /\ match b with BTerm _ _ _ _ _ _ _ _ | BTerms _ => b' = b | _ => True end.

Record keeps (m m' : mem) : Prop := {
  k_len : length m <= length m';
  k_slot : forall n s, nth_error m n = Some s -> exists s', nth_error m' n = Some s' /\ fixed (s_body s) (s_body s')
}.

Lemma fixed_refl : forall b, fixed b b.
Proof. intros b. split; [reflexivity|]. split; [apply incl_refl|]. destruct b; auto. Qed.

Lemma fixed_trans : forall a b c, fixed a b -> fixed b c -> fixed a c.
Proof.
  intros a b c (A1 & A2 & A3) (B1 & B2 & B3). split; [congruence|]. split; [eapply incl_tran; eassumption|].
  destruct a; subst; auto.
Qed.

Lemma fixed_kind : forall b b', fixed b b' -> kind_of b' = kind_of b.
Proof. intros b b' (A & _). assumption. Qed.

Lemma keeps_refl : forall m, keeps m m.
Proof. intros m. split; [lia|]. intros n s E. exists s. split; [assumption|apply fixed_refl]. Qed.

Lemma keeps_trans : forall a b c, keeps a b -> keeps b c -> keeps a c.
Proof.
  intros a b c [A1 A2] [B1 B2]. split; [lia|]. intros n s E. destruct (A2 n s E) as (s' & E' & F).
  destruct (B2 n s' E') as (s'' & E'' & F'). exists s''. split; [assumption|eapply fixed_trans; eassumption].
Qed.

Lemma keeps_kind : forall m m' k n, keeps m m' -> is_kind k m n -> is_kind k m' n.
Proof.
  intros m m' k n K (s & E & S). destruct (k_slot m m' K n s E) as (s' & E' & F). exists s'.
  split; [assumption|]. rewrite (fixed_kind _ _ F). assumption.
Qed.

Lemma keeps_all : forall m m' k l, keeps m m' -> all_kind k m l -> all_kind k m' l.
Proof. intros m m' k l K A n I. eapply keeps_kind; eauto. Qed.

Lemma keeps_typed : forall m m' b, keeps m m' -> typed m b -> typed m' b.
Proof.
  intros m m' b K. destruct b; simpl; auto.
  - intros (A & B & C & D). repeat split; eauto using keeps_all.
  - eauto using keeps_all.
  - intros (A & B & C). repeat split; eauto using keeps_all.
Qed.

Lemma keeps_set : forall m n s s', nth_error m n = Some s -> fixed (s_body s) (s_body s') -> keeps m (set_nth n s' m).
Proof.
  intros m n s s' E F. split; [rewrite set_nth_length; lia|]. intros k x Ek.
  destruct (Nat.eq_dec n k) as [->|N].
  - rewrite E in Ek. injection Ek as ->. exists s'. split; [eapply set_nth_same; eassumption|assumption].
  - exists x. split; [rewrite set_nth_other by assumption; assumption|apply fixed_refl].
Qed.

Lemma keeps_app : forall m x, keeps m (m ++ [x]).
Proof.
  intros m x. split; [rewrite app_length; lia|]. intros n s E. exists s. split; [|apply fixed_refl].
  rewrite nth_error_app1; [assumption|]. apply nth_error_Some. congruence.
Qed.
