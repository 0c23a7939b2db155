(* What building index lists does. *)
From Coq Require Import ZArith List Bool Lia.
From Verif Require Import Base Hash IndexVar Index IndexSpec IndexFacts.
Import ListNotations.
Local Open Scope Z_scope.

(* ---- two memories with the same structure and the same ends ---- *)
Record shape (h h' : heap) : Prop := {
  sh_cells : cells h' = cells h;
  sh_len : length (nodes h') = length (nodes h);
  sh_sons : forall n, iv_successors (node h' n) = iv_successors (node h n);
  sh_ends : forall n, iv_successors (node h n) = [] -> iv_positions (node h' n) = iv_positions (node h n)
      /\ iv_indices (node h' n) = iv_indices (node h n)
}.

Lemma shape_refl : forall h, shape h h.
Proof. intros. constructor; auto. Qed.

Lemma shape_trans : forall a b c, shape a b -> shape b c -> shape a c.
Proof.
  intros a b c [A1 A2 A3 A4] [B1 B2 B3 B4]. constructor; try congruence.
  intros n E. destruct (A4 n E) as [E1 E2]. rewrite <- A3 in E. destruct (B4 n E) as [E3 E4].
  split; congruence.
Qed.

Lemma shape_sym : forall a b, shape a b -> shape b a.
Proof.
  intros a b [A1 A2 A3 A4]. constructor; auto.
  intros n E. rewrite A3 in E. destruct (A4 n E). split; congruence.
Qed.

Scheme content_min := Minimality for content Sort Prop
  with contents_min := Minimality for contents Sort Prop.
Combined Scheme content_both from content_min, contents_min.

Lemma shown_shape : forall h h' n, shape h h' -> iv_successors (node h n) = [] -> shown h' n = shown h n.
Proof.
  intros h h' n S E. destruct (sh_ends h h' S n E) as [A B]. unfold shown. rewrite A, B.
  f_equal. apply values_cells. apply sh_cells; assumption.
Qed.

Lemma content_shape : forall h h', shape h h' -> forall n l, content h n l -> content h' n l.
Proof.
  intros h h' S.
  apply (content_min h (fun n l => content h' n l) (fun k sons l => contents h' k sons l)).
  - intros n E. rewrite <- (shown_shape h h' n S E). apply content_end.
    rewrite (sh_sons h h' S). assumption.
  - intros n s sons l E _ IH. eapply content_inner; [rewrite (sh_sons h h' S); eassumption|assumption].
  - intros. constructor.
  - intros. constructor; assumption.
Qed.

Lemma content_fun_both : forall h,
  (forall n l, content h n l -> forall l', content h n l' -> l = l')
  /\ (forall k sons l, contents h k sons l -> forall l', contents h k sons l' -> l = l').
Proof.
  intros h. apply content_both.
  - intros n E l' H. inversion H; subst; [reflexivity|congruence].
  - intros n s sons l E _ IH l' H. inversion H as [? E'|? s' sons' ? E' H']; subst; [congruence|].
    rewrite E in E'. injection E' as <- <-. auto.
  - intros k l' H. inversion H. reflexivity.
  - intros k s sons l l1 _ IH1 _ IH2 l' H. inversion H; subst.
    f_equal; [f_equal; auto|auto].
Qed.

Lemma content_fun : forall h n l l', content h n l -> content h n l' -> l = l'.
Proof. intros h n l l' A B. exact (proj1 (content_fun_both h) n l A l' B). Qed.

(* ---- no endless descent ---- *)
Definition under (h : heap) (s n : nat) : Prop := In s (iv_successors (node h n)).

Lemma content_acc : forall h n l, content h n l -> Acc (under h) n.
Proof.
  intros h.
  apply (content_min h (fun n _ => Acc (under h) n) (fun _ sons _ => forall s, In s sons -> Acc (under h) s)).
  - intros n E. constructor. intros s Hs. unfold under in Hs. rewrite E in Hs. contradiction.
  - intros n s sons l E _ IH. constructor. intros x Hx. unfold under in Hx. rewrite E in Hx. auto.
  - intros k s [].
  - intros k s sons l l' _ IH1 _ IH2 x [<-|Hx]; auto.
Qed.

Lemma acc_content : forall h n, Acc (under h) n -> exists l, content h n l.
Proof.
  intros h n H. induction H as [n _ IH].
  assert (forall sons k, (forall s, In s sons -> In s (iv_successors (node h n))) ->
            exists l, contents h k sons l) as G.
  { induction sons as [|s sons IHs]; intros k I; [eexists; constructor|].
    destruct (IH s (I s (or_introl eq_refl))) as [l L].
    destruct (IHs (k + 1) (fun x X => I x (or_intror X))) as [l' L'].
    eexists. constructor; eassumption. }
  destruct (iv_successors (node h n)) as [|s sons] eqn:E.
  - eexists. apply content_end. assumption.
  - destruct (G (s :: sons) 0) as [l L]; [auto|]. exists l. eapply content_inner; eassumption.
Qed.

(* ---- positions ---- *)
Lemma son_under : forall h n k s, son h n k s -> under h s n.
Proof. intros h n k s [_ E]. eapply nth_error_In; eassumption. Qed.

Lemma under_son : forall h n s, under h s n -> exists k, son h n k s.
Proof.
  intros h n s H. destruct (In_nth_error _ _ H) as [i E].
  exists (Z.of_nat i). split; [lia|]. rewrite Nat2Z.id. assumption.
Qed.

Lemma at_app : forall h n p m q r, at_position h n p m -> at_position h m q r -> at_position h n (p ++ q) r.
Proof. induction 1; intros; simpl; [assumption|]. econstructor; eauto. Qed.

Lemma acc_acyclic : forall h n, Acc (under h) n -> forall p, at_position h n p n -> p = [].
Proof.
  induction 1 as [n _ IH]. intros p H. inversion H as [|? k s q ? S A]; subst; [reflexivity|].
  exfalso. assert (B : at_position h s (q ++ [k]) s).
  { eapply at_app; [eassumption|]. econstructor; [eassumption|constructor]. }
  apply (IH s (son_under _ _ _ _ S)) in B. destruct q; discriminate.
Qed.

Lemma at_shape : forall h h', shape h h' -> forall n p m, at_position h n p m -> at_position h' n p m.
Proof.
  intros h h' S n p m H. induction H as [|n k s p m [A B] _ IH]; [constructor|].
  econstructor; [split; [assumption|]|exact IH]. rewrite (sh_sons h h' S). assumption.
Qed.

Lemma under_shape : forall h h', shape h h' -> forall n, Acc (under h) n -> Acc (under h') n.
Proof.
  intros h h' S n H. induction H as [n _ IH]. constructor. intros s Hs. apply IH.
  unfold under in *. rewrite <- (sh_sons h h' S). assumption.
Qed.

Definition below (h : heap) (n m : nat) : Prop := exists p, at_position h n p m.

Lemma below_refl : forall h n, below h n n.
Proof. intros. exists []. constructor. Qed.

Lemma below_son : forall h n s m, under h s n -> below h s m -> below h n m.
Proof.
  intros h n s m U [p P]. destruct (under_son h n s U) as [k K]. exists (k :: p). econstructor; eassumption.
Qed.

Lemma below_inv : forall h n m, below h n m -> m = n \/ exists s, under h s n /\ below h s m.
Proof.
  intros h n m [p P]. inversion P as [|? k s q ? S A]; subst; [left; reflexivity|right].
  exists s. split; [eapply son_under; eassumption|exists q; assumption].
Qed.

Lemma below_shape : forall h h', shape h h' -> forall n m, below h n m -> below h' n m.
Proof. intros h h' S n m [p P]. exists p. eapply at_shape; eassumption. Qed.

(* ---- the steps of build ---- *)
Lemma hash_node_other : forall h n m, m <> n -> node (hash_iv h n) m = node h m.
Proof.
  intros. unfold hash_iv. destruct (iv_hashed (node h n)); [reflexivity|].
  apply node_set_other; congruence.
Qed.

Lemma hash_keeps : forall h n m,
  iv_positions (node (hash_iv h n) m) = iv_positions (node h m)
  /\ iv_indices (node (hash_iv h n) m) = iv_indices (node h m)
  /\ iv_successors (node (hash_iv h n) m) = iv_successors (node h m)
  /\ iv_built (node (hash_iv h n) m) = iv_built (node h m).
Proof.
  intros. destruct (Nat.eq_dec m n) as [->|E]; [|rewrite hash_node_other by assumption; auto].
  unfold hash_iv. destruct (iv_hashed (node h n)); [auto|].
  destruct (Nat.lt_ge_cases n (length (nodes h))) as [L|L].
  - rewrite node_set_same by assumption. simpl. auto.
  - rewrite !node_out by (rewrite ?len_set; assumption). auto.
Qed.

Lemma hash_cells : forall h n, cells (hash_iv h n) = cells h.
Proof. intros. unfold hash_iv. destruct (iv_hashed (node h n)); reflexivity. Qed.

Lemma hash_len : forall h n, length (nodes (hash_iv h n)) = length (nodes h).
Proof. intros. unfold hash_iv. destruct (iv_hashed (node h n)); [reflexivity|apply len_set]. Qed.

(* Entries of the lists of one object after a change of another kind. *)
Lemma shown_same : forall h h' n, cells h' = cells h -> iv_positions (node h' n) = iv_positions (node h n) ->
  iv_indices (node h' n) = iv_indices (node h n) -> shown h' n = shown h n.
Proof. intros. unfold shown. rewrite H0, H1. f_equal. apply values_cells; assumption. Qed.

Lemma combine_app : forall (A B : Type) (a a' : list A) (b b' : list B), length a = length b ->
  List.combine (a ++ a') (b ++ b') = List.combine a b ++ List.combine a' b'.
Proof.
  induction a as [|x a IH]; intros a' [|y b] b' E; simpl in *; try discriminate; [reflexivity|].
  f_equal. apply IH. lia.
Qed.

Lemma combine_deeper : forall k ps vs,
  List.combine (map (cons k) ps) vs = map (deeper k) (List.combine ps vs).
Proof. induction ps as [|p ps IH]; intros [|v vs]; simpl; auto. f_equal. apply IH. Qed.

Lemma shown_append : forall h n k s, wf h -> (n < length (nodes h))%nat ->
  shown (append_son h n k s) n = shown h n ++ map (deeper k) (shown h s).
Proof.
  intros h n k s W L. unfold append_son, shown. rewrite node_set_same by assumption. simpl.
  rewrite values_set. unfold values at 1. rewrite map_app.
  rewrite combine_app by (rewrite map_length; apply wf_lists; assumption).
  rewrite combine_deeper. reflexivity.
Qed.

(* ---- what a finished build guarantees ---- *)
(* The lists kept in m are those read off the structure of h0. *)
Definition right (h0 h : heap) (m : nat) : Prop := content h0 m (shown h m).

(* The hash and the normalised list kept in m, if any, belong to l. *)
Definition kept (v : ivnode) (l : list (list Z * Z)) : Prop :=
  (iv_hashed v = true -> iv_hash v = proper_hash l)
  /\ (forall x, iv_normalized v = Some x -> x = normalize (map snd l)).

Record built_by (r : bool) (h0 h h' : heap) (n : nat) : Prop := {
  bb_shape : shape h0 h';
  bb_wf : wf h';
  bb_right : right h0 h' n;
  bb_built : iv_built (node h' n) = true;
  bb_all : r = true -> forall m, below h0 n m -> right h0 h' m /\ iv_built (node h' m) = true
             /\ iv_hashed (node h' m) = true;
  bb_keep : forall m, right h0 h m -> right h0 h' m;
  bb_frame : forall m, ~ below h0 n m -> node h' m = node h m;
  bb_new : forall m, iv_built (node h' m) = true -> iv_built (node h m) = true \/ right h0 h' m;
  bb_kept : forall m l, content h0 m l -> kept (node h m) l -> kept (node h' m) l;
  bb_hashed : forall m, iv_hashed (node h m) = true -> iv_hashed (node h' m) = true;
  bb_stays : forall m, iv_built (node h m) = true -> iv_built (node h' m) = true;
  bb_same : forall m, iv_built (node h' m) = false -> node h' m = node h m
}.
