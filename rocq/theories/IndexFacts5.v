(* Memory reached by programs; which calls return; adding and removing. *)
From Coq Require Import ZArith List Bool Lia.
From Verif Require Import Base Hash IndexVar Index IndexSpec IndexFacts IndexFacts2 IndexFacts3 IndexFacts4.
Import ListNotations.
Local Open Scope Z_scope.

(* ---- well-formed for ever ---- *)
Lemma sons_wf : forall f h n k sons h', (forall a b c, wf a -> f a b = Ok c -> wf c) -> wf h ->
  build_sons f h n k sons = Ok h' -> wf h'.
Proof.
  intros f h n k sons h' F. revert h k. induction sons as [|s sons IH]; intros h k W H; simpl in H.
  - injection H as <-. assumption.
  - destruct (f h s) as [c| | |] eqn:E; simpl in H; try discriminate.
    apply (IH _ _) in H; [assumption|]. apply wf_append. eapply F; eassumption.
Qed.

Lemma build_wf : forall r f h n h', wf h -> build_with r f h n = Ok h' -> wf h'.
Proof.
  induction f as [|f IH]; intros h n h' W H; simpl in H; [discriminate|].
  destruct (negb r && iv_built (node h n)); [injection H as <-; assumption|].
  destruct (build_sons _ _ _ _ _) as [h2| | |] eqn:E; simpl in H; try discriminate. injection H as <-.
  apply wf_hash. apply wf_mark. eapply sons_wf; [|apply wf_clear; exact W|exact E].
  intros a b c A B. eapply IH; eassumption.
Qed.

Lemma wf_normalized : forall h n, wf h -> wf (fst (normalized h n)).
Proof.
  intros h n W. unfold normalized. destruct (iv_normalized (node h n)); [assumption|].
  apply wf_set; [assumption|]. eapply fits_change; [apply wf_fits; eassumption| | |]; reflexivity.
Qed.

Lemma wf_do_hashing : forall h n, wf h -> wf (do_hashing h n).
Proof.
  intros h n W. unfold do_hashing. pose proof (wf_normalized h n W) as W1.
  destruct (normalized h n) as [h1 l]. apply wf_set; [assumption|].
  eapply fits_change; [apply wf_fits; eassumption| | |]; reflexivity.
Qed.

Lemma wf_hash_of : forall h n, wf h -> wf (fst (hash_of h n)).
Proof. intros. unfold hash_of. simpl. destruct (iv_hashed (node h n)); [assumption|apply wf_do_hashing; assumption]. Qed.

Lemma wf_equal : forall h n m, wf h -> wf (fst (equal_iv h n m)).
Proof.
  intros h n m W. unfold equal_iv. pose proof (wf_hash_of h n W) as W1.
  destruct (hash_of h n) as [h1 a]. pose proof (wf_hash_of h1 m W1) as W2.
  destruct (hash_of h1 m) as [h2 b]. exact W2.
Qed.

Lemma wf_clone : forall h n, wf h -> wf (fst (clone_iv h n)).
Proof.
  intros h n W. unfold clone_iv. simpl.
  set (l := values h (iv_indices (node h n))).
  apply (wf_new (Heap (cells h ++ l) (nodes h) (next_id h))); [apply wf_more_cells; assumption|].
  repeat split; simpl.
  - intros s [].
  - intros c Hc. apply in_seq in Hc. rewrite app_length. unfold l, values. rewrite map_length. lia.
  - rewrite seq_length. apply wf_lists. assumption.
Qed.

Lemma wf_set_cell : forall h c v, wf h -> wf (set_cell h c v).
Proof.
  intros h c v [A B C]. constructor; unfold set_cell, node in *; simpl in *; auto.
  intros n x Hx. rewrite rn_length. eauto.
Qed.

Lemma wf_exec : forall fuel h c h', wf h -> exists_in h c -> exec fuel h c = Ok h' -> wf h'.
Proof.
  intros fuel h c h' W [X Y] E. destruct c; simpl in *.
  - injection E as <-. apply wf_new; [assumption|]. repeat split; simpl; try contradiction.
  - injection E as <-. apply (wf_clone h n W).
  - unfold connect_with in E.
    assert (W1 : wf (connect h father son)) by (apply wf_connect; auto).
    destruct generate_pos; simpl in E; [|injection E as <-; assumption].
    destruct (iv_indices (node (connect h father son) son)) as [|c l] eqn:I; [|discriminate].
    injection E as <-. apply wf_set; [assumption|].
    assert (P : iv_positions (node (connect h father son) son) = []).
    { pose proof (wf_lists _ W1 son) as Z0. rewrite I in Z0. destruct (iv_positions _); [reflexivity|discriminate]. }
    eapply fits_change; [apply wf_fits; exact W1|reflexivity|reflexivity|].
    simpl. rewrite P. simpl. apply app_nil_r.
  - eapply build_wf; eassumption.
  - unfold add in E. destruct (walk _ _ _) as [m| | |]; simpl in E; try discriminate. injection E as <-.
    assert (W1 : wf (forget (Heap (cells h ++ [idx]) (nodes h) (next_id h)) n))
      by (apply wf_forget; apply wf_more_cells; assumption).
    destruct position; (apply wf_push; [try apply wf_wipe; assumption|]); simpl; rewrite app_length; simpl; lia.
  - unfold remove in E. destruct (walk _ _ _) as [m| | |]; simpl in E; try discriminate. injection E as <-.
    apply wf_wipe. apply wf_forget. assumption.
  - injection E as <-. apply wf_normalized; assumption.
  - injection E as <-. apply wf_do_hashing; assumption.
  - injection E as <-. apply (wf_hash_of h n W).
  - injection E as <-. apply wf_equal; assumption.
  - injection E as <-. apply wf_set_cell; assumption.
Qed.

Lemma reached_wf : forall h, reached h -> wf h.
Proof.
  induction 1 as [|h c h' _ IH X [f E]]; [apply wf_start|]. eapply wf_exec; eassumption.
Qed.

(* ---- the same calls whatever the fuel ---- *)
Lemma does_fun : forall h c a b, does h c a -> does h c b -> a = b.
Proof.
  intros h c a b [f A] [g B]. destruct c; simpl in A, B; try congruence. eapply build_same; eassumption.
Qed.

Lemma does_build : forall h n r f h', build_with r f h n = Ok h' -> does h (Build n r) h'.
Proof. intros. exists f. assumption. Qed.

(* ---- sons and cells of the parts ---- *)
Lemma sons_forget : forall h n x, iv_successors (node (forget h n) x) = iv_successors (node h x).
Proof.
  intros. unfold forget. destruct (Nat.eq_dec n x) as [->|E]; [|rewrite node_set_other by assumption; reflexivity].
  destruct (Nat.lt_ge_cases x (length (nodes h))).
  - rewrite node_set_same by assumption. reflexivity.
  - rewrite !node_out by (rewrite ?len_set; assumption). reflexivity.
Qed.

Lemma sons_wipe : forall h n x, iv_successors (node (wipe h n) x) = iv_successors (node h x).
Proof.
  intros. unfold wipe. destruct (Nat.eq_dec n x) as [->|E]; [|rewrite node_set_other by assumption; reflexivity].
  destruct (Nat.lt_ge_cases x (length (nodes h))).
  - rewrite node_set_same by assumption. reflexivity.
  - rewrite !node_out by (rewrite ?len_set; assumption). reflexivity.
Qed.

Lemma sons_push : forall h n c x, iv_successors (node (push h n c) x) = iv_successors (node h x).
Proof.
  intros. unfold push. destruct (Nat.eq_dec n x) as [->|E]; [|rewrite node_set_other by assumption; reflexivity].
  destruct (Nat.lt_ge_cases x (length (nodes h))).
  - rewrite node_set_same by assumption. reflexivity.
  - rewrite !node_out by (rewrite ?len_set; assumption). reflexivity.
Qed.

(* What add leaves behind. *)
Lemma add_inv : forall h n i p h1, add h n i p = Ok h1 -> exists m, at_position h n p m /\
  h1 = push (match p with
             | [] => wipe (forget (Heap (cells h ++ [i]) (nodes h) (next_id h)) n) n
             | _ => forget (Heap (cells h ++ [i]) (nodes h) (next_id h)) n
             end) m (length (cells h)).
Proof.
  intros h n i p h1 E. unfold add in E. destruct (walk _ n p) as [m| | |] eqn:K; simpl in E; try discriminate.
  injection E as <-. exists m. split; [|reflexivity]. apply walk_at.
  rewrite <- K. symmetry. apply walk_sons. intros x.
  destruct p; rewrite ?sons_wipe, sons_forget; reflexivity.
Qed.

Lemma remove_inv : forall h n p h1, remove h n p = Ok h1 -> exists m, at_position h n p m /\
  h1 = wipe (forget h n) m.
Proof.
  intros h n p h1 E. unfold remove in E. destruct (walk _ n p) as [m| | |] eqn:K; simpl in E; try discriminate.
  injection E as <-. exists m. split; [|reflexivity]. apply walk_at.
  rewrite <- K. symmetry. apply walk_sons. apply sons_forget.
Qed.

Lemma add_sons : forall h n i p h1, add h n i p = Ok h1 ->
  forall x, iv_successors (node h1 x) = iv_successors (node h x).
Proof.
  intros h n i p h1 E x. destruct (add_inv _ _ _ _ _ E) as (m & _ & ->).
  rewrite sons_push. destruct p; rewrite ?sons_wipe, sons_forget; reflexivity.
Qed.

Lemma remove_sons : forall h n p h1, remove h n p = Ok h1 ->
  forall x, iv_successors (node h1 x) = iv_successors (node h x).
Proof.
  intros h n p h1 E x. destruct (remove_inv _ _ _ _ E) as (m & _ & ->). rewrite sons_wipe, sons_forget. reflexivity.
Qed.

(* ---- outcomes ---- *)
Lemma add_outcome : forall h n i p, (exists h1, add h n i p = Ok h1) \/ add h n i p = UB.
Proof.
  intros. unfold add. destruct (walk_cases
    (match p with
     | [] => wipe (forget (Heap (cells h ++ [i]) (nodes h) (next_id h)) n) n
     | _ => forget (Heap (cells h ++ [i]) (nodes h) (next_id h)) n
     end) p n) as [[m E]|E].
  - left. rewrite E. simpl. eauto.
  - right. rewrite E. reflexivity.
Qed.

Lemma add_defined : forall h n i p, (exists h1, add h n i p = Ok h1) <-> exists m, at_position h n p m.
Proof.
  intros. split.
  - intros [h1 E]. destruct (add_inv _ _ _ _ _ E) as (m & A & _). eauto.
  - intros [m A]. apply walk_at in A. unfold add.
    erewrite walk_sons with (h := h); [rewrite A; simpl; eauto|].
    intros x. destruct p; rewrite ?sons_wipe, sons_forget; reflexivity.
Qed.

Lemma remove_outcome : forall h n p, (exists h1, remove h n p = Ok h1) \/ remove h n p = UB.
Proof.
  intros. unfold remove. destruct (walk_cases (forget h n) p n) as [[m E]|E]; rewrite E; simpl; eauto.
Qed.

Lemma remove_defined : forall h n p, (exists h1, remove h n p = Ok h1) <-> exists m, at_position h n p m.
Proof.
  intros. split.
  - intros [h1 E]. destruct (remove_inv _ _ _ _ E) as (m & A & _). eauto.
  - intros [m A]. apply walk_at in A. unfold remove.
    erewrite walk_sons with (h := h); [rewrite A; simpl; eauto|]. apply sons_forget.
Qed.

Lemma connect_indices : forall h f s x, iv_indices (node (connect h f s) x) = iv_indices (node h x).
Proof.
  intros. unfold connect. destruct (Nat.eq_dec f x) as [->|E]; [|rewrite node_set_other by assumption; reflexivity].
  destruct (Nat.lt_ge_cases x (length (nodes h))).
  - rewrite node_set_same by assumption. reflexivity.
  - rewrite !node_out by (rewrite ?len_set; assumption). reflexivity.
Qed.

(* Every call returns, is undefined or never returns, and which. *)
Lemma outcome_undefined : forall h c, undefined h c <->
  match c with
  | Add n _ p | Remove n p => ~ exists m, at_position h n p m
  | Connect _ s true => iv_indices (node h s) <> []
  | _ => False
  end.
Proof.
  intros h c. unfold undefined. destruct c; simpl;
    try (split; [intros [f E]; discriminate E|intros []]).
  - destruct generate_pos; unfold connect_with; simpl;
      [|split; [intros [f E]; discriminate E|intros []]].
    rewrite connect_indices. destruct (iv_indices (node h son)) as [|c l].
    + split; [intros [f E]; discriminate E|intros X; contradiction].
    + split; [intros _ X; discriminate X|intros _; exists O; reflexivity].
  - split; [|intros []]. intros [f E]. destruct (build_cases rebuild f h n) as [[h' X]|X]; rewrite X in E; discriminate E.
  - rewrite <- (add_defined h n idx position).
    split.
    + intros [_ E] [h1 X]. rewrite E in X. discriminate X.
    + intros X. exists O. destruct (add_outcome h n idx position) as [Y|Y]; [contradiction|assumption].
  - rewrite <- (remove_defined h n position).
    split.
    + intros [_ E] [h1 X]. rewrite E in X. discriminate X.
    + intros X. exists O. destruct (remove_outcome h n position) as [Y|Y]; [contradiction|assumption].
Qed.

Lemma outcome_returns : forall h c, (match c with Build _ _ => False | _ => True end) ->
  (exists h', does h c h') \/ undefined h c.
Proof.
  intros h c N. unfold does, undefined. destruct c; simpl in *; try contradiction; try (left; eexists; exists O; reflexivity).
  - destruct (connect_with generate_pos h father son) as [h'| | |] eqn:E.
    + left. exists h', O. reflexivity.
    + right. exists O. reflexivity.
    + unfold connect_with in E. destruct generate_pos; simpl in E; [|discriminate].
      destruct (iv_indices _); discriminate.
    + unfold connect_with in E. destruct generate_pos; simpl in E; [|discriminate].
      destruct (iv_indices _); discriminate.
  - destruct (add_outcome h n idx position) as [[h1 E]|E]; [left; exists h1, O; exact E|right; exists O; exact E].
  - destruct (remove_outcome h n position) as [[h1 E]|E]; [left; exists h1, O; exact E|right; exists O; exact E].
Qed.

Lemma not_endless : forall h c, (match c with Build _ _ => False | _ => True end) -> ~ endless h c.
Proof.
  intros h c N E. destruct (outcome_returns h c N) as [[h' [f X]]|[f X]]; rewrite (E f) in X; discriminate X.
Qed.

Lemma rebuild_returns : forall h n, reached h -> (n < length (nodes h))%nat ->
  ((exists h', does h (Build n true) h') <-> exists l, content h n l).
Proof.
  intros h n R L. split.
  - intros [h' [f E]]. simpl in E. apply acc_content. eapply rebuild_acc; eassumption.
  - intros [l C]. destruct (build_returns true h n (content_acc _ _ _ C) h (shape_refl h)) as (f & h' & E).
    exists h', f. exact E.
Qed.

Lemma rebuild_endless : forall h n p m a q, at_position h n p m -> at_position h m (a :: q) m ->
  endless h (Build n true).
Proof.
  intros h n p m a q P Q f. simpl. destruct (build_cases true f h n) as [[h' E]|E]; [|assumption].
  exfalso. eapply cycle_not_acc; [exact P|exact Q|]. eapply rebuild_acc; exact E.
Qed.

Lemma build_no_cycle : forall h n r, reached h -> (n < length (nodes h))%nat ->
  (forall p m q, at_position h n p m -> at_position h m q m -> q = []) ->
  exists h', does h (Build n r) h'.
Proof.
  intros h n r R L N.
  assert (A : Acc (under h) n).
  { apply no_cycle_acc; [apply reached_wf; assumption|assumption|]. intros m q [p P] Q. eapply N; eassumption. }
  destruct (build_returns r h n A h (shape_refl h)) as (f & h' & E). exists h', f. exact E.
Qed.
