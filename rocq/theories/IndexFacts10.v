(* Objects stay built. *)
From Coq Require Import ZArith List Bool Lia.
From Verif Require Import Base Hash IndexVar Index IndexSpec IndexFacts IndexFacts2 IndexFacts3 IndexFacts4 IndexFacts5.
Import ListNotations.
Local Open Scope Z_scope.

Definition ready (h : heap) (n : nat) : Prop := (n < length (nodes h))%nat /\ iv_built (node h n) = true.

Lemma ready_set : forall h k v n, ready h n -> (k = n -> iv_built v = true) -> ready (set_node h k v) n.
Proof.
  intros h k v n [L B] K. split; [rewrite len_set; assumption|]. destruct (Nat.eq_dec k n) as [->|N].
  - rewrite node_set_same by assumption. auto.
  - rewrite node_set_other by assumption. assumption.
Qed.

Lemma ready_cells : forall h n cs k, ready h n -> ready (Heap cs (nodes h) k) n.
Proof. intros h n cs k R. exact R. Qed.

Lemma ready_grow : forall h n cs v k, ready h n -> ready (Heap cs (nodes h ++ [v]) k) n.
Proof.
  intros h n cs v k [L B]. split; [simpl; rewrite app_length; simpl; lia|]. unfold node in *. simpl. rewrite app_nth1 by assumption. assumption.
Qed.

Lemma ready_hash : forall h k n, ready h n -> ready (hash_iv h k) n.
Proof. intros h k n R. unfold hash_iv. destruct (iv_hashed (node h k)); [assumption|]. apply ready_set; [assumption|]. intros ->. apply R. Qed.

Lemma ready_mark : forall h k n, ready h n -> ready (mark_built h k) n.
Proof. intros h k n R. apply ready_set; [assumption|reflexivity]. Qed.

Lemma ready_clear : forall h k n, ready h n -> ready (clear_lists h k) n.
Proof. intros h k n R. unfold clear_lists. destruct (iv_successors (node h k)); [assumption|]. apply ready_set; [assumption|]. intros ->. apply R. Qed.

Lemma ready_append : forall h k b s n, ready h n -> ready (append_son h k b s) n.
Proof. intros h k b s n R. apply ready_set; [assumption|]. intros ->. apply R. Qed.

Lemma ready_build : forall r f h k h' n, build_with r f h k = Ok h' -> ready h n -> ready h' n.
Proof.
  intros r. induction f as [|f IH]; intros h k h' n E R; [discriminate|]. simpl in E.
  destruct (negb r && iv_built (node h k)); [injection E as <-; assumption|].
  destruct (build_sons (build_with r f) (clear_lists h k) k 0 (iv_successors (node (clear_lists h k) k))) as [h2| | |] eqn:Q; try discriminate.
  simpl in E. injection E as <-. apply ready_hash, ready_mark.
  apply (ready_clear h k n) in R. revert R Q. generalize (iv_successors (node (clear_lists h k) k)). generalize 0. generalize (clear_lists h k).
  intros g b sons. revert g b. induction sons as [|s sons IHs]; intros g b R Q; simpl in Q; [assert (h2 = g) as -> by congruence; assumption|].
  destruct (build_with r f g s) as [g1| | |] eqn:B; try discriminate. simpl in Q. apply (IHs _ _ (ready_append _ _ _ _ _ (IH _ _ _ _ B R)) Q).
Qed.

Lemma build_ready : forall r f h k h', (k < length (nodes h))%nat -> build_with r f h k = Ok h' -> ready h' k.
Proof.
  intros r f h k h' L E. destruct f as [|f]; [discriminate|]. simpl in E.
  destruct (negb r && iv_built (node h k)) eqn:B.
  - injection E as <-. apply andb_true_iff in B. split; [assumption|apply B].
  - destruct (build_sons (build_with r f) (clear_lists h k) k 0 (iv_successors (node (clear_lists h k) k))) as [h2| | |] eqn:Q; try discriminate.
    simpl in E. injection E as <-. apply ready_hash.
    assert (L2 : (k < length (nodes h2))%nat).
    { assert (L1 : (k < length (nodes (clear_lists h k)))%nat).
      { unfold clear_lists. destruct (iv_successors (node h k)); [assumption|rewrite len_set; assumption]. }
      revert L1 Q. generalize (iv_successors (node (clear_lists h k) k)). generalize 0. generalize (clear_lists h k).
      intros g b sons. revert g b. induction sons as [|s sons IHs]; intros g b L1 Q; simpl in Q; [assert (h2 = g) as -> by congruence; assumption|].
      destruct (build_with r f g s) as [g1| | |] eqn:Bd; try discriminate. simpl in Q. eapply IHs; [|exact Q].
      unfold append_son. rewrite len_set. pose proof (build_shape _ _ _ _ _ Bd) as Sh.
      rewrite (sh_len _ _ Sh). assumption. }
    split; [unfold mark_built; rewrite len_set; assumption|]. unfold mark_built. rewrite node_set_same by assumption. reflexivity.
Qed.

Lemma ready_normalized : forall h k n, ready h n -> ready (fst (normalized h k)) n.
Proof. intros h k n R. unfold normalized. destruct (iv_normalized (node h k)); [assumption|]. apply ready_set; [assumption|]. intros ->. apply R. Qed.

Lemma ready_do_hashing : forall h k n, ready h n -> ready (do_hashing h k) n.
Proof.
  intros h k n R. unfold do_hashing. apply (ready_normalized h k) in R. destruct (normalized h k) as [h1 l]. simpl in R.
  apply ready_set; [assumption|]. intros ->. apply R.
Qed.

Lemma ready_hash_of : forall h k n, ready h n -> ready (fst (hash_of h k)) n.
Proof. intros h k n R. unfold hash_of. simpl. destruct (iv_hashed (node h k)); [assumption|]. apply ready_do_hashing. assumption. Qed.

Lemma ready_forget : forall h k n, ready h n -> ready (forget h k) n.
Proof. intros h k n R. apply ready_set; [assumption|]. intros ->. apply R. Qed.
Lemma ready_wipe : forall h k n, ready h n -> ready (wipe h k) n.
Proof. intros h k n R. apply ready_set; [assumption|]. intros ->. apply R. Qed.
Lemma ready_push : forall h k c n, ready h n -> ready (push h k c) n.
Proof. intros h k c n R. apply ready_set; [assumption|]. intros ->. apply R. Qed.

Lemma ready_call : forall h c h' n, does h c h' -> (forall s g, c <> Connect n s g) -> ready h n -> ready h' n.
Proof.
  intros h c h' n [f E] N R. destruct c; simpl in E.
  - injection E as <-. apply ready_grow. assumption.
  - injection E as <-. apply ready_grow. assumption.
  - assert (Ne : father <> n) by (intros ->; exact (N _ _ eq_refl)). unfold connect_with in E.
    assert (R1 : ready (connect h father son) n) by (apply ready_set; [assumption|congruence]).
    destruct (negb generate_pos); [injection E as <-; assumption|].
    destruct (iv_indices (node (connect h father son) son)); [|discriminate]. injection E as <-.
    apply ready_set; [assumption|congruence].
  - eapply ready_build; eassumption.
  - unfold add in E.
    set (h1 := forget (Heap (cells h ++ [idx]) (nodes h) (next_id h)) n0) in E.
    assert (R1 : ready h1 n) by (apply ready_forget, ready_cells; assumption).
    set (h2 := match position with [] => wipe h1 n0 | _ => h1 end) in E.
    assert (R2 : ready h2 n) by (unfold h2; destruct position; [apply ready_wipe|]; assumption).
    destruct (walk h2 n0 position) as [k| | |]; try discriminate. simpl in E. injection E as <-. apply ready_push. assumption.
  - unfold remove in E. destruct (walk (forget h n0) n0 position) as [k| | |]; try discriminate. simpl in E. injection E as <-.
    apply ready_wipe, ready_forget. assumption.
  - injection E as <-. apply ready_normalized. assumption.
  - injection E as <-. apply ready_do_hashing. assumption.
  - replace h' with (fst (hash_of h n0)) by (injection E as <-; reflexivity). apply ready_hash_of. assumption.
  - replace h' with (fst (equal_iv h n0 m)) by (injection E as <-; reflexivity). unfold equal_iv. pose proof (ready_hash_of h n0 n R) as R1.
    destruct (hash_of h n0) as [h1 a]. simpl in R1. pose proof (ready_hash_of h1 m n R1) as R2. destruct (hash_of h1 m) as [h2 b]. exact R2.
  - injection E as <-. apply ready_cells. assumption.
Qed.

Theorem built_again : forall h n r h1 l h2, (n < length (nodes h))%nat -> does h (Build n r) h1 -> calls h1 l h2 ->
  (forall s g, ~ In (Connect n s g) l) -> forall h3, does h2 (Build n false) h3 <-> h3 = h2.
Proof.
  intros h n r h1 l h2 L [f B] C N. simpl in B. apply build_ready in B; [|assumption].
  assert (R : ready h2 n).
  { induction C as [g|g c g1 l g' X D C IH]; [assumption|]. apply IH.
    - eapply ready_call; [exact D| |exact B]. intros s p ->. apply (N s p). left. reflexivity.
    - intros s p I. apply (N s p). right. assumption. }
  intros h3. split.
  - intros [[|k] K]; simpl in K; [discriminate|]. rewrite (proj2 R) in K. simpl in K. congruence.
  - intros ->. exists 1%nat. simpl. rewrite (proj2 R). reflexivity.
Qed.
