(* Facts about the memory of index lists. *)
From Coq Require Import ZArith List Bool Lia.
From Verif Require Import Base Hash IndexVar Index IndexSpec.
Import ListNotations.
Local Open Scope Z_scope.

(* ---- replacing an element ---- *)
Lemma rn_length : forall (A : Type) n (x : A) l, length (replace_nth n x l) = length l.
Proof. intros A n x l. revert n. induction l; intros [|n]; simpl; auto. Qed.

Lemma rn_same : forall (A : Type) n (x d : A) l, (n < length l)%nat -> nth n (replace_nth n x l) d = x.
Proof. intros A n x d l. revert n. induction l; intros [|n] H; simpl in *; try lia; auto. apply IHl; lia. Qed.

Lemma rn_other : forall (A : Type) n m (x d : A) l, n <> m -> nth m (replace_nth n x l) d = nth m l d.
Proof.
  intros A n m x d l. revert n m. induction l; intros [|n] [|m] H; simpl; auto; try contradiction.
Qed.

Lemma node_set_same : forall h n v, (n < length (nodes h))%nat -> node (set_node h n v) n = v.
Proof. intros. unfold node, set_node. simpl. apply rn_same; assumption. Qed.

Lemma node_set_other : forall h n m v, n <> m -> node (set_node h n v) m = node h m.
Proof. intros. unfold node, set_node. simpl. apply rn_other; assumption. Qed.

Lemma cells_set : forall h n v, cells (set_node h n v) = cells h.
Proof. reflexivity. Qed.

Lemma len_set : forall h n v, length (nodes (set_node h n v)) = length (nodes h).
Proof. intros. unfold set_node. simpl. apply rn_length. Qed.

Lemma node_out : forall h n, (length (nodes h) <= n)%nat -> node h n = empty_iv.
Proof. intros. unfold node. apply nth_overflow; assumption. Qed.

Lemma values_set : forall h n v cs, values (set_node h n v) cs = values h cs.
Proof. reflexivity. Qed.

Lemma values_cells : forall h h' cs, cells h = cells h' -> values h cs = values h' cs.
Proof. intros. unfold values, cell. rewrite H. reflexivity. Qed.

(* ---- well-formed memory ---- *)
Record wf (h : heap) : Prop := {
  wf_sons : forall n s, In s (iv_successors (node h n)) -> (s < length (nodes h))%nat;
  wf_cells : forall n c, In c (iv_indices (node h n)) -> (c < length (cells h))%nat;
  wf_lists : forall n, length (iv_positions (node h n)) = length (iv_indices (node h n))
}.

Definition fits (h : heap) (v : ivnode) : Prop :=
  (forall s, In s (iv_successors v) -> (s < length (nodes h))%nat)
  /\ (forall c, In c (iv_indices v) -> (c < length (cells h))%nat)
  /\ length (iv_positions v) = length (iv_indices v).

Lemma wf_fits : forall h n, wf h -> fits h (node h n).
Proof. intros h n [A B C]. repeat split; eauto. Qed.

Lemma wf_set : forall h n v, wf h -> fits h v -> wf (set_node h n v).
Proof.
  intros h n v W (A & B & C).
  assert (D : forall m, fits h (node (set_node h n v) m)).
  { intros m. destruct (Nat.eq_dec n m) as [->|E].
    - destruct (Nat.lt_ge_cases m (length (nodes h))) as [L|L].
      + rewrite node_set_same by assumption. repeat split; assumption.
      + rewrite node_out by (rewrite len_set; assumption).
        repeat split; simpl; try contradiction.
    - rewrite node_set_other by assumption. apply wf_fits; assumption. }
  constructor; intros m; try (intros x Hx); destruct (D m) as (A' & B' & C').
  - rewrite len_set. auto.
  - rewrite cells_set. auto.
  - assumption.
Qed.

Lemma wf_start : wf (Heap [] [] 0).
Proof. constructor; intros [|n]; simpl; intros; try contradiction; reflexivity. Qed.

(* ---- effects of the parts on one object ---- *)
Ltac fit := match goal with
  | |- fits ?h _ => let F := fresh in
      pose proof wf_fits as F;
      repeat split; simpl; intros; rewrite ?app_length; simpl
  end.

Lemma fits_change : forall h v v', fits h v ->
  iv_successors v' = iv_successors v -> iv_indices v' = iv_indices v -> iv_positions v' = iv_positions v ->
  fits h v'.
Proof. intros h v v' (A & B & C) E1 E2 E3. unfold fits. rewrite E1, E2, E3. repeat split; assumption. Qed.

Lemma wf_forget : forall h n, wf h -> wf (forget h n).
Proof. intros. apply wf_set; [assumption|]. eapply fits_change; [apply wf_fits; eassumption| | |]; reflexivity. Qed.

Lemma wf_wipe : forall h n, wf h -> wf (wipe h n).
Proof.
  intros h n W. apply wf_set; [assumption|]. destruct (wf_fits h n W) as (A & _ & _).
  repeat split; simpl; try assumption; contradiction.
Qed.

Lemma wf_clear : forall h n, wf h -> wf (clear_lists h n).
Proof.
  intros h n W. unfold clear_lists. destruct (iv_successors (node h n)) as [|s l] eqn:E; [assumption|].
  rewrite <- E. apply (wf_wipe h n W).
Qed.

Lemma wf_mark : forall h n, wf h -> wf (mark_built h n).
Proof. intros. apply wf_set; [assumption|]. eapply fits_change; [apply wf_fits; eassumption| | |]; reflexivity. Qed.

Lemma wf_hash : forall h n, wf h -> wf (hash_iv h n).
Proof.
  intros h n W. unfold hash_iv. destruct (iv_hashed (node h n)); [assumption|].
  apply wf_set; [assumption|]. eapply fits_change; [apply wf_fits; eassumption| | |]; reflexivity.
Qed.

Lemma wf_append : forall h n k s, wf h -> wf (append_son h n k s).
Proof.
  intros h n k s W. apply wf_set; [assumption|].
  destruct (wf_fits h n W) as (A & B & C). destruct (wf_fits h s W) as (A' & B' & C').
  repeat split; simpl.
  - assumption.
  - intros c Hc. apply in_app_or in Hc. destruct Hc; auto.
  - rewrite !app_length, map_length, C, C'. reflexivity.
Qed.

Lemma wf_connect : forall h f s, wf h -> (s < length (nodes h))%nat -> wf (connect h f s).
Proof.
  intros h f s W L. apply wf_set; [assumption|].
  destruct (wf_fits h f W) as (A & B & C). repeat split; simpl; try assumption.
  intros x Hx. apply in_app_or in Hx. destruct Hx as [Hx|[<-|[]]]; auto.
Qed.

Lemma wf_push : forall h n c, wf h -> (c < length (cells h))%nat -> wf (push h n c).
Proof.
  intros h n c W L. apply wf_set; [assumption|].
  destruct (wf_fits h n W) as (A & B & C). repeat split; simpl; try assumption.
  - intros x Hx. apply in_app_or in Hx. destruct Hx as [Hx|[<-|[]]]; auto.
  - rewrite !app_length, C. reflexivity.
Qed.

Lemma wf_more_cells : forall h l, wf h -> wf (Heap (cells h ++ l) (nodes h) (next_id h)).
Proof.
  intros h l [A B C]. constructor; simpl; unfold node in *; simpl in *; eauto.
  intros n c H. rewrite app_length. specialize (B n c H). lia.
Qed.

Lemma node_new : forall h v m, node (Heap (cells h) (nodes h ++ [v]) (next_id h)) m
  = if Nat.eq_dec m (length (nodes h)) then v else node h m.
Proof.
  intros. unfold node. simpl. destruct (Nat.eq_dec m (length (nodes h))) as [->|E].
  - rewrite app_nth2 by lia. rewrite Nat.sub_diag. reflexivity.
  - destruct (Nat.lt_ge_cases m (length (nodes h))).
    + rewrite app_nth1 by assumption. reflexivity.
    + rewrite !nth_overflow; [reflexivity|lia|rewrite app_length; simpl; lia].
Qed.

Lemma wf_new : forall h v, wf h -> fits h v -> wf (Heap (cells h) (nodes h ++ [v]) (next_id h)).
Proof.
  intros h v W (A & B & C). constructor; intros m; try (intros x Hx); revert Hx || idtac;
    rewrite node_new; destruct (Nat.eq_dec m (length (nodes h))); simpl; rewrite ?app_length; simpl;
    try (intros Hx); auto.
  - specialize (A x Hx). lia.
  - pose proof (wf_sons h W m x Hx). lia.
  - apply (wf_cells h W m x Hx).
  - apply (wf_lists h W m).
Qed.
