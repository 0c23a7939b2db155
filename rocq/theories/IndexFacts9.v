(* What joining, creating, asking and writing do. *)
From Coq Require Import ZArith List Bool Lia.
From Verif Require Import Base Hash IndexVar Index IndexSpec IndexFacts IndexFacts2 IndexFacts3 IndexFacts4
  IndexFacts5 IndexFacts6 IndexFacts7 IndexFacts8.
Import ListNotations.
Local Open Scope Z_scope.

Lemma contents_app : forall h k sons l, contents h k sons l -> forall s ls, content h s ls ->
  contents h k (sons ++ [s]) (l ++ map (deeper (k + Z.of_nat (length sons))) ls).
Proof.
  induction 1 as [k|k s0 sons l l' C0 C1 IH]; intros s ls C.
  - simpl. replace (k + 0) with k by lia. rewrite <- (app_nil_r (map _ ls)). constructor; [assumption|constructor].
  - simpl. rewrite <- app_assoc. constructor; [assumption|].
    replace (k + Z.pos (Pos.of_succ_nat (length sons))) with (k + 1 + Z.of_nat (length sons)) by lia.
    apply IH. assumption.
Qed.

Lemma connect_does : forall h f s g h', reached h -> (f < length (nodes h))%nat -> (s < length (nodes h))%nat ->
  does h (Connect f s g) h' -> h' = connect h f s.
Proof.
  intros h f s g h' R Lf Ls D. destruct g.
  - destruct (connect_pos h f s R Lf Ls) as [A B].
    assert (E : shown h s = []).
    { destruct (shown h s) eqn:E; [reflexivity|]. destruct (A ltac:(discriminate)) as [u U].
      destruct D as [v V]. simpl in U, V. congruence. }
    destruct (B E) as (h1 & D1 & D2). rewrite (does_fun h _ h' h1 D D1). destruct D2 as [u U]. simpl in U. unfold connect_with in U. simpl in U. congruence.
  - destruct D as [u U]. simpl in U. unfold connect_with in U. simpl in U. congruence.
Qed.

Lemma connect_shown : forall h f s x, shown (connect h f s) x = shown h x.
Proof.
  intros h f s x. unfold shown, connect. destruct (Nat.eq_dec f x) as [->|N].
  - destruct (Nat.lt_ge_cases x (length (nodes h))) as [L|L].
    + rewrite !node_set_same by assumption. reflexivity.
    + rewrite (node_out (set_node _ _ _)) by (rewrite len_set; assumption). rewrite (node_out h) by assumption. reflexivity.
  - rewrite !node_set_other by assumption. reflexivity.
Qed.

Lemma joined : forall h f s g h' ls, reached h -> (f < length (nodes h))%nat -> (s < length (nodes h))%nat ->
  does h (Connect f s g) h' ->
  (forall x, x <> f -> node h' x = node h x)
  /\ (forall x, shown h' x = shown h x) /\ cells h' = cells h /\ length (nodes h') = length (nodes h)
  /\ iv_built (node h' f) = false
  /\ (forall x k z, son h' x k z <-> son h x k z \/ (x = f /\ z = s /\ k = Z.of_nat (length (iv_successors (node h f)))))
  /\ ((forall p, ~ at_position h s p f) -> content h s ls ->
      (is_end h f -> content h' f (map (deeper 0) ls))
      /\ (forall lf, ~ is_end h f -> content h f lf ->
            content h' f (lf ++ map (deeper (Z.of_nat (length (iv_successors (node h f))))) ls))
      /\ (forall x lx, content h x lx -> (forall q, ~ at_position h x q f) -> content h' x lx)).
Proof.
  intros h f s g h' ls R Lf Ls D. rewrite (connect_does h f s g h' R Lf Ls D). clear g h' D.
  pose proof (connect_sons false h f s (connect h f s) Lf eq_refl) as So.
  assert (Keep : forall x lx, content h x lx -> (forall q, ~ at_position h x q f) -> content (connect h f s) x lx).
  { intros x lx C N. apply (content_same h); [assumption|]. intros p y A. split; [|intros _; apply connect_shown].
    rewrite So. destruct (Nat.eq_dec f y) as [->|]; [destruct (N p A)|reflexivity]. }
  split; [intros x N; unfold connect; apply node_set_other; congruence|].
  split; [apply connect_shown|]. split; [reflexivity|]. split; [apply len_set|].
  split; [unfold connect; rewrite node_set_same by assumption; reflexivity|].
  split.
  { intros x k z. unfold son. rewrite So. destruct (Nat.eq_dec f x) as [->|N].
    - split.
      + intros [K E]. destruct (Nat.lt_ge_cases (Z.to_nat k) (length (iv_successors (node h x)))) as [L|L].
        * rewrite nth_error_app1 in E by assumption. left. split; assumption.
        * right. rewrite nth_error_app2 in E by assumption.
          destruct (Z.to_nat k - length (iv_successors (node h x)))%nat as [|[|j]] eqn:J; simpl in E; try discriminate.
          injection E as <-. split; [reflexivity|]. split; [reflexivity|lia].
      + intros [[K E]|(_ & -> & ->)].
        * split; [assumption|]. rewrite nth_error_app1; [assumption|]. apply nth_error_Some. congruence.
        * split; [lia|]. rewrite Nat2Z.id, nth_error_app2, Nat.sub_diag by lia. reflexivity.
    - split; [intros H; left; assumption|]. intros [H|(-> & _)]; [assumption|congruence]. }
  intros N C. pose proof (Keep s ls C N) as Cs.
  split; [|split; [|exact Keep]].
  - intros E. unfold is_end in E. eapply content_inner.
    + rewrite So. destruct (Nat.eq_dec f f) as [_|]; [|congruence]. rewrite E. simpl. reflexivity.
    + rewrite <- (app_nil_r (map _ ls)). constructor; [assumption|constructor].
  - intros lf E Cf. unfold is_end in E. inversion Cf as [? X|? z zs ? X Y]; subst; [contradiction|].
    eapply content_inner.
    + rewrite So. destruct (Nat.eq_dec f f) as [_|]; [|congruence]. rewrite X. simpl. reflexivity.
    + assert (Z' : contents (connect h f s) 0 (z :: zs) lf).
      { assert (P : forall y, In y (z :: zs) -> forall q, ~ at_position h y q f).
        { intros y Hy q A. destruct (under_son h f y) as [k K]; [unfold under; rewrite X; assumption|].
          pose proof (content_acc h f lf Cf) as Ac.
          pose proof (acc_acyclic h f Ac (k :: q) (at_son h f k y q f K A)). discriminate. }
        clear -Y Keep P. revert Y P. generalize 0 as k, (z :: zs) as sons. intros k sons Y.
        induction Y as [k|k y sons l l' Cy Cr IH]; intros P; constructor.
        - apply Keep; [assumption|]. intros q. apply P. left; reflexivity.
        - apply IH. intros y' Hy. apply P. right; assumption. }
      change (z :: zs ++ [s]) with ((z :: zs) ++ [s]). rewrite X.
      pose proof (contents_app _ 0 (z :: zs) lf Z' s ls Cs) as T.
      replace (0 + Z.of_nat (length (z :: zs))) with (Z.of_nat (length (z :: zs))) in T by lia. exact T.
Qed.

(* ---- calls that only look ---- *)
Lemma look_shown : forall h n v x, iv_positions v = iv_positions (node h n) -> iv_indices v = iv_indices (node h n) ->
  shown (set_node h n v) x = shown h x.
Proof.
  intros h n v x P I. unfold shown. rewrite values_set. destruct (Nat.eq_dec n x) as [->|N].
  - destruct (Nat.lt_ge_cases x (length (nodes h))) as [L|L].
    + rewrite !node_set_same by assumption. rewrite P, I. reflexivity.
    + rewrite (node_out (set_node _ _ _)) by (rewrite len_set; assumption). rewrite (node_out h) by assumption. reflexivity.
  - rewrite !node_set_other by assumption. reflexivity.
Qed.

Record same_lists (h h' : heap) : Prop := {
  sl_shown : forall x, shown h' x = shown h x;
  sl_sons : forall x, iv_successors (node h' x) = iv_successors (node h x);
  sl_cells : cells h' = cells h;
  sl_len : length (nodes h') = length (nodes h);
  sl_idx : forall x, iv_indices (node h' x) = iv_indices (node h x);
  sl_built : forall x, iv_built (node h' x) = iv_built (node h x)
}.

Lemma sl_set : forall h n v, iv_positions v = iv_positions (node h n) -> iv_indices v = iv_indices (node h n) ->
  iv_successors v = iv_successors (node h n) -> iv_built v = iv_built (node h n) -> same_lists h (set_node h n v).
Proof.
  intros h n v P I S B. constructor.
  - intros x. apply look_shown; assumption.
  - intros x. apply sons_set_other. assumption.
  - reflexivity.
  - apply len_set.
  - intros x. destruct (Nat.eq_dec n x) as [->|N]; [|rewrite node_set_other by assumption; reflexivity].
    destruct (Nat.lt_ge_cases x (length (nodes h))) as [L|L]; [rewrite node_set_same by assumption; assumption|].
    rewrite (node_out (set_node _ _ _)) by (rewrite len_set; assumption). rewrite (node_out h) by assumption. reflexivity.
  - intros x. destruct (Nat.eq_dec n x) as [->|N]; [|rewrite node_set_other by assumption; reflexivity].
    destruct (Nat.lt_ge_cases x (length (nodes h))) as [L|L]; [rewrite node_set_same by assumption; assumption|].
    rewrite (node_out (set_node _ _ _)) by (rewrite len_set; assumption). rewrite (node_out h) by assumption. reflexivity.
Qed.

Lemma sl_refl : forall h, same_lists h h.
Proof. intros. constructor; reflexivity. Qed.

Lemma sl_trans : forall a b c, same_lists a b -> same_lists b c -> same_lists a c.
Proof. intros a b c [A1 A2 A3 A4 A5 A6] [B1 B2 B3 B4 B5 B6]. constructor; intros; congruence. Qed.

Lemma sl_normalized : forall h n, same_lists h (fst (normalized h n)).
Proof.
  intros h n. unfold normalized. destruct (iv_normalized (node h n)); [apply sl_refl|]. cbn [fst].
  apply sl_set; reflexivity.
Qed.

Lemma sl_do_hashing : forall h n, same_lists h (do_hashing h n).
Proof.
  intros h n. unfold do_hashing. pose proof (sl_normalized h n) as A. destruct (normalized h n) as [h1 l].
  cbn [fst] in A. eapply sl_trans; [exact A|]. apply sl_set; reflexivity.
Qed.

Lemma sl_hash_of : forall h n, same_lists h (fst (hash_of h n)).
Proof. intros h n. unfold hash_of. cbn [fst]. destruct (iv_hashed _); [apply sl_refl|apply sl_do_hashing]. Qed.

Lemma sl_equal : forall h n m, same_lists h (fst (equal_iv h n m)).
Proof.
  intros h n m. unfold equal_iv. pose proof (sl_hash_of h n) as A. destruct (hash_of h n) as [h1 a]. cbn [fst] in A.
  pose proof (sl_hash_of h1 m) as B. destruct (hash_of h1 m) as [h2 b]. cbn [fst] in *.
  eapply sl_trans; eassumption.
Qed.

Lemma looked : forall h n m c h', (c = Normalize n \/ c = DoHash n \/ c = Hash n \/ c = Equal n m) -> does h c h' ->
  (forall x, shown h' x = shown h x) /\ cells h' = cells h /\ length (nodes h') = length (nodes h)
  /\ (forall x k z, son h' x k z <-> son h x k z)
  /\ (forall x, iv_indices (node h' x) = iv_indices (node h x))
  /\ (forall x, iv_built (node h' x) = iv_built (node h x))
  /\ (forall x l, content h' x l <-> content h x l).
Proof.
  intros h n m c h' C [u U].
  assert (S : same_lists h h').
  { destruct C as [->|[->|[->| ->]]]; simpl in U; [| |change (Ok (fst (hash_of h n)) = Ok h') in U|
      change (Ok (fst (equal_iv h n m)) = Ok h') in U]; injection U as <-.
    - apply sl_normalized.
    - apply sl_do_hashing.
    - apply sl_hash_of.
    - apply sl_equal. }
  destruct S as [A1 A2 A3 A4 A5 A6]. repeat (split; [assumption|]).
  split; [intros x k z; unfold son; rewrite A2; tauto|]. split; [assumption|]. split; [assumption|].
  intros x l. split; intros C'; (eapply content_same; [exact C'|]); intros p y _; split; auto.
Qed.

(* The hash once computed stays until something changes. *)
Lemma hash_again : forall h n, (n < length (nodes h))%nat -> hash_of (fst (hash_of h n)) n = hash_of h n.
Proof.
  intros h n L. unfold hash_of at 2 3. cbn [fst]. destruct (iv_hashed (node h n)) eqn:E.
  - unfold hash_of. rewrite E. reflexivity.
  - assert (H : iv_hashed (node (do_hashing h n) n) = true).
    { unfold do_hashing, normalized. destruct (iv_normalized (node h n)); simpl.
      - rewrite node_set_same by assumption. reflexivity.
      - rewrite node_set_same by (rewrite len_set; assumption). reflexivity. }
    unfold hash_of. rewrite H. reflexivity.
Qed.

Lemma equal_sym : forall h n m, (n < length (nodes h))%nat -> (m < length (nodes h))%nat ->
  snd (equal_iv h n n) = true /\ snd (equal_iv h n m) = snd (equal_iv h m n).
Proof.
  intros h n m Ln Lm. split.
  - unfold equal_iv. destruct (hash_of h n) as [h1 a] eqn:E.
    pose proof (hash_again h n Ln) as A. rewrite E in A. cbn [fst] in A. rewrite A. simpl. apply Z.eqb_refl.
  - destruct (Nat.eq_dec n m) as [->|N]; [reflexivity|].
    assert (X : forall a b h, a <> b -> (a < length (nodes h))%nat -> (b < length (nodes h))%nat ->
              snd (hash_of (fst (hash_of h a)) b) = snd (hash_of h b)).
    { clear. intros a b h N La Lb.
      assert (O : node (fst (hash_of h a)) b = node h b /\ cells (fst (hash_of h a)) = cells h).
      { unfold hash_of. cbn [fst]. destruct (iv_hashed (node h a)); [split; reflexivity|].
        unfold do_hashing, normalized. destruct (iv_normalized (node h a)); simpl;
          split; try reflexivity; rewrite ?node_set_other by congruence; reflexivity. }
      destruct O as [O C].
      assert (Lb' : (b < length (nodes (fst (hash_of h a))))%nat) by (rewrite (sl_len _ _ (sl_hash_of h a)); assumption).
      revert O C Lb'. generalize (fst (hash_of h a)). intros g O C Lg.
      unfold hash_of. cbn [snd]. rewrite O. destruct (iv_hashed (node h b)) eqn:E; [congruence|].
      unfold do_hashing, normalized. rewrite O. destruct (iv_normalized (node h b)); simpl.
      - rewrite !node_set_same by assumption. reflexivity.
      - rewrite !node_set_same by (rewrite ?len_set; assumption).
        rewrite (values_cells g h) by assumption. reflexivity. }
    pose proof (X n m h N Ln Lm) as A. pose proof (X m n h (not_eq_sym N) Lm Ln) as B.
    unfold equal_iv. destruct (hash_of h n) as [h1 a] eqn:E1. destruct (hash_of h m) as [h2 b] eqn:E2.
    cbn [fst snd] in A, B. destruct (hash_of h1 m) as [h3 a'] eqn:E3. destruct (hash_of h2 n) as [h4 b'] eqn:E4.
    cbn [fst snd] in *. subst. apply Z.eqb_sym.
Qed.

(* ---- creating and writing ---- *)
Lemma created : forall h h', does h Create h' ->
  length (nodes h') = S (length (nodes h)) /\ cells h' = cells h /\ (forall x, node h' x = node h x)
  /\ content h' (length (nodes h)) [] /\ iv_built (node h' (length (nodes h))) = false.
Proof.
  intros h h' [u U]. simpl in U. injection U as <-. 
  split; [simpl; rewrite app_length; simpl; lia|]. split; [reflexivity|].
  assert (N : forall x, node (fst (new_iv h)) x = node h x) by (intros; apply node_create).
  split; [exact N|]. change (Heap (cells h) (nodes h ++ [empty_iv]) (next_id h)) with (fst (new_iv h)).
  assert (E : node (fst (new_iv h)) (length (nodes h)) = empty_iv) by (rewrite N; apply node_out; lia).
  split; [|rewrite E; reflexivity].
  assert (S : shown (fst (new_iv h)) (length (nodes h)) = []) by (unfold shown; rewrite E; reflexivity).
  rewrite <- S. apply content_end. rewrite E. reflexivity.
Qed.

Lemma cell_set : forall h c v x, (c < length (cells h))%nat ->
  cell (set_cell h c v) x = if Nat.eq_dec c x then v else cell h x.
Proof.
  intros h c v x L. unfold cell, set_cell. simpl. destruct (Nat.eq_dec c x) as [->|N].
  - apply rn_same. assumption.
  - apply rn_other. assumption.
Qed.

Lemma nth_combine : forall (A B : Type) (a : list A) (b : list B) i,
  nth_error (List.combine a b) i =
  match nth_error a i, nth_error b i with Some x, Some y => Some (x, y) | _, _ => None end.
Proof.
  intros A B. induction a as [|x a IH]; intros b i; simpl; [destruct i; reflexivity|].
  destruct b as [|y b]; [destruct i; simpl; [reflexivity|destruct (nth_error a i); reflexivity]|].
  destruct i; simpl; [reflexivity|apply IH].
Qed.

Lemma written : forall h c v h', (c < length (cells h))%nat -> does h (Write c v) h' ->
  nodes h' = nodes h /\ length (cells h') = length (cells h)
  /\ forall x i p y, nth_error (shown h x) i = Some (p, y) ->
     (nth_error (iv_indices (node h x)) i = Some c -> nth_error (shown h' x) i = Some (p, v))
     /\ (nth_error (iv_indices (node h x)) i <> Some c -> nth_error (shown h' x) i = Some (p, y)).
Proof.
  intros h c v h' L [u U]. simpl in U. injection U as <-. split; [reflexivity|].
  split; [simpl; apply rn_length|]. intros x i p y E. unfold shown in *. rewrite nth_combine in *.
  change (node (set_cell h c v) x) with (node h x). unfold values in *. rewrite nth_error_map in *.
  destruct (nth_error (iv_positions (node h x)) i) as [q|]; [|discriminate].
  destruct (nth_error (iv_indices (node h x)) i) as [d|]; [|discriminate]. simpl in *. injection E as -> <-.
  rewrite cell_set by assumption. split; intros H.
  - injection H as ->. destruct (Nat.eq_dec c c); [reflexivity|congruence].
  - destruct (Nat.eq_dec c d); [congruence|reflexivity].
Qed.
