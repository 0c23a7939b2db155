(* Properties of the whole interface of index lists. *)
From Coq Require Import ZArith List Bool Lia.
From Verif Require Import Base Hash IndexVar Index IndexSpec IndexFacts IndexFacts2 IndexFacts3 IndexFacts4
  IndexFacts5 IndexFacts6 IndexFacts7 IndexFacts8 IndexFacts9 IndexFacts10 IndexCases.
Import ListNotations.
Local Open Scope Z_scope.

(* ---- C140 ---- *)
Theorem C140_rebuild : forall h n l, reached h -> (n < length (nodes h))%nat -> content h n l ->
  exists h', does h (Build n true) h' /\ shown h' n = l
  /\ (forall p m, at_position h n p m -> content h m (shown h' m))
  /\ (forall m, (forall p, ~ at_position h n p m) -> node h' m = node h m)
  /\ cells h' = cells h
  /\ (forall m lm, content h m lm <-> content h' m lm).
Proof. exact rebuild_right. Qed.
Print Assumptions C140_rebuild.

Theorem C140_positions : forall h n l q x, content h n l -> at_position h n q x -> exists lx, content h x lx
  /\ beyond q l = map (fun e => (q ++ fst e, snd e)) lx.
Proof. exact position_read. Qed.
Print Assumptions C140_positions.

(* (&&, <$7 --> a>, <$4 --> $7>) not yet built, and an object that is a
   component of three others. *)
Example C140_case : reached made /\ (5 < length (nodes made))%nat
  /\ content made 5 [([0; 0], 7); ([1; 0], 4); ([1; 1], 7)] /\ shown made 5 = [].
Proof. exact (conj made_reached (conj in_made (conj made_content made_shown))). Qed.

Example C140_shared : reached shared /\ (3 < length (nodes shared))%nat
  /\ content shared 3 [([0; 0], 5); ([1; 0], 5); ([2], 5)] /\ shown shared 3 = []
  /\ at_position shared 3 [1; 0] 0 /\ at_position shared 3 [2] 0 /\ is_end shared 0
  /\ exists h1, does shared (Add 3 8 [2]) h1.
Proof. exact shared_case. Qed.

(* ---- C141 ---- *)
Theorem C141_build_refuted :
  ~ (forall h n l h', reached h -> (n < length (nodes h))%nat -> content h n l ->
       does h (Build n false) h' -> shown h' n = l).
Proof. exact build_stale_join. Qed.
Print Assumptions C141_build_refuted.

Theorem C141_add_refuted :
  ~ (forall h n i p l h1 h2, reached h -> (n < length (nodes h))%nat -> does h (Add n i p) h1 ->
       content h1 n l -> does h1 (Build n false) h2 -> shown h2 n = l).
Proof. exact build_stale_add. Qed.
Print Assumptions C141_add_refuted.

(* What is missing: programs that change an object after it has become a
   component of another. *)
Theorem C141_build_partial : forall h n r, in_order h -> (n < length (nodes h))%nat ->
  exists l h', content h n l /\ does h (Build n r) h' /\ shown h' n = l /\ content h' n l
    /\ snd (hash_of h' n) = proper_hash l.
Proof. exact in_order_build. Qed.
Print Assumptions C141_build_partial.

(* Once an object is built, build() does nothing until something is joined to
   the object itself. *)
Theorem C141_again_partial : forall h n r h1 l h2, (n < length (nodes h))%nat -> does h (Build n r) h1 -> calls h1 l h2 ->
  (forall s g, ~ In (Connect n s g) l) -> forall h3, does h2 (Build n false) h3 <-> h3 = h2.
Proof. exact built_again. Qed.
Print Assumptions C141_again_partial.

Example C141_case : in_order made /\ (5 < length (nodes made))%nat
  /\ content made 5 [([0; 0], 7); ([1; 0], 4); ([1; 1], 7)] /\ shown made 5 = [].
Proof. exact (conj made_in_order (conj in_made (conj made_content made_shown))). Qed.
Example C141_again_case : (5 < length (nodes made))%nat
  /\ exists h1 h2, does made (Build 5 false) h1 /\ calls h1 [Add 5 9 [0; 0]; Remove 5 [1]; Hash 5] h2
  /\ (forall s g, ~ In (Connect 5 s g) [Add 5 9 [0; 0]; Remove 5 [1]; Hash 5])
  /\ content h2 5 [([0; 0], 7); ([0; 0], 9); ([1; 0], 4); ([1; 1], 7)]
  /\ shown h2 5 = [([0; 0], 7); ([1; 0], 4); ([1; 1], 7)].
Proof. exact (conj in_made built_case). Qed.

(* ---- C142 ---- *)
Theorem C142_add_refuted :
  ~ (forall h n i p m l h1 h2, reached h -> (n < length (nodes h))%nat -> content h n l -> at_position h n p m ->
       does h (Add n i p) h1 -> does h1 (Build n true) h2 -> In (p, i) (shown h2 n)).
Proof. exact add_lost. Qed.
Print Assumptions C142_add_refuted.

(* What is missing: positions at which an object with components stands; what
   is added there is lost. *)
Theorem C142_add_partial : forall h n i p m l h1, reached h -> (n < length (nodes h))%nat -> content h n l ->
  at_position h n p m -> is_end h m -> does h (Add n i p) h1 ->
  exists h2, does h1 (Build n true) h2
  /\ (p = [] -> shown h2 n = [([], i)])
  /\ (p <> [] -> part_of l (shown h2 n)
      /\ (forall q, at_position h n q m -> beyond q (shown h2 n) = beyond q l ++ [(q, i)])
      /\ (forall q x, at_position h n q x -> is_end h x -> x <> m -> beyond q (shown h2 n) = beyond q l))
  /\ (forall x lx, content h x lx -> (forall q, ~ at_position h x q m) -> content h2 x lx).
Proof. exact added. Qed.
Print Assumptions C142_add_partial.

Theorem C142_lost_partial : forall h n p m l c h1, reached h -> (n < length (nodes h))%nat -> content h n l ->
  at_position h n p m -> ~ is_end h m -> (c = Remove n p \/ exists i, c = Add n i p) -> does h c h1 ->
  exists h2, does h1 (Build n true) h2 /\ shown h2 n = l.
Proof. exact inner_lost. Qed.
Print Assumptions C142_lost_partial.

Example C142_case : reached ready /\ (5 < length (nodes ready))%nat
  /\ content ready 5 [([0; 0], 7); ([1; 0], 4); ([1; 1], 7)]
  /\ at_position ready 5 [1; 1] 3 /\ is_end ready 3 /\ (exists h, does ready (Add 5 9 [1; 1]) h)
  /\ at_position ready 5 [1] 4.
Proof.
  exact (conj ready_reached (conj in_ready (conj ready_content (conj ready_at (conj ready_end
    (conj (ex_intro _ _ ready_add) ready_inner)))))).
Qed.

(* ---- C143 ---- *)
Theorem C143_remove_refuted :
  ~ (forall h n p m l h1 h2, reached h -> (n < length (nodes h))%nat -> content h n l -> at_position h n p m ->
       does h (Remove n p) h1 -> does h1 (Build n true) h2 -> beyond p (shown h2 n) = []).
Proof. exact remove_lost. Qed.
Print Assumptions C143_remove_refuted.

(* What is missing: as in C142. *)
Theorem C143_remove_partial : forall h n p m l h1, reached h -> (n < length (nodes h))%nat -> content h n l ->
  at_position h n p m -> is_end h m -> does h (Remove n p) h1 ->
  exists h2, does h1 (Build n true) h2
  /\ part_of (shown h2 n) l
  /\ (forall q, at_position h n q m -> beyond q (shown h2 n) = [])
  /\ (forall q x, at_position h n q x -> is_end h x -> x <> m -> beyond q (shown h2 n) = beyond q l)
  /\ (forall x lx, content h x lx -> (forall q, ~ at_position h x q m) -> content h2 x lx).
Proof. exact removed. Qed.
Print Assumptions C143_remove_partial.

Example C143_case : reached ready /\ (5 < length (nodes ready))%nat
  /\ content ready 5 [([0; 0], 7); ([1; 0], 4); ([1; 1], 7)]
  /\ at_position ready 5 [1; 1] 3 /\ is_end ready 3 /\ exists h, does ready (Remove 5 [1; 1]) h.
Proof.
  exact (conj ready_reached (conj in_ready (conj ready_content (conj ready_at (conj ready_end
    (ex_intro _ _ ready_remove)))))).
Qed.

(* ---- C144 ---- *)
Theorem C144_hash_refuted :
  ~ (forall h n l h', reached h -> (n < length (nodes h))%nat -> content h n l -> does h (Build n true) h' ->
       snd (hash_of h' n) = proper_hash l).
Proof. exact hash_not_kept. Qed.
Print Assumptions C144_hash_refuted.

(* Something was joined two steps below. *)
Theorem C144_joined_refuted : exists l h', reached (after joining) /\ (5 < length (nodes (after joining)))%nat
    /\ content (after joining) 5 l
    /\ does (after joining) (Build 5 true) h' /\ shown h' 5 = l /\ snd (hash_of h' 5) <> proper_hash l.
Proof. exact stale_joined. Qed.
Print Assumptions C144_joined_refuted.

(* An entry was added two steps below: the object in between. *)
Theorem C144_added_refuted : exists l h', reached (after adding) /\ (4 < length (nodes (after adding)))%nat
    /\ content (after adding) 4 l
    /\ does (after adding) (Build 4 true) h' /\ shown h' 4 = l /\ snd (hash_of h' 4) <> proper_hash l.
Proof. exact stale_added. Qed.
Print Assumptions C144_added_refuted.

(* The hash was asked for before the first build. *)
Theorem C144_early_refuted : exists l h', reached (after asking) /\ (5 < length (nodes (after asking)))%nat
    /\ content (after asking) 5 l
    /\ does (after asking) (Build 5 true) h' /\ shown h' 5 = l /\ snd (hash_of h' 5) <> proper_hash l.
Proof. exact stale_early. Qed.
Print Assumptions C144_early_refuted.

(* An int was written to. *)
Theorem C144_written_refuted : exists l h', reached (after writing) /\ (5 < length (nodes (after writing)))%nat
    /\ content (after writing) 5 l
    /\ does (after writing) (Build 5 true) h' /\ shown h' 5 = l /\ snd (hash_of h' 5) <> proper_hash l.
Proof. exact stale_written. Qed.
Print Assumptions C144_written_refuted.

(* What is missing: the hashes of objects other than the one the change was
   made on; see also C141_build_partial. *)
Theorem C144_hash_partial : forall h n c h1 l, reached h -> exists_in h c -> (n < length (nodes h))%nat ->
  ((exists i p, c = Add n i p) \/ (exists p, c = Remove n p) \/ (exists s, c = Connect n s false)) ->
  does h c h1 -> content h1 n l ->
  exists h2, does h1 (Build n true) h2 /\ shown h2 n = l /\ snd (hash_of h2 n) = proper_hash l.
Proof. exact changed_hash. Qed.
Print Assumptions C144_hash_partial.

Example C144_case : reached ready /\ exists_in ready (Add 5 9 [1; 1]) /\ exists h1, does ready (Add 5 9 [1; 1]) h1
  /\ content h1 5 [([0; 0], 7); ([1; 0], 4); ([1; 1], 7); ([1; 1], 9)].
Proof.
  split; [exact ready_reached|]. split; [apply given_ok; vm_compute; reflexivity|].
  exists (then_call ready (Add 5 9 [1; 1])). split; [apply then_ok; vm_compute; reflexivity|].
  apply (read_ok 20). vm_compute. reflexivity.
Qed.

(* ---- C145 ---- *)
Theorem C145_copy_refuted :
  ~ (forall h n l h', reached h -> (n < length (nodes h))%nat -> content h n l -> does h (Copy n) h' ->
       content h' (length (nodes h)) l).
Proof. exact copy_differs. Qed.
Print Assumptions C145_copy_refuted.

Theorem C145_structure_refuted :
  ~ (forall h n l h' p i, reached h -> (n < length (nodes h))%nat -> content h n l -> shown h n = l ->
       does h (Copy n) h' -> undefined h' (Add (length (nodes h)) i p) -> undefined h (Add n i p)).
Proof. exact copy_no_structure. Qed.
Print Assumptions C145_structure_refuted.

(* What is missing: the components of the original. *)
Theorem C145_copy_partial : forall h n h', reached h -> (n < length (nodes h))%nat -> does h (Copy n) h' ->
  let k := length (nodes h) in
  length (nodes h') = S k
  /\ shown h' k = shown h n /\ content h' k (shown h n)
  /\ (forall x, (x < k)%nat -> node h' x = node h x /\ shown h' x = shown h x)
  /\ (forall c v, In c (iv_indices (node h' k)) -> forall x, x <> k -> shown (set_cell h' c v) x = shown h' x)
  /\ (forall c v x, x <> k -> In c (iv_indices (node h' x)) -> shown (set_cell h' c v) k = shown h' k)
  /\ (forall p i, p <> [] -> undefined h' (Add k i p) /\ undefined h' (Remove k p)).
Proof. exact copy_facts. Qed.
Print Assumptions C145_copy_partial.

Example C145_case : reached ready /\ (5 < length (nodes ready))%nat /\ (exists h', does ready (Copy 5) h')
  /\ shown ready 5 = [([0; 0], 7); ([1; 0], 4); ([1; 1], 7)].
Proof.
  split; [exact ready_reached|]. split; [exact in_ready|].
  split; [eexists; apply then_ok; vm_compute; reflexivity|vm_compute; reflexivity].
Qed.

(* ---- C146 ---- *)
Theorem C146_equal_refuted :
  ~ (forall h n m ln lm, in_order h -> (n < length (nodes h))%nat -> (m < length (nodes h))%nat ->
       iv_built (node h n) = true -> iv_built (node h m) = true -> content h n ln -> content h m lm ->
       (snd (equal_iv h n m) = true <-> normalize (map snd ln) = normalize (map snd lm))).
Proof. exact collision. Qed.
Print Assumptions C146_equal_refuted.

(* What is missing: different lists whose hashes agree in 32 bits. *)
Theorem C146_equal_partial : forall h n m ln lm, in_order h -> (n < length (nodes h))%nat -> (m < length (nodes h))%nat ->
  iv_built (node h n) = true -> iv_built (node h m) = true -> content h n ln -> content h m lm ->
  snd (equal_iv h n m) = (proper_hash ln =? proper_hash lm)
  /\ (normalize (map snd ln) = normalize (map snd lm) -> snd (equal_iv h n m) = true).
Proof. exact equal_partial. Qed.
Print Assumptions C146_equal_partial.

(* In any state, built or not. *)
Theorem C146_symmetric_partial : forall h n m, (n < length (nodes h))%nat -> (m < length (nodes h))%nat ->
  snd (equal_iv h n n) = true /\ snd (equal_iv h n m) = snd (equal_iv h m n).
Proof. exact equal_sym. Qed.
Print Assumptions C146_symmetric_partial.

Example C146_case : in_order alike /\ (0 < length (nodes alike))%nat /\ (4 < length (nodes alike))%nat
  /\ iv_built (node alike 0) = true /\ iv_built (node alike 4) = true
  /\ content alike 0 [([0], 4); ([1], 9); ([2], 4)] /\ content alike 4 [([0], 10); ([1], 12); ([2], 10)]
  /\ normalize [4; 9; 4] = normalize [10; 12; 10].
Proof. exact alike_case. Qed.

(* ---- C147 ---- *)
Theorem C147_positions_refuted :
  ~ (forall h f s, reached h -> (f < length (nodes h))%nat -> (s < length (nodes h))%nat ->
       (forall p, ~ at_position h s p f) -> exists h', does h (Connect f s true) h').
Proof. exact connect_pos_wrong. Qed.
Print Assumptions C147_positions_refuted.

(* What is missing: components that have entries. *)
Theorem C147_positions_partial : forall h f s, reached h -> (f < length (nodes h))%nat -> (s < length (nodes h))%nat ->
  (shown h s <> [] -> undefined h (Connect f s true))
  /\ (shown h s = [] -> exists h', does h (Connect f s true) h' /\ does h (Connect f s false) h').
Proof. exact connect_pos. Qed.
Print Assumptions C147_positions_partial.

Example C147_case : reached made /\ shown made 5 = [] /\ shown made 0 = [([], 7)].
Proof. split; [exact made_reached|]. split; vm_compute; reflexivity. Qed.

(* ---- C148 ---- *)
Theorem C148_returns : forall h n, reached h -> (n < length (nodes h))%nat ->
  ((exists h', does h (Build n true) h') <-> exists l, content h n l).
Proof. exact rebuild_returns. Qed.
Print Assumptions C148_returns.

Theorem C148_endless : forall h n p m a q, at_position h n p m -> at_position h m (a :: q) m ->
  endless h (Build n true).
Proof. exact rebuild_endless. Qed.
Print Assumptions C148_endless.

Theorem C148_no_cycle : forall h n r, reached h -> (n < length (nodes h))%nat ->
  (forall p m q, at_position h n p m -> at_position h m q m -> q = []) ->
  exists h', does h (Build n r) h'.
Proof. exact build_no_cycle. Qed.
Print Assumptions C148_no_cycle.

Theorem C148_acyclic : acyclic (Heap [] [] 0) /\
  forall h c h', acyclic h -> exists_in h c ->
  (forall f s g, c = Connect f s g -> forall p, ~ at_position h s p f) -> does h c h' -> acyclic h'.
Proof. exact (conj acyclic_start acyclic_step). Qed.
Print Assumptions C148_acyclic.

Example C148_case : reached knot /\ at_position knot 0 [0] 1 /\ at_position knot 1 [0; 0] 1.
Proof. exact knot_case. Qed.

(* ---- C149 ---- *)
Theorem C149_undefined : forall h c, undefined h c <->
  match c with
  | Add n _ p | Remove n p => ~ exists m, at_position h n p m
  | Connect _ s true => iv_indices (node h s) <> []
  | _ => False
  end.
Proof. exact outcome_undefined. Qed.
Print Assumptions C149_undefined.

Theorem C149_others : forall h c, (match c with Build _ _ => False | _ => True end) ->
  ((exists h', does h c h') \/ undefined h c) /\ ~ endless h c.
Proof. exact (fun h c N => conj (outcome_returns h c N) (not_endless h c N)). Qed.
Print Assumptions C149_others.

Theorem C149_lists : forall h n, reached h ->
  length (iv_positions (node h n)) = length (iv_indices (node h n))
  /\ (forall c, In c (iv_indices (node h n)) -> (c < length (cells h))%nat)
  /\ (forall s, In s (iv_successors (node h n)) -> (s < length (nodes h))%nat).
Proof. exact (fun h n R => let W := reached_wf h R in conj (wf_lists h W n) (conj (wf_cells h W n) (wf_sons h W n))). Qed.
Print Assumptions C149_lists.

Example C149_case : ~ exists m, at_position ready 5 [1; 2] m.
Proof.
  intros [m A]. apply walk_at in A. revert A. vm_compute. discriminate.
Qed.

(* ---- C150 ---- *)
Theorem C150_connect : forall h f s g h' ls, reached h -> (f < length (nodes h))%nat -> (s < length (nodes h))%nat ->
  does h (Connect f s g) h' ->
  (forall x, x <> f -> node h' x = node h x)
  /\ (forall x, shown h' x = shown h x) /\ cells h' = cells h /\ length (nodes h') = length (nodes h)
  /\ iv_built (node h' f) = false
  /\ (forall x k z, son h' x k z <-> son h x k z \/ (x = f /\ z = s /\ k = Z.of_nat (length (iv_successors (node h f)))))
  /\ ((forall p, ~ at_position h s p f) -> content h s ls ->
      (is_end h f -> content h' f (map (deeper 0) ls))
      /\ (forall lf, ~ is_end h f -> content h f lf ->
            content h' f (lf ++ map (deeper (Z.of_nat (length (iv_successors (node h f))))) ls))
      /\ (forall x lx, content h x lx -> (forall q, ~ at_position h x q f) -> content h' x lx)).
Proof. exact joined. Qed.
Print Assumptions C150_connect.

Theorem C150_asking : forall h n m c h', (c = Normalize n \/ c = DoHash n \/ c = Hash n \/ c = Equal n m) -> does h c h' ->
  (forall x, shown h' x = shown h x) /\ cells h' = cells h /\ length (nodes h') = length (nodes h)
  /\ (forall x k z, son h' x k z <-> son h x k z)
  /\ (forall x, iv_indices (node h' x) = iv_indices (node h x))
  /\ (forall x, iv_built (node h' x) = iv_built (node h x))
  /\ (forall x l, content h' x l <-> content h x l).
Proof. exact looked. Qed.
Print Assumptions C150_asking.

Theorem C150_create : forall h h', does h Create h' ->
  length (nodes h') = S (length (nodes h)) /\ cells h' = cells h /\ (forall x, node h' x = node h x)
  /\ content h' (length (nodes h)) [] /\ iv_built (node h' (length (nodes h))) = false.
Proof. exact created. Qed.
Print Assumptions C150_create.

Theorem C150_write : forall h c v h', (c < length (cells h))%nat -> does h (Write c v) h' ->
  nodes h' = nodes h /\ length (cells h') = length (cells h)
  /\ forall x i p y, nth_error (shown h x) i = Some (p, y) ->
     (nth_error (iv_indices (node h x)) i = Some c -> nth_error (shown h' x) i = Some (p, v))
     /\ (nth_error (iv_indices (node h x)) i <> Some c -> nth_error (shown h' x) i = Some (p, y)).
Proof. exact written. Qed.
Print Assumptions C150_write.

Example C150_case : reached made /\ (0 < length (cells made))%nat /\ (exists h', does made (Connect 5 4 false) h')
  /\ ~ is_end made 5 /\ content made 5 [([0; 0], 7); ([1; 0], 4); ([1; 1], 7)]
  /\ content made 4 [([0], 4); ([1], 7)] /\ (forall p, ~ at_position made 4 p 5).
Proof.
  split; [exact made_reached|]. split; [vm_compute; lia|].
  split; [eexists; exists O; reflexivity|]. split; [intros H; vm_compute in H; discriminate|].
  split; [exact made_content|]. split; [apply (read_ok 20); vm_compute; reflexivity|].
  intros p A. pose proof (in_order_acyclic made made_in_order) as Y.
  assert (B : at_position made 5 (1 :: p) 5).
  { econstructor; [|exact A]. split; [lia|vm_compute; reflexivity]. }
  apply Y in B. discriminate.
Qed.
