(* Concrete programs over index lists. *)
From Coq Require Import ZArith List Bool Lia.
From Verif Require Import Base Hash IndexVar Index IndexSpec IndexFacts IndexFacts2 IndexFacts3 IndexFacts4
  IndexFacts5 IndexFacts6 IndexFacts7 IndexFacts8.
Import ListNotations.
Local Open Scope Z_scope.

(* Running a list of calls, with a check that what they are given exists. *)
Definition given (h : heap) (c : call) : bool :=
  forallb (fun n => Nat.ltb n (length (nodes h))) (objects c)
  && forallb (fun n => Nat.ltb n (length (cells h))) (ints c).

Lemma given_ok : forall h c, given h c = true -> exists_in h c.
Proof.
  intros h c E. apply andb_true_iff in E. destruct E as [A B].
  rewrite forallb_forall in A, B. split; intros x Hx; apply Nat.ltb_lt; auto.
Qed.

Fixpoint run (h : heap) (cs : list call) : option heap :=
  match cs with
  | [] => Some h
  | c :: cs' => if given h c
                then match exec 20 h c with Ok h' => run h' cs' | _ => None end
                else None
  end.

Lemma run_reached : forall cs h h', reached h -> run h cs = Some h' -> reached h'.
Proof.
  induction cs as [|c cs IH]; intros h h' R E; cbn [run] in E; [congruence|].
  destruct (given h c) eqn:G; [|discriminate]. destruct (exec 20 h c) as [h1| | |] eqn:X; try discriminate.
  apply (IH h1 h'); [|assumption]. eapply reached_call; [exact R|apply given_ok; exact G|exists 20%nat; exact X].
Qed.

Definition blank : heap := Heap [] [] 0.
Definition after (cs : list call) : heap := match run blank cs with Some h => h | None => blank end.
Definition fine (cs : list call) : bool := match run blank cs with Some _ => true | None => false end.

Lemma after_reached : forall cs, fine cs = true -> reached (after cs).
Proof.
  intros cs F. unfold fine, after in *. destruct (run blank cs) as [h|] eqn:E; [|discriminate].
  apply (run_reached cs blank h (reached_start)). assumption.
Qed.

(* Checked order. *)
Definition fatherless (h : heap) (n : nat) : bool :=
  forallb (fun v => negb (existsb (Nat.eqb n) (iv_successors v))) (nodes h).

Lemma fatherless_ok : forall h n, fatherless h n = true -> ~ has_father h n.
Proof.
  intros h n F (f & k & S). apply son_under in S. unfold under in S.
  destruct (Nat.lt_ge_cases f (length (nodes h))) as [L|L]; [|rewrite node_out in S by assumption; contradiction].
  unfold fatherless in F. rewrite forallb_forall in F.
  assert (X := F (node h f) (nth_In _ _ L)). apply negb_true_iff in X.
  assert (Y : existsb (Nat.eqb n) (iv_successors (node h f)) = true).
  { apply existsb_exists. exists n. split; [assumption|apply Nat.eqb_refl]. }
  congruence.
Qed.

Definition ended (h : heap) (n : nat) : bool := match iv_successors (node h n) with [] => true | _ => false end.
Definition finished (h : heap) (n : nat) : bool := iv_built (node h n) || ended h n.

Lemma ended_ok : forall h n, ended h n = true -> is_end h n.
Proof. intros h n E. unfold ended, is_end in *. destruct (iv_successors (node h n)); [reflexivity|discriminate]. Qed.

Lemma finished_ok : forall h n, finished h n = true -> iv_built (node h n) = true \/ is_end h n.
Proof. intros h n E. apply orb_true_iff in E. destruct E; [left; assumption|right; apply ended_ok; assumption]. Qed.

Definition order_check (h : heap) (c : call) : bool :=
  match c with
  | Create | Copy _ | Build _ _ => true
  | Connect f s g => negb g && fatherless h f && negb (Nat.eqb s f)
  | Add n _ p | Remove n p => match p with [] => fatherless h n && ended h n | _ => false end
  | Normalize n | DoHash n | Hash n => finished h n
  | Equal n m => finished h n && finished h m
  | Write _ _ => false
  end.

Lemma order_check_ok : forall h c, order_check h c = true -> orderly h c.
Proof.
  intros h c E. destruct c; simpl in E; try discriminate; try constructor;
    repeat match goal with H : _ && _ = true |- _ => apply andb_true_iff in H; destruct H end;
    auto using finished_ok.
  - apply negb_true_iff in H. subst generate_pos. constructor; [apply fatherless_ok; assumption|].
    intros p P. apply negb_true_iff in H0. apply Nat.eqb_neq in H0. apply H0.
    eapply no_father_above; [|exact P]. apply fatherless_ok; assumption.
  - destruct position; [|discriminate]. apply andb_true_iff in E. destruct E.
    constructor; [apply fatherless_ok|apply ended_ok]; assumption.
  - destruct position; [|discriminate]. apply andb_true_iff in E. destruct E.
    constructor; [apply fatherless_ok|apply ended_ok]; assumption.
Qed.

Fixpoint orderly_run (h : heap) (cs : list call) : bool :=
  match cs with
  | [] => true
  | c :: cs' => given h c && order_check h c
                && match exec 20 h c with Ok h' => orderly_run h' cs' | _ => false end
  end.

Lemma orderly_run_ok : forall cs h h', in_order h -> orderly_run h cs = true -> run h cs = Some h' -> in_order h'.
Proof.
  induction cs as [|c cs IH]; intros h h' I O E; cbn [run orderly_run] in *; [congruence|].
  destruct (given h c) eqn:G; [|discriminate]. destruct (order_check h c) eqn:K; [|discriminate].
  destruct (exec 20 h c) as [h1| | |] eqn:X; try discriminate. cbn [andb] in O.
  apply (IH h1 h'); [|assumption|assumption].
  eapply in_order_call; [exact I|apply given_ok; exact G|apply order_check_ok; exact K|exists 20%nat; exact X].
Qed.

Lemma after_in_order : forall cs, fine cs = true -> orderly_run blank cs = true -> in_order (after cs).
Proof.
  intros cs F O. unfold fine, after in *. destruct (run blank cs) as [h|] eqn:E; [|discriminate].
  apply (orderly_run_ok cs blank h in_order_start O E).
Qed.

(* Reading the structure by computation. *)
Fixpoint read_sons (read : nat -> option (list (list Z * Z))) (k : Z) (sons : list nat) : option (list (list Z * Z)) :=
  match sons with
  | [] => Some []
  | s :: sons' => match read s, read_sons read (k + 1) sons' with
                  | Some l, Some l' => Some (map (deeper k) l ++ l')
                  | _, _ => None
                  end
  end.
Fixpoint read (fuel : nat) (h : heap) (n : nat) : option (list (list Z * Z)) :=
  match fuel with
  | O => None
  | S fuel' => match iv_successors (node h n) with
               | [] => Some (shown h n)
               | sons => read_sons (read fuel' h) 0 sons
               end
  end.

Lemma read_ok : forall fuel h n l, read fuel h n = Some l -> content h n l.
Proof.
  induction fuel as [|fuel IH]; intros h n l E; cbn [read] in E; [discriminate|].
  destruct (iv_successors (node h n)) as [|s sons] eqn:S.
  - injection E as <-. apply content_end. assumption.
  - eapply content_inner; [exact S|]. revert E. generalize (s :: sons) 0 l.
    induction l0 as [|x xs IHx]; intros k r E; cbn [read_sons] in E.
    + injection E as <-. constructor.
    + destruct (read fuel h x) as [lx|] eqn:X; [|discriminate].
      destruct (read_sons (read fuel h) (k + 1) xs) as [l'|] eqn:Y; [|discriminate].
      injection E as <-. constructor; [apply IH; exact X|apply IHx; exact Y].
Qed.

(* The result of one more call. *)
Definition then_call (h : heap) (c : call) : heap := match exec 20 h c with Ok h' => h' | _ => h end.
Definition goes (h : heap) (c : call) : bool := match exec 20 h c with Ok _ => true | _ => false end.
Lemma then_ok : forall h c, goes h c = true -> does h c (then_call h c).
Proof. intros h c E. unfold goes, then_call in *. exists 20%nat. destruct (exec 20 h c); try discriminate. reflexivity. Qed.

(* ---- the structure of (&&, <$7 --> a>, <$4 --> $7>): objects
   0 = $7, 1 = <$7 --> a>, 2 = $4, 3 = $7, 4 = <$4 --> $7>, 5 = the whole ---- *)
Definition making : list call :=
  [Create; Create; Create; Create; Create; Create;
   Add 0 7 []; Add 2 4 []; Add 3 7 [];
   Connect 1 0 false; Connect 4 2 false; Connect 4 3 false; Connect 5 1 false; Connect 5 4 false].
Definition made : heap := after making.
Definition finishing : list call := making ++ [Build 5 false].
Definition ready : heap := after finishing.

Lemma made_reached : reached made.
Proof. apply after_reached. vm_compute. reflexivity. Qed.
Lemma ready_reached : reached ready.
Proof. apply after_reached. vm_compute. reflexivity. Qed.
Lemma made_in_order : in_order made.
Proof. apply after_in_order; vm_compute; reflexivity. Qed.
Lemma ready_in_order : in_order ready.
Proof. apply after_in_order; vm_compute; reflexivity. Qed.
Lemma made_content : content made 5 [([0; 0], 7); ([1; 0], 4); ([1; 1], 7)].
Proof. apply (read_ok 20). vm_compute. reflexivity. Qed.
Lemma ready_content : content ready 5 [([0; 0], 7); ([1; 0], 4); ([1; 1], 7)].
Proof. apply (read_ok 20). vm_compute. reflexivity. Qed.
Lemma in_made : (5 < length (nodes made))%nat.
Proof. vm_compute. lia. Qed.
Lemma in_ready : (5 < length (nodes ready))%nat.
Proof. vm_compute. lia. Qed.

(* Before the building the lists are empty. *)
Lemma made_shown : shown made 5 = [].
Proof. vm_compute. reflexivity. Qed.

Lemma ready_at : at_position ready 5 [1; 1] 3.
Proof. apply walk_at. vm_compute. reflexivity. Qed.
Lemma ready_inner : at_position ready 5 [1] 4.
Proof. apply walk_at. vm_compute. reflexivity. Qed.
Lemma ready_end : is_end ready 3.
Proof. vm_compute. reflexivity. Qed.

(* ---- build() does not notice changes below ---- *)
Lemma build_stale_add :
  ~ (forall h n i p l h1 h2, reached h -> (n < length (nodes h))%nat -> does h (Add n i p) h1 ->
       content h1 n l -> does h1 (Build n false) h2 -> shown h2 n = l).
Proof.
  intros H.
  set (h1 := then_call ready (Add 5 9 [1; 1])).
  assert (X : shown (then_call h1 (Build 5 false)) 5 = [([0; 0], 7); ([1; 0], 4); ([1; 1], 7); ([1; 1], 9)]).
  { apply (H ready 5%nat 9 [1; 1] _ h1).
    - exact ready_reached.
    - exact in_ready.
    - apply then_ok. vm_compute. reflexivity.
    - apply (read_ok 20). vm_compute. reflexivity.
    - apply then_ok. vm_compute. reflexivity. }
  revert X. vm_compute. discriminate.
Qed.

(* Object 6 is joined to 1, two steps below 5. *)
Definition joined_below : heap := after (finishing ++ [Create; Add 6 2 []; Connect 1 6 false]).
Lemma build_stale_join :
  ~ (forall h n l h', reached h -> (n < length (nodes h))%nat -> content h n l ->
       does h (Build n false) h' -> shown h' n = l).
Proof.
  intros H.
  assert (X : shown (then_call joined_below (Build 5 false)) 5
     = [([0; 0], 7); ([0; 1], 2); ([1; 0], 4); ([1; 1], 7)]).
  { apply (H joined_below 5%nat).
    - apply after_reached. vm_compute. reflexivity.
    - vm_compute. lia.
    - apply (read_ok 20). vm_compute. reflexivity.
    - apply then_ok. vm_compute. reflexivity. }
  revert X. vm_compute. discriminate.
Qed.

(* ---- adding and removing at an object with components ---- *)
Lemma add_lost :
  ~ (forall h n i p m l h1 h2, reached h -> (n < length (nodes h))%nat -> content h n l -> at_position h n p m ->
       does h (Add n i p) h1 -> does h1 (Build n true) h2 -> In (p, i) (shown h2 n)).
Proof.
  intros H.
  set (h1 := then_call ready (Add 5 9 [1])).
  assert (X : In ([1], 9) (shown (then_call h1 (Build 5 true)) 5)).
  { apply (H ready 5%nat 9 [1] 4%nat _ h1 _ ready_reached in_ready ready_content ready_inner);
      apply then_ok; vm_compute; reflexivity. }
  revert X. vm_compute. intros [X|[X|[X|[]]]]; discriminate X.
Qed.

Lemma remove_lost :
  ~ (forall h n p m l h1 h2, reached h -> (n < length (nodes h))%nat -> content h n l -> at_position h n p m ->
       does h (Remove n p) h1 -> does h1 (Build n true) h2 -> beyond p (shown h2 n) = []).
Proof.
  intros H.
  set (h1 := then_call ready (Remove 5 [1])).
  assert (X : beyond [1] (shown (then_call h1 (Build 5 true)) 5) = []).
  { apply (H ready 5%nat [1] 4%nat _ h1 _ ready_reached in_ready ready_content ready_inner);
      apply then_ok; vm_compute; reflexivity. }
  revert X. vm_compute. discriminate.
Qed.

(* ---- hashes that stay behind ---- *)
Definition hash_after (cs : list call) (n : nat) : bool :=
  let h := after cs in
  let h' := then_call h (Build n true) in
  snd (hash_of h' n) =? proper_hash (shown h' n).

Lemma stale_hash : forall cs n, fine cs = true -> (Nat.ltb n (length (nodes (after cs)))) = true ->
  (match read 20 (after cs) n with Some _ => true | None => false end) = true ->
  goes (after cs) (Build n true) = true -> hash_after cs n = false ->
  exists l h', reached (after cs) /\ (n < length (nodes (after cs)))%nat /\ content (after cs) n l
    /\ does (after cs) (Build n true) h' /\ shown h' n = l /\ snd (hash_of h' n) <> proper_hash l.
Proof.
  intros cs n F L R G N. destruct (read 20 (after cs) n) as [l|] eqn:E; [|discriminate].
  assert (Rr : reached (after cs)) by (apply after_reached; assumption).
  assert (Ln : (n < length (nodes (after cs)))%nat) by (apply Nat.ltb_lt; assumption).
  assert (C : content (after cs) n l) by (apply (read_ok 20); assumption).
  assert (D : does (after cs) (Build n true) (then_call (after cs) (Build n true))) by (apply then_ok; assumption).
  exists l, (then_call (after cs) (Build n true)). repeat split; try assumption.
  - destruct (rebuild_right _ _ _ Rr Ln C) as (h' & D' & S & _).
    rewrite (does_fun _ _ _ _ D D'). assumption.
  - intros X. unfold hash_after in N. apply Z.eqb_neq in N. apply N. rewrite X. f_equal.
    destruct (rebuild_right _ _ _ Rr Ln C) as (h' & D' & S & _).
    rewrite (does_fun _ _ _ _ D D'). symmetry. assumption.
Qed.

(* Something was joined two steps below. *)
Definition joining : list call := finishing ++ [Create; Add 6 2 []; Connect 1 6 false].
Lemma stale_joined : exists l h', reached (after joining) /\ (5 < length (nodes (after joining)))%nat
    /\ content (after joining) 5 l
    /\ does (after joining) (Build 5 true) h' /\ shown h' 5 = l /\ snd (hash_of h' 5) <> proper_hash l.
Proof. apply stale_hash; vm_compute; reflexivity. Qed.

(* An entry was added from the top: the object in between keeps its hash. *)
Definition adding : list call := finishing ++ [Add 5 9 [1; 1]; Build 5 true].
Lemma stale_added : exists l h', reached (after adding) /\ (4 < length (nodes (after adding)))%nat
    /\ content (after adding) 4 l
    /\ does (after adding) (Build 4 true) h' /\ shown h' 4 = l /\ snd (hash_of h' 4) <> proper_hash l.
Proof. apply stale_hash; vm_compute; reflexivity. Qed.

(* The hash was asked for before the first build. *)
Definition asking : list call := making ++ [Hash 5].
Lemma stale_early : exists l h', reached (after asking) /\ (5 < length (nodes (after asking)))%nat
    /\ content (after asking) 5 l
    /\ does (after asking) (Build 5 true) h' /\ shown h' 5 = l /\ snd (hash_of h' 5) <> proper_hash l.
Proof. apply stale_hash; vm_compute; reflexivity. Qed.

(* An int was written to. *)
Definition writing : list call := finishing ++ [Write 2 1].
Lemma stale_written : exists l h', reached (after writing) /\ (5 < length (nodes (after writing)))%nat
    /\ content (after writing) 5 l
    /\ does (after writing) (Build 5 true) h' /\ shown h' 5 = l /\ snd (hash_of h' 5) <> proper_hash l.
Proof. apply stale_hash; vm_compute; reflexivity. Qed.

Definition writes (cs : list call) : bool := existsb (fun c => match c with Write _ _ => true | _ => false end) cs.

Lemma hash_not_kept : 
  ~ (forall h n l h', reached h -> (n < length (nodes h))%nat -> content h n l -> does h (Build n true) h' ->
       snd (hash_of h' n) = proper_hash l).
Proof.
  intros H. destruct stale_joined as (l & h' & A & B & C & D & _ & N). apply N. eapply H; eassumption.
Qed.

(* ---- copies ---- *)
Lemma copy_differs :
  ~ (forall h n l h', reached h -> (n < length (nodes h))%nat -> content h n l -> does h (Copy n) h' ->
       content h' (length (nodes h)) l).
Proof.
  intros H.
  assert (X : content (then_call made (Copy 5)) 6 [([0; 0], 7); ([1; 0], 4); ([1; 1], 7)]).
  { apply (H made 5%nat); [exact made_reached|exact in_made|exact made_content|].
    apply then_ok. vm_compute. reflexivity. }
  assert (Y : content (then_call made (Copy 5)) 6 []) by (apply (read_ok 20); vm_compute; reflexivity).
  pose proof (content_fun _ _ _ _ X Y). discriminate.
Qed.

Lemma copy_no_structure :
  ~ (forall h n l h' p i, reached h -> (n < length (nodes h))%nat -> content h n l -> shown h n = l ->
       does h (Copy n) h' -> undefined h' (Add (length (nodes h)) i p) -> undefined h (Add n i p)).
Proof.
  intros H.
  assert (D : does ready (Copy 5) (then_call ready (Copy 5))) by (apply then_ok; vm_compute; reflexivity).
  assert (X : undefined ready (Add 5 9 [1; 1])).
  { apply (H ready 5%nat _ (then_call ready (Copy 5)) [1; 1] 9 ready_reached in_ready ready_content);
      [vm_compute; reflexivity|exact D|].
    pose proof (copy_facts ready 5%nat _ ready_reached in_ready D) as K. cbv zeta in K.
    destruct K as (_ & _ & _ & _ & _ & _ & K).
    assert (P : [1; 1] <> @nil Z) by discriminate. exact (proj1 (K _ 9 P)). }
  apply outcome_undefined in X. apply X. exists 3%nat. exact ready_at.
Qed.

(* ---- comparison ---- *)
(* A flat object with one component for each of the indices given: objects
   b+1, b+2, ... and b itself. *)
Fixpoint leaves_of (b : nat) (k : nat) (l : list Z) : list call :=
  match l with
  | [] => []
  | v :: l' => [Create; Add (b + k) v []; Connect b (b + k) false] ++ leaves_of b (S k) l'
  end.
Definition flat (b : nat) (l : list Z) : list call := Create :: leaves_of b 1 l ++ [Build b false].
Definition list_one : list Z := [0; 2; 0; 0; 0; 2; 0; 1; 2].
Definition list_two : list Z := [3; 0; 2; 1; 0; 1; 3; 3; 0].
Definition two_lists : heap := after (flat 0 list_one ++ flat 10 list_two).

Lemma collision :
  ~ (forall h n m ln lm, in_order h -> (n < length (nodes h))%nat -> (m < length (nodes h))%nat ->
       iv_built (node h n) = true -> iv_built (node h m) = true -> content h n ln -> content h m lm ->
       (snd (equal_iv h n m) = true <-> normalize (map snd ln) = normalize (map snd lm))).
Proof.
  intros H.
  set (l1 := match read 20 two_lists 0 with Some l => l | None => [] end).
  set (l2 := match read 20 two_lists 10 with Some l => l | None => [] end).
  assert (X : snd (equal_iv two_lists 0 10) = true <-> normalize (map snd l1) = normalize (map snd l2)).
  { apply (H two_lists 0%nat 10%nat).
    - apply after_in_order; vm_compute; reflexivity.
    - vm_compute. lia.
    - vm_compute. lia.
    - vm_compute. reflexivity.
    - vm_compute. reflexivity.
    - apply (read_ok 20). vm_compute. reflexivity.
    - apply (read_ok 20). vm_compute. reflexivity. }
  assert (Y : snd (equal_iv two_lists 0 10) = true) by (vm_compute; reflexivity).
  apply X in Y. revert Y. vm_compute. discriminate.
Qed.

Lemma equal_partial : forall h n m ln lm, in_order h -> (n < length (nodes h))%nat -> (m < length (nodes h))%nat ->
  iv_built (node h n) = true -> iv_built (node h m) = true -> content h n ln -> content h m lm ->
  snd (equal_iv h n m) = (proper_hash ln =? proper_hash lm)
  /\ (normalize (map snd ln) = normalize (map snd lm) -> snd (equal_iv h n m) = true).
Proof.
  intros h n m ln lm I L1 L2 B1 B2 C1 C2.
  assert (E : snd (equal_iv h n m) = (proper_hash ln =? proper_hash lm)) by (apply in_order_equal; auto).
  split; [assumption|]. intros N. rewrite E. unfold proper_hash. rewrite N. apply Z.eqb_refl.
Qed.

(* 4, 9, 4 and 10, 12, 10 *)
Definition alike : heap := after (flat 0 [4; 9; 4] ++ flat 4 [10; 12; 10]).
Lemma alike_case : in_order alike /\ (0 < length (nodes alike))%nat /\ (4 < length (nodes alike))%nat
  /\ iv_built (node alike 0) = true /\ iv_built (node alike 4) = true
  /\ content alike 0 [([0], 4); ([1], 9); ([2], 4)] /\ content alike 4 [([0], 10); ([1], 12); ([2], 10)]
  /\ normalize [4; 9; 4] = normalize [10; 12; 10].
Proof.
  split; [apply after_in_order; vm_compute; reflexivity|].
  split; [vm_compute; lia|]. split; [vm_compute; lia|].
  split; [vm_compute; reflexivity|]. split; [vm_compute; reflexivity|].
  split; [apply (read_ok 20); vm_compute; reflexivity|].
  split; [apply (read_ok 20); vm_compute; reflexivity|]. vm_compute. reflexivity.
Qed.

(* ---- joining with generate_pos ---- *)
Lemma connect_pos_wrong :
  ~ (forall h f s, reached h -> (f < length (nodes h))%nat -> (s < length (nodes h))%nat ->
       (forall p, ~ at_position h s p f) -> exists h', does h (Connect f s true) h').
Proof.
  intros H.
  assert (R : reached (after [Create; Create; Add 1 3 []])) by (apply after_reached; vm_compute; reflexivity).
  assert (L0 : (0 < length (nodes (after [Create; Create; Add 1 3 []])))%nat) by (vm_compute; lia).
  assert (L1 : (1 < length (nodes (after [Create; Create; Add 1 3 []])))%nat) by (vm_compute; lia).
  destruct (H _ 0%nat 1%nat R L0 L1) as [h' [f D]].
  - intros p P. assert (X : 1%nat = 0%nat); [|discriminate X].
    eapply no_father_above; [|exact P]. apply fatherless_ok. vm_compute. reflexivity.
  - destruct (connect_pos _ 0%nat 1%nat R L0 L1) as [U _].
    destruct U as [g G]; [vm_compute; discriminate|].
    cbn [exec] in G, D. rewrite G in D. discriminate D.
Qed.

(* ---- cycles ---- *)
Definition knot : heap := after [Create; Create; Create; Connect 0 1 false; Connect 1 2 false; Connect 2 1 false].
Lemma knot_case : reached knot /\ at_position knot 0 [0] 1 /\ at_position knot 1 [0; 0] 1.
Proof.
  split; [apply after_reached; vm_compute; reflexivity|].
  split; apply walk_at; vm_compute; reflexivity.
Qed.

(* One object under two fathers. *)
Definition shared : heap :=
  after [Create; Create; Create; Create; Add 0 5 []; Connect 1 0 false; Connect 2 0 false;
         Connect 3 1 false; Connect 3 2 false; Connect 3 0 false].
Lemma shared_case : reached shared /\ (3 < length (nodes shared))%nat
  /\ content shared 3 [([0; 0], 5); ([1; 0], 5); ([2], 5)] /\ shown shared 3 = []
  /\ at_position shared 3 [1; 0] 0 /\ at_position shared 3 [2] 0 /\ is_end shared 0
  /\ exists h1, does shared (Add 3 8 [2]) h1.
Proof.
  split; [apply after_reached; vm_compute; reflexivity|]. split; [vm_compute; lia|].
  split; [apply (read_ok 20); vm_compute; reflexivity|]. split; [vm_compute; reflexivity|].
  split; [apply walk_at; vm_compute; reflexivity|]. split; [apply walk_at; vm_compute; reflexivity|].
  split; [vm_compute; reflexivity|]. eexists. apply then_ok. vm_compute. reflexivity.
Qed.

(* Building, adding at the object, removing below, building again. *)
Lemma built_case : exists h1 h2, does made (Build 5 false) h1 /\ calls h1 [Add 5 9 [0; 0]; Remove 5 [1]; Hash 5] h2
  /\ (forall s g, ~ In (Connect 5 s g) [Add 5 9 [0; 0]; Remove 5 [1]; Hash 5])
  /\ content h2 5 [([0; 0], 7); ([0; 0], 9); ([1; 0], 4); ([1; 1], 7)]
  /\ shown h2 5 = [([0; 0], 7); ([1; 0], 4); ([1; 1], 7)].
Proof.
  exists (after finishing), (after (finishing ++ [Add 5 9 [0; 0]; Remove 5 [1]; Hash 5])).
  split; [exists 20%nat; vm_compute; reflexivity|]. split.
  - econstructor; [|exists 20%nat; vm_compute; reflexivity|].
    { split; [intros n [<-|[]]; vm_compute; lia|intros n []]. }
    econstructor; [|exists 20%nat; vm_compute; reflexivity|].
    { split; [intros n [<-|[]]; vm_compute; lia|intros n []]. }
    econstructor; [|exists 20%nat; vm_compute; reflexivity|].
    { split; [intros n [<-|[]]; vm_compute; lia|intros n []]. }
    constructor.
  - split; [intros s g [E|[E|[E|[]]]]; discriminate|].
    split; [apply (read_ok 20); vm_compute; reflexivity|]. vm_compute. reflexivity.
Qed.

Lemma ready_remove : does ready (Remove 5 [1; 1]) (then_call ready (Remove 5 [1; 1])).
Proof. apply then_ok. vm_compute. reflexivity. Qed.

Lemma ready_add : does ready (Add 5 9 [1; 1]) (then_call ready (Add 5 9 [1; 1])).
Proof. apply then_ok. vm_compute. reflexivity. Qed.
