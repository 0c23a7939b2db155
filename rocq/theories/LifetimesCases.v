(* Programs that make, share and release terms. *)
From Coq Require Import String ZArith List Bool Arith Lia.
From Verif Require Import Base Lifetimes LifetimesSpec LifetimesFacts LifetimesFacts4 LifetimesFacts6.
Import ListNotations.
Local Open Scope nat_scope.

(* Nothing is ever left out. *)
Definition keep_all (m : mem) (l : list nat) : list nat := seq 0 (length l).
Lemma keep_all_proper : proper_choice keep_all.
Proof. intros m l. split; [apply seq_NoDup|]. intros i I. apply in_seq in I. lia. Qed.

(* The first of several is left out. *)
Definition drop_first (m : mem) (l : list nat) : list nat := match l with [_] => [0] | _ => seq 1 (length l - 1) end.
Lemma drop_first_proper : proper_choice drop_first.
Proof.
  intros m l. unfold drop_first. destruct l as [|x [|y l]].
  - split; [constructor|]. intros i [].
  - split; [repeat constructor; simpl; tauto|]. intros i [<-|[]]. simpl. lia.
  - split; [apply seq_NoDup|]. intros i I. apply in_seq in I. simpl in *. lia.
Qed.

Definition kind_b (f : body -> bool) (m : mem) (n : nat) : bool := match nth_error m n with Some s => f (s_body s) | None => false end.
Definition term_b (m : mem) (n : nat) : bool := kind_b (fun b => match b with BTerm _ _ _ _ _ _ _ _ => true | _ => false end) m n.
Definition terms_b (m : mem) (n : nat) : bool := kind_b (fun b => match b with BTerms _ => true | _ => false end) m n.
Definition held_b (n : nat) (l : list nat) : bool := existsb (Nat.eqb n) l.
Definition points_b (m : mem) (n r : nat) : bool :=
  match nth_error m n with Some s => s_live s && held_b r (refs (s_body s)) | None => false end.
Definition dup_b (deep : bool) (m : mem) (n : nat) : bool :=
  kind_b (fun b => match b with BTerm CStatement _ _ _ _ _ _ _ | BTerm CCompound _ _ _ _ _ _ _ => true
                              | BTerm (CVariable _) _ _ _ _ _ _ _ => deep | _ => false end) m n.
Definition allowed_b (m : mem) (held : list nat) (a : action) : bool :=
  match a with
  | MakeSimple c => match c with CPlain | COperation | CInterval => true | _ => false end
  | MakeVariable _ _ _ => true
  | MakeTerms l => forallb (fun n => held_b n held && term_b m n) l
  | MakeStatement s p _ => held_b s held && held_b p held && term_b m s && term_b m p
  | MakeCompound t _ => held_b t held && terms_b m t
  | Clone n => held_b n held && term_b m n
  | Duplicate n deep => held_b n held && dup_b deep m n
  | Take n r => held_b n held && points_b m n r
  | Copy n | Drop n => held_b n held
  end.

Lemma held_ok : forall n l, held_b n l = true -> In n l.
Proof. intros n l E. apply existsb_exists in E. destruct E as (x & I & Q). apply Nat.eqb_eq in Q. subst. assumption. Qed.

Lemma term_ok : forall m n, term_b m n = true -> is_term m n.
Proof.
  intros m n E. unfold term_b, kind_b in E. destruct (nth_error m n) as [s|] eqn:Q; [|discriminate].
  destruct (s_body s) as [c f a b t x y z| | | |] eqn:B; try discriminate. exists s, c, f, a, b, t, x, y, z. auto.
Qed.

Lemma terms_ok : forall m n, terms_b m n = true -> is_terms m n.
Proof.
  intros m n E. unfold terms_b, kind_b in E. destruct (nth_error m n) as [s|] eqn:Q; [|discriminate].
  destruct (s_body s) as [|l| | |] eqn:B; try discriminate. exists s, l. auto.
Qed.

Lemma points_ok : forall m n r, points_b m n r = true -> points m n r.
Proof.
  intros m n r E. unfold points_b in E. destruct (nth_error m n) as [s|] eqn:Q; [|discriminate]. apply andb_true_iff in E.
  destruct E as [L I]. exists s. split; [assumption|]. split; [assumption|]. apply held_ok. assumption.
Qed.

Lemma allowed_ok : forall m held a, allowed_b m held a = true -> allowed m held a.
Proof.
  intros m held a E. destruct a; simpl in *; try exact I;
    repeat match goal with H : _ && _ = true |- _ => apply andb_true_iff in H; destruct H end;
    auto using held_ok, term_ok, terms_ok, points_ok.
  - destruct c; try discriminate; auto.
  - rewrite forallb_forall in E. intros n I. specialize (E n I). apply andb_true_iff in E. destruct E.
    auto using held_ok, term_ok.
  - split; [apply held_ok; assumption|]. unfold dup_b, kind_b in H0. destruct (nth_error m n) as [s|] eqn:Q; [|discriminate].
    destruct (s_body s) as [c f a b t x y z| | | |] eqn:B; try discriminate. destruct c; try discriminate.
    + right; right. split; [assumption|]. exists name, s, f, a, b, t, x, y, z. auto.
    + left. exists s, f, a, b, t, x, y, z. auto.
    + right; left. exists s, f, a, b, t, x, y, z. auto.
Qed.

Fixpoint run (choose : mem -> list nat -> list nat) (m : mem) (held : list nat) (l : list action) : option (mem * list nat) :=
  match l with
  | [] => Some (m, held)
  | a :: l' => if allowed_b m held a then
                 match act false choose m held a with Ok (m', held') => run choose m' held' l' | _ => None end
               else None
  end.
Lemma run_reached : forall choose l m held m' held', reached choose m held -> run choose m held l = Some (m', held') ->
  reached choose m' held'.
Proof.
  intros choose. induction l as [|a l IH]; intros m held m' held' R E; simpl in E.
  - injection E as <- <-. assumption.
  - destruct (allowed_b m held a) eqn:A; [|discriminate]. destruct (act false choose m held a) as [[m1 h1]| | |] eqn:Q; try discriminate.
    apply (IH m1 h1); [|assumption]. eapply reached_act; [exact R|apply allowed_ok; exact A|exact Q].
Qed.

Definition state (choose : mem -> list nat -> list nat) (l : list action) : mem * list nat :=
  match run choose [] [] l with Some x => x | None => ([], []) end.
Lemma state_reached : forall choose l m held, state choose l = (m, held) -> m <> [] -> reached choose m held.
Proof.
  intros choose l m held E N. unfold state in E. destruct (run choose [] [] l) as [[m' h']|] eqn:Q.
  - injection E as <- <-. eapply run_reached; [apply reached_start|exact Q].
  - injection E as <- <-. congruence.
Qed.

Lemma reach_path : forall m held n, (exists p, In p held /\ points m p n) -> reachable m held n.
Proof. intros m held n (p & I & P). eapply reach_next; [apply reach_held; eassumption|assumption]. Qed.

(* <$1 --> A> and the Terms {<$1 --> A>, A} *)
Definition shared : list action :=
  [MakeVariable Independent "x" true; MakeSimple CPlain; MakeStatement 3 8 true; Drop 3].
Definition shared_m : mem := Eval vm_compute in fst (state keep_all shared).
Definition shared_h : list nat := Eval vm_compute in snd (state keep_all shared).
Lemma shared_reached : reached keep_all shared_m shared_h.
Proof. apply (state_reached keep_all shared); [vm_compute; reflexivity|discriminate]. Qed.

(* ... and the Terms {<$1 --> A>, A}, of which a compound is made with
   clones. *)
Definition pair : list action := shared ++ [MakeTerms [18; 8]].
Definition pair_m : mem := Eval vm_compute in fst (state keep_all pair).
Definition pair_h : list nat := Eval vm_compute in snd (state keep_all pair).
Lemma pair_reached : reached keep_all pair_m pair_h.
Proof. apply (state_reached keep_all pair); [vm_compute; reflexivity|discriminate]. Qed.

Lemma pair_compound : allowed pair_m pair_h (MakeCompound 19 false).
Proof. apply allowed_ok. vm_compute. reflexivity. Qed.

(* ... after which only the compound and A are held. *)
Definition whole : list action := pair ++ [MakeCompound 19 false; Drop 19; Drop 18].
Definition whole_m : mem := Eval vm_compute in fst (state keep_all whole).
Definition whole_h : list nat := Eval vm_compute in snd (state keep_all whole).
Lemma whole_reached : reached keep_all whole_m whole_h.
Proof. apply (state_reached keep_all whole); [vm_compute; reflexivity|discriminate]. Qed.

Lemma not_alive : forall m n, match nth_error m n with Some s => negb (s_live s) | None => true end = true -> ~ alive m n.
Proof. intros m n E (s & A & B). rewrite A, B in E. discriminate. Qed.
Lemma yes_alive : forall m n, match nth_error m n with Some s => s_live s | None => false end = true -> alive m n.
Proof. intros m n E. destruct (nth_error m n) as [s|] eqn:Q; [|discriminate]. exists s. auto. Qed.

(* The clone of the variable lives on inside; the variable itself is gone. *)
Lemma whole_alive : alive whole_m 27 /\ ~ In 27 whole_h /\ ~ alive whole_m 3.
Proof.
  split; [apply yes_alive; vm_compute; reflexivity|]. split; [vm_compute; intuition congruence|].
  apply not_alive. vm_compute. reflexivity.
Qed.

(* The independent list of A is in 6 lists and in A. *)
Lemma whole_count : exists s, nth_error whole_m 5 = Some s /\ s_live s = true /\ s_count s = 7.
Proof. eexists. vm_compute. repeat split. Qed.

(* Letting go of the statement ends it and its variable, but not A. *)
Definition less_m : mem := Eval vm_compute in match act false keep_all shared_m shared_h (Drop 18) with Ok r => fst r | _ => [] end.
Lemma shared_drop : In 18 shared_h /\ act false keep_all shared_m shared_h (Drop 18) = Ok (less_m, [8])
  /\ alive shared_m 3 /\ ~ alive less_m 3 /\ alive less_m 5.
Proof.
  split; [vm_compute; auto|]. split; [vm_compute; reflexivity|]. split; [apply yes_alive; vm_compute; reflexivity|].
  split; [apply not_alive; vm_compute; reflexivity|]. apply yes_alive. vm_compute. reflexivity.
Qed.

(* ---- what is lost ---- *)
Definition long : list action := [MakeVariable Query "a_name_of_16_ch_" false; Drop 3].
Definition long_m : mem := Eval vm_compute in fst (state keep_all long).
Lemma long_reached : reached keep_all long_m [].
Proof. apply (state_reached keep_all long); [vm_compute; reflexivity|discriminate]. Qed.

Lemma buffers_lost : ~ (forall choose m, proper_choice choose -> reached choose m [] -> living m = 0 /\ buffers m = 0).
Proof. intros A. destruct (A keep_all long_m keep_all_proper long_reached) as [_ B]. vm_compute in B. discriminate. Qed.

Lemma letter_broken : ~ (forall choose m held a, proper_choice choose -> reached choose m held -> allowed m held a ->
  act true choose m held a <> UB).
Proof.
  intros A. apply (A keep_all shared_m shared_h (Drop 18) keep_all_proper shared_reached).
  - apply allowed_ok. vm_compute. reflexivity.
  - vm_compute. reflexivity.
Qed.

(* Some actions end a term of a derived class, others do not. *)
Lemma letter_case : (exists n, derived less_m n /\ ended shared_m less_m n)
  /\ exists m', act false keep_all shared_m shared_h (Clone 18) = Ok (m', 29 :: shared_h)
     /\ ~ (exists n, derived m' n /\ ended shared_m m' n).
Proof.
  split.
  - exists 18. split; [split|split].
    + apply term_ok. vm_compute. reflexivity.
    + intros (s & f & a & b & t & x & y & z & E & B). vm_compute in E. injection E as <-. vm_compute in B. discriminate.
    + intros s E. vm_compute in E. injection E as <-. reflexivity.
    + eexists. split; vm_compute; reflexivity.
  - eexists. split; [vm_compute; reflexivity|]. intros (n & [(s & c & f & a & b & t & x & y & z & E & B) _] & E1 & s' & E2 & L).
    rewrite E in E2. injection E2 as <-.
    do 30 (destruct n as [|n]; [vm_compute in E; injection E as <-; vm_compute in L; try discriminate L; vm_compute in B; discriminate B|]).
    vm_compute in E. destruct n; discriminate E.
Qed.

(* ---- connect ---- *)
Definition one : list action := [MakeSimple CPlain].
Definition one_m : mem := Eval vm_compute in fst (state keep_all one).
Lemma one_reached : reached keep_all one_m [3].
Proof. apply (state_reached keep_all one); [vm_compute; reflexivity|discriminate]. Qed.
Definition list_b (m : mem) (n : nat) : bool := kind_b (fun b => match b with BIndex _ _ _ _ => true | _ => false end) m n.
Lemma list_ok : forall m n, list_b m n = true -> is_list m n.
Proof.
  intros m n E. unfold list_b, kind_b in E. destruct (nth_error m n) as [s|] eqn:Q; [|discriminate].
  destruct (s_body s) as [| |x i su k| |] eqn:B; try discriminate. exists s, x, i, su, k. auto.
Qed.
Definition ring : mem := Eval vm_compute in match connect false one_m 0 0 with Ok m => m | _ => [] end.
Definition left : mem := Eval vm_compute in match drop_all false ring [3] with Ok m => m | _ => [] end.

Lemma ring_lost : ~ (forall choose m held a b m' m'', proper_choice choose -> reached choose m held ->
  reachable m held a -> reachable m held b -> is_list m a -> is_list m b ->
  connect false m a b = Ok m' -> drop_all false m' held = Ok m'' -> living m'' = 0).
Proof.
  intros A. assert (R : reachable one_m [3] 0).
  { apply reach_path. exists 3. split; [left; reflexivity|]. apply points_ok. vm_compute. reflexivity. }
  assert (L : is_list one_m 0) by (apply list_ok; vm_compute; reflexivity).
  specialize (A keep_all one_m [3] 0 0 ring left keep_all_proper one_reached R R L L).
  assert (B : living left = 0) by (apply A; vm_compute; reflexivity). vm_compute in B. discriminate.
Qed.

Lemma ring_endless : ~ (forall choose m held a b m', proper_choice choose -> reached choose m held ->
  reachable m held a -> reachable m held b -> is_list m a -> is_list m b ->
  connect false m a b = Ok m' -> exists fuel m'', build false fuel m' a = Ok m'').
Proof.
  intros A. assert (R : reachable one_m [3] 0).
  { apply reach_path. exists 3. split; [left; reflexivity|]. apply points_ok. vm_compute. reflexivity. }
  assert (L : is_list one_m 0) by (apply list_ok; vm_compute; reflexivity).
  destruct (A keep_all one_m [3] 0 0 ring keep_all_proper one_reached R R L L) as (fuel & m'' & E); [vm_compute; reflexivity|].
  assert (Q : forall fuel, build false fuel ring 0 = OutOfFuel).
  { induction fuel0 as [|n IH]; [reflexivity|]. unfold ring in *. simpl. rewrite IH. reflexivity. }
  rewrite Q in E. discriminate.
Qed.

Lemma not_reach : forall m held n (S : list nat), (forall x, In x held -> In x S) ->
  (forall x, In x S -> forall r, In r (match nth_error m x with Some s => refs (s_body s) | None => [] end) -> In r S) ->
  ~ In n S -> ~ reachable m held n.
Proof.
  intros m held n S A B N R. apply N. clear N. induction R as [x I|x r R IH P]; [auto|].
  apply (B x IH). destruct P as (s & E & _ & I). rewrite E. assumption.
Qed.

(* The lists of two terms may be joined. *)
Lemma join_case : reachable shared_m shared_h 1 /\ reachable shared_m shared_h 9 /\ is_list shared_m 1 /\ is_list shared_m 9
  /\ ~ reachable shared_m [9] 1 /\ reachable shared_m [9] 0.
Proof.
  split. { apply (reach_next _ _ 3); [apply reach_path; exists 18; split; [vm_compute; auto|]|]; apply points_ok; vm_compute; reflexivity. }
  split. { apply reach_path. exists 18. split; [vm_compute; auto|]. apply points_ok. vm_compute. reflexivity. }
  split; [apply list_ok; vm_compute; reflexivity|]. split; [apply list_ok; vm_compute; reflexivity|]. split.
  - apply (not_reach _ _ _ [9; 0; 5; 4; 15; 16; 17; 12; 13; 14]).
    + intros x [<-|[]]. vm_compute. auto.
    + intros x I r J. vm_compute in I. repeat (destruct I as [<-|I]; [vm_compute in J; vm_compute; tauto|]). contradiction.
    + vm_compute. intuition discriminate.
  - apply reach_path. exists 9. split; [left; reflexivity|]. apply points_ok. vm_compute. reflexivity.
Qed.

Lemma whole_some : whole_h <> [].
Proof. discriminate. Qed.

(* ---- what is made ---- *)
Lemma pair_clone : allowed pair_m pair_h (Clone 18).
Proof. apply allowed_ok. vm_compute. reflexivity. Qed.
Definition clone_m : mem := Eval vm_compute in match act false keep_all pair_m pair_h (Clone 18) with Ok r => fst r | _ => [] end.
Definition clone_h : list nat := Eval vm_compute in match act false keep_all pair_m pair_h (Clone 18) with Ok r => snd r | _ => [] end.
(* <$1 --> A> is copied with its variable; A is shared. *)
Lemma pair_cloned : act false keep_all pair_m pair_h (Clone 18) = Ok (clone_m, clone_h)
  /\ exists r v, clone_h = r :: pair_h /\ r <> 18 /\ v <> 3
       /\ (exists f x y z, has_body clone_m r (BTerm CStatement f (Some v) (Some 8) None x y z))
       /\ (exists f x y z, has_body clone_m v (BTerm (CVariable "x") f None None None x y z)).
Proof.
  split; [vm_compute; reflexivity|].
  eexists _, _. split; [vm_compute; reflexivity|]. split; [|split; [|split]].
  3: { do 4 eexists. eexists. split; vm_compute; reflexivity. }
  3: { do 4 eexists. eexists. split; vm_compute; reflexivity. }
  - discriminate.
  - discriminate.
Qed.
Lemma pair_list : exists x i b, has_body pair_m 9 (BIndex x i [0; 5] b).
Proof. do 3 eexists. eexists. split; vm_compute; reflexivity. Qed.

(* ---- what terms are like ---- *)
Definition body_b (m : mem) (n : nat) : option body := match nth_error m n with Some s => Some (s_body s) | None => None end.
Lemma body_ok : forall m n b, body_b m n = Some b -> has_body m n b.
Proof. intros m n b E. unfold body_b in E. destruct (nth_error m n) as [s|] eqn:Q; [|discriminate]. injection E as <-. exists s. auto. Qed.

(* The compound holds a clone of the statement, in which the index of the
   variable is found again. *)
Lemma whole_terms : exists n f t x y z l i, has_body whole_m n (BTerm CCompound f None None (Some t) x y z) /\ f = Flags true true false false
  /\ has_body whole_m t (BTerms l) /\ length l = 2 /\ (exists u s, has_body whole_m x (BIndex u i s true) /\ length s = 2) /\ length i = 1.
Proof.
  exists 39. do 7 eexists. split; [apply body_ok; vm_compute; reflexivity|]. split; [reflexivity|]. split; [apply body_ok; vm_compute; reflexivity|].
  split; [reflexivity|]. split; [do 2 eexists; split; [apply body_ok; vm_compute; reflexivity|reflexivity]|reflexivity].
Qed.

Lemma shared_inside : inside shared_m 18 3.
Proof.
  eapply inside_subject; [apply body_ok; vm_compute; reflexivity|]. eapply inside_self. apply body_ok. vm_compute. reflexivity.
Qed.

Lemma cloned_inside : exists r v h, clone_h = r :: h /\ inside clone_m r v /\ inside pair_m 18 3.
Proof.
  do 3 eexists. split; [vm_compute; reflexivity|]. split.
  - eapply inside_subject; [apply body_ok; vm_compute; reflexivity|]. eapply inside_self. apply body_ok. vm_compute. reflexivity.
  - eapply inside_subject; [apply body_ok; vm_compute; reflexivity|]. eapply inside_self. apply body_ok. vm_compute. reflexivity.
Qed.
