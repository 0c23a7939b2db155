(* Properties of the life of terms, their parts and their index lists. *)
From Coq Require Import String ZArith List Bool Arith.
From Verif Require Import Base Lifetimes LifetimesSpec LifetimesFacts6 LifetimesFacts13 LifetimesFacts14 LifetimesCases.
Import ListNotations.

(* ---- C151 ---- *)
Theorem C151_defined : forall choose m held a, proper_choice choose -> reached choose m held -> allowed m held a ->
  exists m' held', act false choose m held a = Ok (m', held').
Proof. exact (fun choose m held a P => never_undefined choose P m held a). Qed.
Print Assumptions C151_defined.

Theorem C151_terms : forall choose m held a m' held' n s s', proper_choice choose -> reached choose m held -> allowed m held a ->
  act false choose m held a = Ok (m', held') -> nth_error m n = Some s -> nth_error m' n = Some s' ->
  (is_term m n \/ is_terms m n) -> s_body s' = s_body s.
Proof. exact (fun choose m held a m' held' n s s' P => terms_stay choose P m held a m' held' n s s'). Qed.
Print Assumptions C151_terms.

Example C151_case : proper_choice keep_all /\ proper_choice drop_first /\ reached keep_all pair_m pair_h
  /\ allowed pair_m pair_h (MakeCompound 19 false) /\ is_term pair_m 18 /\ is_terms pair_m 19.
Proof.
  exact (conj keep_all_proper (conj drop_first_proper (conj pair_reached (conj pair_compound
           (conj (term_ok pair_m 18 eq_refl) (terms_ok pair_m 19 eq_refl)))))).
Qed.

(* ---- C152 ---- *)
Theorem C152_alive : forall choose m held n, proper_choice choose -> reached choose m held ->
  (alive m n <-> reachable m held n).
Proof. exact (fun choose m held n P => lives_as_reached choose P m held n). Qed.
Print Assumptions C152_alive.

Theorem C152_released : forall choose m held n m' held' k, proper_choice choose -> reached choose m held -> In n held ->
  act false choose m held (Drop n) = Ok (m', held') -> (alive m' k <-> reachable m (remove_one n held) k).
Proof. exact (fun choose m held n m' held' k P => released choose P m held n m' held' k). Qed.
Print Assumptions C152_released.

Example C152_case : reached keep_all whole_m whole_h /\ (alive whole_m 27 /\ ~ In 27 whole_h /\ ~ alive whole_m 3).
Proof. exact (conj whole_reached whole_alive). Qed.
Example C152_drop_case : reached keep_all shared_m shared_h
  /\ In 18 shared_h /\ act false keep_all shared_m shared_h (Drop 18) = Ok (less_m, [8])
  /\ alive shared_m 3 /\ ~ alive less_m 3 /\ alive less_m 5.
Proof. exact (conj shared_reached shared_drop). Qed.

(* ---- C153 ---- *)
Theorem C153_counts : forall choose m held n s, proper_choice choose -> reached choose m held ->
  nth_error m n = Some s -> s_live s = true -> s_count s = uses m held n.
Proof. exact (fun choose m held n s P => counts_uses choose P m held n s). Qed.
Print Assumptions C153_counts.

Example C153_case : reached keep_all whole_m whole_h
  /\ exists s, nth_error whole_m 5 = Some s /\ s_live s = true /\ s_count s = 7.
Proof. exact (conj whole_reached whole_count). Qed.

(* ---- C154 ---- *)
Theorem C154_memory_refuted :
  ~ (forall choose m, proper_choice choose -> reached choose m [] -> living m = 0 /\ buffers m = 0).
Proof. exact buffers_lost. Qed.
Print Assumptions C154_memory_refuted.

(* What is missing: the buffers of long names of variables. *)
Theorem C154_memory_partial : forall choose m held, proper_choice choose -> reached choose m held ->
  (exists m', drop_all false m held = Ok m' /\ living m' = 0) /\ (held = [] -> living m = 0).
Proof. exact (fun choose m held P R => conj (all_back choose P m held R) (nothing_held choose P m held R)). Qed.
Print Assumptions C154_memory_partial.

(* Every one of them is lost, and nothing else. *)
Theorem C154_buffers_partial : forall choose m held, proper_choice choose -> reached choose m held ->
  buffers m = long_names m.
Proof. exact (fun choose m held _ => buffers_kept choose m held). Qed.
Print Assumptions C154_buffers_partial.

Example C154_case : reached keep_all whole_m whole_h /\ whole_h <> [] /\ reached keep_all long_m [] /\ long_names long_m = 1.
Proof. exact (conj whole_reached (conj whole_some (conj long_reached eq_refl))). Qed.

(* ---- C155 ---- *)
Theorem C155_letter_refuted :
  ~ (forall choose m held a, proper_choice choose -> reached choose m held -> allowed m held a ->
       act true choose m held a <> UB).
Proof. exact letter_broken. Qed.
Print Assumptions C155_letter_refuted.

(* What is missing: actions that end an object of a class derived from Term;
   all of these are undefined. *)
Theorem C155_letter_partial : forall choose m held a m' held', proper_choice choose -> reached choose m held ->
  allowed m held a -> act false choose m held a = Ok (m', held') ->
  ((exists n, derived m' n /\ ended m m' n) -> act true choose m held a = UB)
  /\ (~ (exists n, derived m' n /\ ended m m' n) -> act true choose m held a = Ok (m', held')).
Proof. exact (fun choose m held a m' held' _ => by_the_letter choose m held a m' held'). Qed.
Print Assumptions C155_letter_partial.

Example C155_case : reached keep_all shared_m shared_h /\ (exists n, derived less_m n /\ ended shared_m less_m n)
  /\ exists m', act false keep_all shared_m shared_h (Clone 18) = Ok (m', 29 :: shared_h)
     /\ ~ (exists n, derived m' n /\ ended shared_m m' n).
Proof. exact (conj shared_reached letter_case). Qed.

(* ---- C156 ---- *)
Theorem C156_leak_refuted : ~ (forall choose m held a b m' m'', proper_choice choose -> reached choose m held ->
  reachable m held a -> reachable m held b -> is_list m a -> is_list m b ->
  connect false m a b = Ok m' -> drop_all false m' held = Ok m'' -> living m'' = 0).
Proof. exact ring_lost. Qed.
Print Assumptions C156_leak_refuted.

Theorem C156_build_refuted : ~ (forall choose m held a b m', proper_choice choose -> reached choose m held ->
  reachable m held a -> reachable m held b -> is_list m a -> is_list m b ->
  connect false m a b = Ok m' -> exists fuel m'', build false fuel m' a = Ok m'').
Proof. exact ring_endless. Qed.
Print Assumptions C156_build_refuted.

(* What is missing: a list that is joined to itself or to one of its parts. *)
Theorem C156_connect_partial : forall choose m held a b, proper_choice choose -> reached choose m held ->
  reachable m held a -> reachable m held b -> is_list m a -> is_list m b -> ~ reachable m [b] a ->
  exists m', connect false m a b = Ok m' /\ (forall n, alive m' n <-> reachable m' held n)
  /\ (exists m'', drop_all false m' held = Ok m'' /\ living m'' = 0)
  /\ (exists fuel m'', build false fuel m' a = Ok m'').
Proof. exact connected. Qed.
Print Assumptions C156_connect_partial.

Example C156_case : reached keep_all shared_m shared_h
  /\ reachable shared_m shared_h 1 /\ reachable shared_m shared_h 9 /\ is_list shared_m 1 /\ is_list shared_m 9
  /\ ~ reachable shared_m [9] 1 /\ reachable shared_m [9] 0.
Proof. exact (conj shared_reached join_case). Qed.

(* ---- C157 ---- *)
Theorem C157_makes : forall choose m held a m' held', proper_choice choose -> reached choose m held -> allowed m held a ->
  act false choose m held a = Ok (m', held') -> exists r, holds a held held' r /\ makes m m' a r.
Proof. exact (fun choose m held a m' held' P => actions_make choose P m held a m' held'). Qed.
Print Assumptions C157_makes.

Theorem C157_components : forall choose m held a m' held' n x i l b, proper_choice choose -> reached choose m held -> allowed m held a ->
  act false choose m held a = Ok (m', held') -> has_body m n (BIndex x i l b) ->
  exists x' i' b', has_body m' n (BIndex x' i' l b') /\ (b = true \/ l = [] -> i' = i).
Proof. exact (fun choose m held a m' held' n x i l b P => components_stay choose P m held a m' held' n x i l b). Qed.
Print Assumptions C157_components.

Example C157_case : proper_choice keep_all /\ reached keep_all pair_m pair_h /\ allowed pair_m pair_h (Clone 18)
  /\ act false keep_all pair_m pair_h (Clone 18) = Ok (clone_m, clone_h)
  /\ exists r v, clone_h = r :: pair_h /\ r <> 18 /\ v <> 3
       /\ (exists f x y z, has_body clone_m r (BTerm CStatement f (Some v) (Some 8) None x y z))
       /\ (exists f x y z, has_body clone_m v (BTerm (CVariable "x") f None None None x y z)).
Proof. exact (conj keep_all_proper (conj pair_reached (conj pair_clone pair_cloned))). Qed.
Example C157_list_case : reached keep_all pair_m pair_h /\ allowed pair_m pair_h (MakeCompound 19 false)
  /\ exists x i b, has_body pair_m 9 (BIndex x i [0; 5] b).
Proof. exact (conj pair_reached (conj pair_compound pair_list)). Qed.

(* ---- C158 ---- *)
Theorem C158_terms : forall choose m held n c f a b t x y z, proper_choice choose -> reached choose m held ->
  has_body m n (BTerm c f a b t x y z) -> well_made m c f a b t x y z.
Proof. exact (fun choose m held n c f a b t x y z P => terms_well_made choose P m held n c f a b t x y z). Qed.
Print Assumptions C158_terms.

Theorem C158_variables : forall choose m held n v c f a b t x y z name g a' b' t' x' y' z', proper_choice choose -> reached choose m held ->
  inside m n v -> has_body m n (BTerm c f a b t x y z) -> has_body m v (BTerm (CVariable name) g a' b' t' x' y' z') ->
  (exists k, g = flags_of_kind k) /\ f_var f = true /\ (f_ivar g = true -> f_ivar f = true)
  /\ (f_dvar g = true -> f_dvar f = true) /\ (f_qvar g = true -> f_qvar f = true).
Proof.
  exact (fun choose m held n v c f a b t x y z name g a' b' t' x' y' z' P =>
    variables_inside choose P m held n v c f a b t x y z name g a' b' t' x' y' z').
Qed.
Print Assumptions C158_variables.

Example C158_case : proper_choice keep_all /\ reached keep_all whole_m whole_h
  /\ exists n f t x y z l i, has_body whole_m n (BTerm CCompound f None None (Some t) x y z) /\ f = Flags true true false false
       /\ has_body whole_m t (BTerms l) /\ length l = 2 /\ (exists u s, has_body whole_m x (BIndex u i s true) /\ length s = 2) /\ length i = 1.
Proof. exact (conj keep_all_proper (conj whole_reached whole_terms)). Qed.
Example C158_inside_case : reached keep_all shared_m shared_h /\ inside shared_m 18 3.
Proof. exact (conj shared_reached shared_inside). Qed.

(* ---- C159 ---- *)
Theorem C159_own_variables : forall choose m held a m' r held', proper_choice choose -> reached choose m held -> allowed m held a -> copying a ->
  act false choose m held a = Ok (m', r :: held') -> forall v, inside m' r v ->
    length m <= v /\ exists name f x y z, has_body m' v (BTerm (CVariable name) f None None None x y z)
      /\ forall k, In k [x; y; z] -> length m <= k /\ forall u i l b, has_body m' k (BIndex u i l b) -> forall q, In q i -> length m <= q.
Proof. exact (fun choose m held a m' r held' P => copies_own choose P m held a m' r held'). Qed.
Print Assumptions C159_own_variables.

Example C159_case : proper_choice keep_all /\ reached keep_all pair_m pair_h /\ allowed pair_m pair_h (Clone 18) /\ copying (Clone 18)
  /\ act false keep_all pair_m pair_h (Clone 18) = Ok (clone_m, clone_h)
  /\ exists r v h, clone_h = r :: h /\ inside clone_m r v /\ inside pair_m 18 3.
Proof. exact (conj keep_all_proper (conj pair_reached (conj pair_clone (conj I (conj (proj1 pair_cloned) cloned_inside))))). Qed.
