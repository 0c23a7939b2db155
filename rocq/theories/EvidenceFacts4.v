From Coq Require Import ZArith List Bool Lia.
From Verif Require Import Base Hash Evidence.
Import ListNotations.
Local Open Scope Z_scope.

Lemma to_int_small : forall z, - 2147483648 <= z < 2147483648 -> to_int z = z.
Proof. intros z H. unfold to_int. rewrite Z.mod_small; lia. Qed.

Lemma to_int_congruent : forall z, (to_int z - z) mod 4294967296 = 0 /\ - 2147483648 <= to_int z < 2147483648.
Proof.
  intros z. unfold to_int. assert (H := Z.mod_pos_bound (z + 2147483648) 4294967296 ltac:(lia)). split; [|lia].
  replace ((z + 2147483648) mod 4294967296 - 2147483648 - z) with ((z + 2147483648) mod 4294967296 - (z + 2147483648)) by lia.
  rewrite Zminus_mod, Z.mod_mod by lia. rewrite Z.sub_diag. reflexivity.
Qed.

Lemma stamps_made : forall st,
  (forall eternal st' s, stamp_bool st eternal = (st', s) ->
     t_put s = -1 /\ t_occurrence s = t_creation s /\ is_eternal s = eternal /\
     (t_creation s - time st) mod 4294967296 = 0 /\ - 2147483648 <= t_creation s < 2147483648) /\
  (forall n st' s, stamp_int st n = (st', s) ->
     t_put s = -1 /\ t_occurrence s = n /\ is_eternal s = false /\
     (t_creation s - time st) mod 4294967296 = 0 /\ - 2147483648 <= t_creation s < 2147483648) /\
  (forall duration n st' s, parsed_stamp duration st (Some (MTime n)) = (st', s) ->
     t_put s = -1 /\ t_occurrence s = n /\ is_eternal s = false /\
     (t_creation s - time st) mod 4294967296 = 0 /\ - 2147483648 <= t_creation s < 2147483648).
Proof.
  intros st. assert (C := to_int_congruent (time st)). repeat split; intros.
  all: try (unfold stamp_bool, get_input_id, new_base_of, stamp5 in H; cbn in H; injection H as <- <-; cbn; tauto).
  all: try (unfold stamp_int, get_input_id, new_base_of, stamp5 in H; cbn in H; injection H as <- <-; cbn; tauto).
  all: unfold parsed_stamp, stamp5, new_base, get_input_id, new_base_of in H; cbn in H; injection H as <- <-; cbn; tauto.
Qed.

Lemma stamps_clock : forall st, 0 <= time st < 2147483648 ->
  (forall eternal, t_creation (snd (stamp_bool st eternal)) = time st) /\
  (forall n, t_creation (snd (stamp_int st n)) = time st) /\
  (forall duration mk, t_creation (snd (parsed_stamp duration st mk)) = time st).
Proof.
  intros st H. assert (E : to_int (time st) = time st) by (apply to_int_small; lia).
  split; [|split]; intros; [exact E|exact E|]. destruct mk; exact E.
Qed.

Lemma stamps_clock_no : exists st, 0 <= time st < two64 /\ t_creation (snd (stamp_bool st true)) <> time st.
Proof.
  exists (Store (fun _ => []) (fun _ => Base 0 0 false) 1 1 2147483648 0). split; [split; [discriminate|reflexivity]|discriminate].
Qed.

Lemma eternalize_keeps : forall s, is_eternal (eternalize s) = true /\
  evidential_base (eternalize s) = evidential_base s /\ t_creation (eternalize s) = t_creation s /\
  t_occurrence (eternalize s) = t_occurrence s /\ t_put (eternalize s) = t_put s.
Proof. intros. repeat split. Qed.

Lemma extending_keeps : forall maximum st s other st' s',
  extend_evidential_base maximum st s other = Ok (st', s') ->
  is_eternal s' = is_eternal s /\ t_creation s' = t_creation s /\ t_occurrence s' = t_occurrence s /\
  t_put s' = t_put s /\ time st' = time st.
Proof.
  intros maximum st s other st' s' H. unfold extend_evidential_base in H.
  destruct (match evidential_base s with Some b => (st, b) | None => new_base st end) as [st0 b] eqn:E.
  assert (time st0 = time st).
  { destruct (evidential_base s); [now injection E as <- _|]. unfold new_base, get_input_id, new_base_of in E. cbn in E. now injection E as <- _. }
  unfold extend in H. cbn in H.
  destruct (interleave_sets _ _ _ _ _) in H; try discriminate. injection H as <- <-. cbn. auto.
Qed.
