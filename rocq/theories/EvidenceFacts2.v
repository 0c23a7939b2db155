(* Histories of evidential bases, and tenses *)
From Coq Require Import ZArith List Bool Sorting.Sorted Lia.
From Verif Require Import Base Hash Evidence EvidenceSpec EvidenceFacts.
Import ListNotations.
Local Open Scope Z_scope.

Record good (st : store) : Prop := {
  g_sorted : sorted_all (sets st);
  g_set : 1 <= free_set st;
  g_base : 1 <= free_base st;
  g_at : forall b, made st b -> 1 <= set_at (bases st b) < free_set st;
  g_time : 0 <= time st < two64;
  g_id : 0 <= input_id st < two64
}.

(* What every step guarantees *)
Record kept (st : store) (k : kind) (n : Z) (st' : store) : Prop := {
  k_good : good st';
  k_id : input_id st' = (input_id st + n) mod two64;
  k_n : 0 <= n;
  k_sets : forall a, a < free_set st -> sparing [a] k -> sets st' a = sets st a;
  k_set : free_set st <= free_set st';
  k_base : free_base st <= free_base st';
  k_at : forall b, made st b -> set_at (bases st' b) = set_at (bases st b)
}.

Lemma start_good t : 0 <= t < two64 -> good (start t).
Proof.
  intros H. constructor; cbn; auto; try lia.
  - intros a. constructor.
  - intros b Hb. unfold made in Hb. cbn in Hb. lia.
Qed.

Lemma id_mod st : good st -> (input_id st + 0) mod two64 = input_id st.
Proof. intros G. rewrite Z.add_0_r. apply Z.mod_small, G. Qed.

Lemma two64_pos : 0 < two64.
Proof. reflexivity. Qed.

Lemma kept_new_of st s :
  good st -> sorted s ->
  kept st Make 0 (fst (new_base_of st s)).
Proof.
  intros G Hs. pose proof G as [G1 G2 G3 G4 G5 G6].
  constructor; cbn; try lia.
  - constructor; cbn; auto; try lia.
    + now apply sorted_assign.
    + intros b Hb. unfold made in Hb; cbn in Hb. unfold assign.
      destruct (Z.eqb_spec b (free_base st)); cbn; [lia|].
      assert (1 <= set_at (bases st b) < free_set st) by (apply G4; unfold made; lia). lia.
  - symmetry. now apply id_mod.
  - intros a Ha _. apply assign_other. lia.
  - intros b Hb. unfold made in Hb. rewrite assign_other by lia. auto.
Qed.

Lemma kept_id st : good st -> kept st Make 1 (fst (get_input_id st)).
Proof.
  intros [G1 G2 G3 G4 G5 G6].
  constructor; cbn; auto; try lia.
  constructor; cbn; auto.
  apply Z.mod_pos_bound, two64_pos.
Qed.

Lemma kept_trans st k n st' n' st'' :
  kept st k n st' -> kept st' Make n' st'' -> kept st k (n + n') st''.
Proof.
  intros [A1 A2 A3 A4 A5 A6 A7] [B1 B2 B3 B4 B5 B6 B7].
  constructor; auto; try lia.
  - rewrite B2, A2, Zplus_mod_idemp_l. f_equal. lia.
  - intros a Ha Hk. rewrite B4, A4; auto; try lia. exact I.
  - intros b Hb. rewrite B7, A7; auto. unfold made in *. lia.
Qed.

Lemma kept_new st : good st -> kept st Make 1 (fst (new_base st)).
Proof.
  intros G. unfold new_base.
  pose proof (kept_id st G) as K. destruct (get_input_id st) as [st1 id]. cbn [fst] in K.
  replace 1 with (1 + 0) by lia. eapply kept_trans; [exact K|].
  apply kept_new_of; [apply K|]. repeat constructor.
Qed.

Lemma kept_share st b st' b' :
  good st -> made st b -> new_base_sharing st (set_at (bases st b)) = (st', b') ->
  kept st Share 0 st'.
Proof.
  intros G Hb E. pose proof G as [G1 G2 G3 G4 G5 G6]. injection E as <- <-.
  constructor; cbn; auto; try lia.
  - constructor; cbn; auto; try lia.
    intros c Hc. unfold made in Hc; cbn in Hc. unfold assign.
    destruct (Z.eqb_spec c (free_base st)); cbn; auto.
    apply G4. unfold made. lia.
  - symmetry. now apply id_mod.
  - intros c Hc. unfold made in Hc. rewrite assign_other by lia. auto.
Qed.

Lemma kept_add st b id :
  good st -> made st b -> kept st (Add (set_at (bases st b))) 0 (add st b id).
Proof.
  intros G Hb. pose proof G as [G1 G2 G3 G4 G5 G6].
  assert (At : forall c, set_at (bases (add st b id) c) = set_at (bases st c)).
  { intros c. cbn. unfold assign. destruct (Z.eqb_spec c b); subst; auto. }
  constructor; cbn; auto; try lia.
  - constructor; cbn; auto; try lia.
    + apply sorted_assign; auto. apply insert_sorted; auto.
    + intros c Hc. specialize (At c). cbn in At. rewrite At. apply G4. exact Hc.
  - symmetry. now apply id_mod.
  - intros a Ha Hk. apply assign_other. intros ->. apply Hk. now left.
  - intros c _. exact (At c).
Qed.

Lemma kept_merge st a m :
  good st -> sorted_all m -> (forall a', a' <> a -> m a' = sets st a') ->
  kept st (Merge a) 0 (with_sets st m).
Proof.
  intros G Hm Hk. pose proof G as [G1 G2 G3 G4 G5 G6].
  constructor; cbn; auto; try lia.
  - constructor; cbn; auto.
  - symmetry. now apply id_mod.
Qed.

Lemma interleave3_ok maximum st b b1 b2 :
  good st ->
  exists m, interleave3 maximum st b b1 b2 = Ok (with_sets st m) /\
    interleave_sets maximum (sets st) (set_at (bases st b))
       (set_at (bases st b1)) (set_at (bases st b2)) = Ok m /\
    sorted_all m /\
    (forall a x, In x (sets st a) -> In x (m a)) /\
    (forall a, a <> set_at (bases st b) -> m a = sets st a) /\
    (forall x, In x (m (set_at (bases st b))) ->
       In x (ids st b) \/ In x (ids st b1) \/ In x (ids st b2)).
Proof.
  intros G. unfold interleave3.
  destruct (interleave_sets_ends maximum (sets st) (set_at (bases st b))
       (set_at (bases st b1)) (set_at (bases st b2)) (g_sorted _ G))
    as (m & E & S & M & O & X).
  exists m. rewrite E. repeat split; auto.
Qed.

Lemma extend_ok maximum st b other :
  good st ->
  exists m, extend maximum st b other = Ok (with_sets st m) /\
    interleave_sets maximum (assign (sets st) (set_at (bases st b)) [])
       (set_at (bases st b)) (set_at (bases st b)) (set_at (bases st other)) = Ok m /\
    sorted_all m /\
    (forall a, a <> set_at (bases st b) -> m a = sets st a).
Proof.
  intros G. unfold extend.
  destruct (interleave_sets_ends maximum (assign (sets st) (set_at (bases st b)) [])
       (set_at (bases st b)) (set_at (bases st b)) (set_at (bases st other)))
    as (m & E & S & M & O & X).
  { apply sorted_assign; [apply G|constructor]. }
  exists m. rewrite E. repeat split; auto.
  intros a Ha. rewrite O by auto. now apply assign_other.
Qed.

Lemma kept_interleave2 maximum st b1 b2 st' b :
  good st -> made st b1 -> made st b2 ->
  interleave2 maximum st b1 b2 = Ok (st', b) -> kept st Make 1 st'.
Proof.
  intros G H1 H2 E. unfold interleave2 in E.
  pose proof (kept_new st G) as K.
  destruct (new_base st) as [st1 b0] eqn:N. cbn [fst] in K.
  assert (Ha : set_at (bases st1 b0) = free_set st).
  { unfold new_base in N. cbn in N. injection N as <- <-. cbn. now rewrite assign_same. }
  destruct (interleave3_ok maximum st1 b0 b1 b2 (k_good _ _ _ _ K))
    as (m & E' & _ & S & M & O & X).
  rewrite E' in E. cbn in E. injection E as <- <-.
  destruct K as [A1 A2 A3 A4 A5 A6 A7]. pose proof A1 as [B1 B2 B3 B4 B5 B6].
  constructor; cbn; auto.
  - constructor; cbn; auto.
  - intros a Hlt _. rewrite O, A4; auto; try exact I. lia.
Qed.

Lemma kept_hash st b st' h :
  good st -> made st b -> hash_of st b = (st', h) -> kept st Ask 0 st'.
Proof.
  intros G Hb E. pose proof G as [G1 G2 G3 G4 G5 G6]. unfold hash_of in E.
  destruct (is_hashed (bases st b)).
  - injection E as <- <-. constructor; auto; try lia. symmetry. now apply id_mod.
  - injection E as <- <-.
    assert (At : forall c, set_at (bases (fst (do_hashing st b)) c) = set_at (bases st c)).
    { intros c. cbn. unfold assign. destruct (Z.eqb_spec c b); subst; auto. }
    constructor; cbn; auto; try lia.
    + constructor; cbn; auto; try lia.
      intros c Hc. specialize (At c). cbn in At. rewrite At. apply G4. exact Hc.
    + symmetry. now apply id_mod.
    + intros c _. exact (At c).
Qed.

Lemma kept_stamp5 st o c p b e st' s :
  good st -> stamp5 st o c p b e = (st', s) ->
  match b with None => kept st Make 1 st' | Some _ => st' = st end.
Proof.
  intros G E. unfold stamp5 in E. destruct b as [b|].
  - now injection E as <- <-.
  - pose proof (kept_new st G) as K. destruct (new_base st) as [st1 b1].
    now injection E as <- <-.
Qed.

Lemma stamp_bool_new st e : fst (stamp_bool st e) = fst (new_base st).
Proof. reflexivity. Qed.

Lemma stamp_int_new st t : fst (stamp_int st t) = fst (new_base st).
Proof. reflexivity. Qed.

Lemma kept_parse duration st mk st' s :
  good st -> parsed_stamp duration st mk = (st', s) -> kept st Make 1 st'.
Proof.
  intros G E. destruct mk as [mk|]; cbn [parsed_stamp] in E.
  - apply kept_stamp5 in E; auto.
  - replace st' with (fst (new_base st)) by (rewrite <- stamp_bool_new with (e := true); now rewrite E).
    now apply kept_new.
Qed.

Lemma step_kept maximum duration st k n st' :
  good st -> step maximum duration st k n st' -> kept st k n st'.
Proof.
  intros G H. revert G. destruct H as
    [st st' b E | st s st' b Hs E | st b st' b' Hb E | st b id Hb
    | st b b1 b2 st' Hb H1 H2 E | st b1 b2 st' b H1 H2 E | st b other st' Hb H1 E
    | st b st' h Hb E | st mk st' s E | st e st' s E | st t st' s E | st t Ht]; intros G.
  - replace st' with (fst (new_base st)) by now rewrite E. now apply kept_new.
  - replace st' with (fst (new_base_of st s)) by now rewrite E. now apply kept_new_of.
  - eapply kept_share; eauto.
  - now apply kept_add.
  - destruct (interleave3_ok maximum st b b1 b2 G) as (m & E' & _ & S & _ & O & _).
    rewrite E' in E. injection E as <-. now apply kept_merge.
  - exact (kept_interleave2 _ _ _ _ _ _ G H1 H2 E).
  - destruct (extend_ok maximum st b other G) as (m & E' & _ & S & O).
    rewrite E' in E. injection E as <-. now apply kept_merge.
  - eapply kept_hash; eauto.
  - eapply kept_parse; eauto.
  - replace st' with (fst (new_base st)) by (rewrite <- stamp_bool_new with (e := e); now rewrite E).
    now apply kept_new.
  - replace st' with (fst (new_base st)) by (rewrite <- stamp_int_new with (t := t); now rewrite E).
    now apply kept_new.
  - pose proof G as [G1 G2 G3 G4 G5 G6]. constructor; cbn; auto; try lia.
    + constructor; cbn; auto.
    + symmetry. now apply id_mod.
Qed.

Record kept_all (l : list Z) (st : store) (n : Z) (st' : store) : Prop := {
  ka_good : good st';
  ka_id : input_id st' = (input_id st + n) mod two64;
  ka_n : 0 <= n;
  ka_sets : forall a, a < free_set st -> In a l -> sets st' a = sets st a;
  ka_set : free_set st <= free_set st';
  ka_base : free_base st <= free_base st';
  ka_at : forall b, made st b -> set_at (bases st' b) = set_at (bases st b)
}.

Lemma steps_kept maximum duration (P : kind -> Prop) l st n st' :
  (forall k, P k -> sparing l k) -> good st ->
  steps maximum duration P st n st' -> kept_all l st n st'.
Proof.
  intros HP G H. induction H as [st | st n st' k n' st'' H IH Hk Hs].
  - constructor; auto; try lia. symmetry. now apply id_mod.
  - specialize (IH G). destruct IH as [A1 A2 A3 A4 A5 A6 A7].
    pose proof (step_kept _ _ _ _ _ _ A1 Hs) as [B1 B2 B3 B4 B5 B6 B7].
    apply HP in Hk. constructor; auto; try lia.
    + rewrite B2, A2, Zplus_mod_idemp_l. f_equal. lia.
    + intros a Ha Hl. rewrite B4, A4; auto; try lia.
      destruct k; cbn in *; auto; intros [->|[]]; auto.
    + intros b Hb. rewrite B7, A7; auto. unfold made in *. lia.
Qed.

Lemma steps_good maximum duration (P : kind -> Prop) st n st' :
  good st -> steps maximum duration P st n st' -> kept_all [] st n st'.
Proof.
  apply steps_kept. intros [] _; cbn; auto.
Qed.

Lemma reached_good maximum duration st : reached maximum duration st -> good st.
Proof.
  intros (t & n & Ht & H). eapply ka_good, steps_good; [|exact H]. now apply start_good.
Qed.

(* C40 *)
Lemma input_ids maximum duration (P : kind -> Prop) t n st :
  0 <= t < two64 -> steps maximum duration P (start t) n st ->
  snd (get_input_id st) = n mod two64.
Proof.
  intros Ht H. apply steps_good in H; [|now apply start_good].
  cbn. rewrite (ka_id _ _ _ _ H). cbn [start input_id]. now rewrite Z.add_0_l.
Qed.

Lemma parsed_fresh duration st :
  good st ->
  exists b, evidential_base (snd (parsed_stamp duration st None)) = Some b /\
    made (fst (parsed_stamp duration st None)) b /\
    ids (fst (parsed_stamp duration st None)) b = [input_id st] /\
    set_at (bases (fst (parsed_stamp duration st None)) b) = free_set st /\
    free_set (fst (parsed_stamp duration st None)) = free_set st + 1.
Proof.
  intros [G1 G2 G3 G4 G5 G6]. exists (free_base st). cbn. unfold made, ids. cbn.
  rewrite !assign_same. cbn. rewrite ?assign_same. repeat split; auto; lia.
Qed.

Lemma parses_apart maximum duration st0 st1 s1 b1 n st2 st3 s2 b2 m st4 :
  reached maximum duration st0 ->
  parsed_stamp duration st0 None = (st1, s1) -> evidential_base s1 = Some b1 ->
  steps maximum duration (sparing [set_at (bases st1 b1)]) st1 n st2 ->
  parsed_stamp duration st2 None = (st3, s2) -> evidential_base s2 = Some b2 ->
  steps maximum duration
    (sparing [set_at (bases st1 b1); set_at (bases st3 b2)]) st3 m st4 ->
  n + 1 < two64 ->
  is_overlaped st4 b1 b2 = Ok false.
Proof.
  intros R P1 E1 S1 P2 E2 S2 Hn.
  apply reached_good in R.
  pose proof (parsed_fresh duration st0 R) as (c1 & F1 & F2 & F3 & F4 & F5).
  pose proof (kept_parse _ _ _ _ _ R P1) as K1.
  rewrite P1 in F1, F2, F3, F4, F5. cbn [fst snd] in *. rewrite E1 in F1. injection F1 as <-.
  apply (steps_kept _ _ _ [set_at (bases st1 b1)]) in S1; [|auto|apply K1].
  pose proof (parsed_fresh duration st2 (ka_good _ _ _ _ S1)) as (c2 & H1 & H2 & H3 & H4 & H5).
  pose proof (kept_parse _ _ _ _ _ (ka_good _ _ _ _ S1) P2) as K2.
  rewrite P2 in H1, H2, H3, H4, H5. cbn [fst snd] in *. rewrite E2 in H1. injection H1 as <-.
  apply (steps_kept _ _ _ [set_at (bases st1 b1); set_at (bases st3 b2)]) in S2; [|auto|apply K2].
  destruct K1 as [A1 A2 A3 A4 A5 A6 A7]. destruct S1 as [B1 B2 B3 B4 B5 B6 B7].
  destruct K2 as [C1 C2 C3 C4 C5 C6 C7]. destruct S2 as [D1 D2 D3 D4 D5 D6 D7].
  destruct (overlap_exact st4 b1 b2 (g_sorted _ D1)) as (r & Er & X).
  rewrite Er. f_equal. destruct r; auto. exfalso.
  destruct (proj1 X eq_refl) as (x & Hx1 & Hx2). unfold ids in *.
  assert (M2 : made st2 b1) by (unfold made in *; lia).
  assert (M3 : made st3 b1) by (unfold made in *; lia).
  rewrite D7, C7, B7 in Hx1 by auto. rewrite D7 in Hx2 by auto.
  rewrite F4 in *. rewrite H4 in *.
  rewrite D4 in Hx1 by (cbn; auto; lia). rewrite C4 in Hx1 by (cbn; auto; lia).
  rewrite B4 in Hx1 by (cbn; auto; lia). rewrite F3 in Hx1.
  rewrite D4 in Hx2 by (cbn; auto; lia). rewrite H3 in Hx2.
  destruct Hx1 as [<-|[]]. destruct Hx2 as [Hx2|[]].
  rewrite B2, A2, Zplus_mod_idemp_l in Hx2.
  destruct R as [_ _ _ _ _ R6].
  assert (Q : (input_id st0 + 1 + n) mod two64 = input_id st0 \/ True) by auto.
  pose proof two64_pos.
  rewrite Z.mod_eq in Hx2 by lia.
  assert (1 + n = two64 * ((input_id st0 + 1 + n) / two64)) by lia.
  assert (0 < (input_id st0 + 1 + n) / two64 \/ (input_id st0 + 1 + n) / two64 <= 0) as [|] by lia; nia.
Qed.

(* C42: plain histories *)
Record coherent (st : store) : Prop := {
  c_good : good st;
  c_apart : forall b b', made st b -> made st b' -> b <> b' -> separate st b b';
  c_hash : forall b, made st b -> is_hashed (bases st b) = true ->
             hash_value (bases st b) = hash_container (ids st b)
}.

Lemma coherent_new_of st s : coherent st -> sorted s -> coherent (fst (new_base_of st s)).
Proof.
  intros [G A H] Hs. pose proof (kept_new_of st s G Hs) as K.
  pose proof G as [G1 G2 G3 G4 G5 G6].
  assert (D : forall b, made (fst (new_base_of st s)) b -> b = free_base st \/ made st b).
  { intros b. unfold made. cbn. lia. }
  constructor; [apply K| |].
  - intros b b' Hb Hb' N. unfold separate. cbn. unfold assign.
    destruct (D _ Hb) as [->|Mb], (D _ Hb') as [->|Mb']; try congruence.
    + rewrite Z.eqb_refl. destruct (Z.eqb_spec b' (free_base st)); try congruence. cbn.
      apply G4 in Mb'. lia.
    + rewrite Z.eqb_refl. destruct (Z.eqb_spec b (free_base st)); try congruence. cbn.
      apply G4 in Mb. lia.
    + unfold made in Mb, Mb'.
      destruct (Z.eqb_spec b (free_base st)); try lia.
      destruct (Z.eqb_spec b' (free_base st)); try lia. apply A; auto.
  - intros b Hb. destruct (D _ Hb) as [->|Mb].
    + cbn. rewrite assign_same. discriminate.
    + assert (B : bases (fst (new_base_of st s)) b = bases st b)
        by (cbn; apply assign_other; unfold made in Mb; lia).
      unfold ids. rewrite B.
      assert (S : sets (fst (new_base_of st s)) (set_at (bases st b)) = sets st (set_at (bases st b)))
        by (cbn; apply assign_other; apply G4 in Mb; lia).
      rewrite S. now apply H.
Qed.

Lemma coherent_id st : coherent st -> coherent (fst (get_input_id st)).
Proof.
  intros [G A H]. constructor; [apply (k_good _ _ _ _ (kept_id st G))|exact A|exact H].
Qed.

Lemma coherent_new st : coherent st -> coherent (fst (new_base st)).
Proof.
  intros C. apply coherent_id in C. unfold new_base.
  destruct (get_input_id st) as [st1 id]. cbn [fst] in C.
  apply coherent_new_of; auto. repeat constructor.
Qed.

Lemma coherent_step maximum duration st k n st' :
  coherent st -> plain k -> step maximum duration st k n st' -> coherent st'.
Proof.
  intros C Hk Hs. pose proof (step_kept _ _ _ _ _ _ (c_good _ C) Hs) as K.
  revert C Hk K. destruct Hs as
    [st st' b E | st s st' b Hs E | st b st' b' Hb E | st b id Hb
    | st b b1 b2 st' Hb H1 H2 E | st b1 b2 st' b H1 H2 E | st b other st' Hb H1 E
    | st b st' h Hb E | st mk st' s E | st e st' s E | st t st' s E | st t Ht];
    intros C Hk K; try contradiction Hk.
  - replace st' with (fst (new_base st)) by now rewrite E. now apply coherent_new.
  - replace st' with (fst (new_base_of st s)) by now rewrite E. now apply coherent_new_of.
  - (* add *)
    destruct C as [G A H]. constructor; [apply K| |].
    + intros c c' Hc Hc' N. unfold separate. cbn. unfold assign.
      destruct (Z.eqb_spec c b), (Z.eqb_spec c' b); subst; cbn; try congruence; apply A; auto.
    + intros c Hc. destruct (Z.eq_dec c b) as [->|N].
      * cbn. rewrite assign_same. discriminate.
      * assert (B : bases (add st b id) c = bases st c) by (cbn; now apply assign_other).
        unfold ids. rewrite B.
        assert (S : sets (add st b id) (set_at (bases st c)) = sets st (set_at (bases st c)))
          by (cbn; apply assign_other; apply A; auto).
        rewrite S. apply H. exact Hc.
  - (* interleave2 *)
    unfold interleave2 in E. pose proof (coherent_new st C) as C'.
    destruct (new_base st) as [st1 b0] eqn:N. cbn [fst] in C'.
    destruct (interleave3_ok maximum st1 b0 b1 b2 (c_good _ C'))
      as (m & E' & _ & S & M & O & X).
    rewrite E' in E. cbn in E. injection E as <- <-.
    destruct C' as [G A H]. constructor; [apply K|exact A|].
    intros c Hc Hh. cbn [with_sets bases] in *. rewrite H by auto. unfold ids. f_equal.
    cbn [with_sets bases sets].
    symmetry. apply O. assert (b0 <> c).
    { intros ->. cbn in N. injection N as <- <-. cbn in Hh. rewrite assign_same in Hh.
      discriminate. }
    assert (made st1 b0).
    { cbn in N. injection N as <- <-. unfold made. cbn. destruct C as [[? ? ? ? ? ?] ? ?]. lia. }
    apply A; auto.
  - (* hash *)
    unfold hash_of in E. destruct (is_hashed (bases st b)) eqn:Eh.
    + now injection E as <- <-.
    + injection E as <- <-. destruct C as [G A H]. constructor; [apply K| |].
      * intros c c' Hc Hc' N. unfold separate. cbn. unfold assign.
        destruct (Z.eqb_spec c b), (Z.eqb_spec c' b); subst; cbn; try congruence; apply A; auto.
      * intros c Hc. unfold ids. cbn [fst do_hashing with_bases bases sets]. unfold assign.
        destruct (Z.eqb_spec c b) as [->|N]; cbn; auto. apply H. exact Hc.
  - destruct mk as [mk|]; cbn [parsed_stamp] in E.
    + unfold stamp5 in E. pose proof (coherent_new st C) as C'.
      destruct (new_base st) as [st1 b1]. now injection E as <- <-.
    + replace st' with (fst (new_base st)) by (rewrite <- stamp_bool_new with (e := true); now rewrite E).
      now apply coherent_new.
  - replace st' with (fst (new_base st)) by (rewrite <- stamp_bool_new with (e := e); now rewrite E).
    now apply coherent_new.
  - replace st' with (fst (new_base st)) by (rewrite <- stamp_int_new with (t := t); now rewrite E).
    now apply coherent_new.
  - destruct C as [G A H]. constructor; [apply K|exact A|exact H].
Qed.

Lemma plain_coherent maximum duration t n st :
  0 <= t < two64 -> steps maximum duration plain (start t) n st -> coherent st.
Proof.
  intros Ht H. remember (start t) as st0 eqn:E0.
  assert (C : coherent st0).
  { subst. constructor; [now apply start_good| |]; intros b; unfold made; cbn; lia. }
  clear E0. induction H as [|st0 m st1 k m' st2 Hst IH Hk Hs]; auto.
  exact (coherent_step _ _ _ _ _ _ (IH C) Hk Hs).
Qed.

Lemma plain_hash maximum duration t n st b :
  0 <= t < two64 -> steps maximum duration plain (start t) n st -> made st b ->
  snd (hash_of st b) = hash_container (ids st b).
Proof.
  intros Ht H Hb. apply plain_coherent in H; auto. unfold hash_of.
  destruct (is_hashed (bases st b)) eqn:E; cbn; auto. now apply H.
Qed.

(* Tenses *)
Lemma to_int_small z : -2147483648 <= z < 2147483648 -> to_int z = z.
Proof. intros H. unfold to_int. rewrite Z.mod_small by lia. lia. Qed.

Lemma to_int_mod64 z : to_int (z mod two64) = to_int z.
Proof.
  unfold to_int. f_equal.
  rewrite (Z.div_mod z two64) at 2 by (unfold two64; lia).
  unfold two64. replace (18446744073709551616 * (z / 18446744073709551616) + z mod 18446744073709551616 + 2147483648)
    with (z mod 18446744073709551616 + 2147483648 + (4294967296 * (z / 18446744073709551616)) * 4294967296) by ring.
  now rewrite Z_mod_plus_full.
Qed.

Lemma to_int_mod32 z : to_int (z mod 4294967296) = to_int z.
Proof.
  unfold to_int. f_equal.
  rewrite (Z.div_mod z 4294967296) at 2 by lia.
  replace (4294967296 * (z / 4294967296) + z mod 4294967296 + 2147483648)
    with (z mod 4294967296 + 2147483648 + (z / 4294967296) * 4294967296) by ring.
  now rewrite Z_mod_plus_full.
Qed.

Lemma tense_ranges duration st s :
  0 < duration -> 0 <= time st -> time st + duration < 2147483648 ->
  is_eternal s = false ->
  (tense_of duration st s = Past <-> t_occurrence s <= time st - duration) /\
  (tense_of duration st s = Present <->
     time st - duration < t_occurrence s < time st + duration) /\
  (tense_of duration st s = Future <-> time st + duration <= t_occurrence s).
Proof.
  intros Hd Ht Hs He. unfold tense_of. rewrite He, !to_int_mod64, !to_int_small by lia.
  destruct (Z.leb_spec (time st + duration) (t_occurrence s)).
  - repeat split; intros; try discriminate; lia.
  - destruct (Z.leb_spec (t_occurrence s) (time st - duration));
      repeat split; intros; try discriminate; try lia; auto.
Qed.

Lemma parsed_tenses duration st :
  0 < duration -> 0 <= time st -> time st + duration < 2147483648 ->
  let tense_after mk :=
    let '(st', s) := parsed_stamp duration st mk in tense_of duration st' s in
  tense_after None = Eternal /\
  tense_after (Some MPast) = Past /\
  (tense_after (Some MPresent) = Present <-> time st < duration) /\
  (tense_after (Some MFuture) = Future <-> time st = 0).
Proof.
  intros Hd Ht Hs. cbn. unfold tense_of. cbn.
  rewrite !to_int_mod64, !to_int_mod32, !to_int_small by lia.
  repeat split.
  - destruct (Z.leb_spec (time st + duration) (- duration)); [lia|].
    destruct (Z.leb_spec (- duration) (time st - duration)); [auto|lia].
  - destruct (Z.leb_spec (time st + duration) 0); [lia|].
    destruct (Z.leb_spec 0 (time st - duration)); [discriminate|lia].
  - intros H. destruct (Z.leb_spec (time st + duration) 0); [lia|].
    destruct (Z.leb_spec 0 (time st - duration)); [lia|auto].
  - destruct (Z.leb_spec (time st + duration) duration); [lia|].
    destruct (Z.leb_spec duration (time st - duration)); discriminate.
  - intros ->. now rewrite Z.add_0_l, Z.leb_refl.
Qed.

Lemma tense_eternal duration st s :
  tense_of duration st s = Eternal <-> is_eternal s = true.
Proof.
  unfold tense_of. destruct (is_eternal s); [tauto|].
  destruct (_ <=? _); [split; discriminate|].
  destruct (_ <=? _); split; discriminate.
Qed.
