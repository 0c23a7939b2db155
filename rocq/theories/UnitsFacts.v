(* Proofs about the clocks and counters of the units. *)
From Coq Require Import ZArith List Bool Lia.
From Verif Require Import Base Hash Evidence EvidenceSpec EvidenceFacts EvidenceFacts2 Units UnitsSpec.
Import ListNotations.
Local Open Scope Z_scope.

Record fine (x : units) : Prop := { f_good : forall u, good (look x u) }.

Lemma fine_start : fine first_units.
Proof. constructor. intros u. exact (start_good 0 ltac:(unfold two64; lia)). Qed.

Lemma good_other st t i : good st -> 0 <= t < two64 -> 0 <= i < two64 ->
  good (Store (sets st) (bases st) (free_set st) (free_base st) t i).
Proof. intros [A B C D E F] Ht Hi. constructor; auto. Qed.

Lemma fine_keep x u st : fine x -> good st -> fine (keep x u st).
Proof.
  intros [F] G. constructor. intros v. unfold look, keep. cbn [memory clock counter].
  apply good_other; [assumption| |]; unfold assign; destruct (v =? u); try apply G.
  - exact (g_time _ (F v)).
  - exact (g_id _ (F v)).
Qed.

Lemma fine_write x u t : fine x -> 0 <= t < two64 -> fine (write x u t).
Proof.
  intros [F] H. constructor. intros v. unfold look, write. cbn [memory clock counter].
  pose proof (F v) as G. destruct G as [A B C D E I]. constructor; auto.
  cbn [time]. unfold assign. destruct (v =? u); assumption.
Qed.

Lemma bind_ok A B (m : res A) (f : A -> res B) r : bind m f = Ok r -> exists a, m = Ok a /\ f a = Ok r.
Proof. destruct m; cbn; try discriminate. eauto. Qed.

Lemma step_time maximum duration st k n st' : step maximum duration st k n st' -> k <> Tick -> time st' = time st.
Proof.
  intros H N. destruct H as
    [st st' b E | st s st' b Hs E | st b st' b' Hb E | st b id Hb
    | st b b1 b2 st' Hb Hb1 Hb2 E | st b1 b2 st' b Hb1 Hb2 E | st b o st' Hb Ho E | st b st' h Hb E
    | st mk st' s E | st e st' s E | st t st' s E | st t Ht].
  - injection E as <- _. reflexivity.
  - injection E as <- _. reflexivity.
  - injection E as <- _. reflexivity.
  - reflexivity.
  - unfold interleave3 in E. apply bind_ok in E. destruct E as (m & _ & E). injection E as <-. reflexivity.
  - unfold interleave2 in E. cbn [new_base get_input_id new_base_of] in E. apply bind_ok in E. destruct E as (m & E1 & E).
    injection E as <- _. unfold interleave3 in E1. apply bind_ok in E1. destruct E1 as (m' & _ & E1). injection E1 as <-. reflexivity.
  - unfold extend in E. apply bind_ok in E. destruct E as (m & _ & E). injection E as <-. reflexivity.
  - unfold hash_of in E. destruct (is_hashed _); [|unfold do_hashing in E]; injection E as <- _; reflexivity.
  - destruct mk; injection E as <- _; reflexivity.
  - injection E as <- _. reflexivity.
  - injection E as <- _. reflexivity.
  - congruence.
Qed.

(* What a run keeps. *)
Record went (l : list Z) (W : Z -> Prop) (x : units) (d : Z -> Z) (x' : units) : Prop := {
  w_fine : fine x';
  w_id : forall u, counter x' u = (counter x u + d u) mod two64;
  w_d : forall u, 0 <= d u;
  w_clock : forall u, ~ W u -> clock x' u = clock x u;
  w_sets : forall a, a < free_set (memory x) -> In a l -> sets (memory x') a = sets (memory x) a;
  w_set : free_set (memory x) <= free_set (memory x');
  w_base : free_base (memory x) <= free_base (memory x');
  w_at : forall b, made (memory x) b -> set_at (bases (memory x') b) = set_at (bases (memory x) b)
}.

Lemma goes_went maximum duration copy (P : kind -> Prop) (W : Z -> Prop) l x d x' :
  (forall k, P k -> sparing l k) -> fine x -> goes maximum duration copy P W x d x' -> went l W x d x'.
Proof.
  intros HP F H. induction H as [x|x d x' s k n st H IH Hk Nk Hs|x d x' u t H IH Hu Ht].
  - constructor; auto; try lia. intros u. rewrite Z.add_0_r. symmetry. apply Z.mod_small. exact (g_id _ (f_good _ F u)).
  - specialize (IH F). destruct IH as [A1 A2 A3 A4 A5 A6 A7 A8].
    pose proof (step_kept _ _ _ _ _ _ (f_good _ A1 (copy s)) Hs) as [B1 B2 B3 B4 B5 B6 B7].
    pose proof (step_time _ _ _ _ _ _ Hs Nk) as Bt. apply HP in Hk.
    cbn [look sets bases free_set free_base time input_id] in *. unfold made in *.
    cbn [look sets bases free_set free_base time input_id] in *.
    constructor; unfold keep; cbn [memory clock counter].
    + apply fine_keep; assumption.
    + intros u. unfold assign. destruct (Z.eqb_spec u (copy s)) as [->|N]; [|apply A2].
      rewrite B2, A2, Zplus_mod_idemp_l. f_equal. lia.
    + intros u. specialize (A3 u). destruct (u =? copy s); lia.
    + intros u Hu. unfold assign. destruct (Z.eqb_spec u (copy s)) as [->|N]; [rewrite Bt|]; apply A4; assumption.
    + intros a Ha Hl. rewrite B4, A5; auto; try lia. destruct k; cbn in *; auto; intros [->|[]]; auto.
    + lia.
    + lia.
    + intros b Hb. unfold made in Hb. rewrite B7, A8; auto. lia.
  - specialize (IH F). destruct IH as [A1 A2 A3 A4 A5 A6 A7 A8]. constructor; cbn [write memory clock counter]; auto.
    + apply fine_write; assumption.
    + intros v Hv. unfold assign. destruct (Z.eqb_spec v u) as [->|N]; [contradiction|auto].
Qed.

Lemma goes_fine maximum duration copy (P : kind -> Prop) (W : Z -> Prop) x d x' : fine x ->
  goes maximum duration copy P W x d x' -> went [] W x d x'.
Proof. apply goes_went. intros [] _; cbn; auto. Qed.

(* Reading a sentence without a tense marker. *)
Record read_at (x : units) (u : Z) (x' : units) (p : stamp) (b : Z) : Prop := {
  r_fine : fine x';
  r_base : evidential_base p = Some b;
  r_made : made (memory x') b;
  r_at : set_at (bases (memory x') b) = free_set (memory x);
  r_ids : sets (memory x') (free_set (memory x)) = [counter x u];
  r_id : forall v, counter x' v = if v =? u then (counter x v + 1) mod two64 else counter x v;
  r_sets : forall a, a < free_set (memory x) -> sets (memory x') a = sets (memory x) a;
  r_set : free_set (memory x') = free_set (memory x) + 1;
  r_basef : free_base (memory x) <= free_base (memory x');
  r_bases : forall c, made (memory x) c -> set_at (bases (memory x') c) = set_at (bases (memory x) c)
}.

Lemma reads copy duration x s x' p b : fine x -> read_stamp copy duration x s None = (x', p) ->
  evidential_base p = Some b -> read_at x (copy s) x' p b.
Proof.
  intros F E Eb. unfold read_stamp in E.
  destruct (parsed_stamp duration (look x (copy s)) None) as [st q] eqn:Ep. injection E as <- <-.
  pose proof (f_good _ F (copy s)) as G.
  pose proof (parsed_fresh duration _ G) as (c & F1 & F2 & F3 & F4 & F5). rewrite Ep in F1, F2, F3, F4, F5. cbn [fst snd] in *.
  rewrite Eb in F1. injection F1 as <-.
  pose proof (kept_parse _ _ _ _ _ G Ep) as [K1 K2 K3 K4 K5 K6 K7].
  unfold ids in F3. rewrite F4 in F3.
  cbn [look sets bases free_set free_base time input_id] in *.
  constructor; cbn [keep memory clock counter]; auto.
  - apply fine_keep; assumption.
  - intros v. unfold assign. destruct (Z.eqb_spec v (copy s)) as [->|N]; [exact K2|reflexivity].
  - intros a Ha. apply K4; [assumption|exact I].
Qed.

(* ---- C173 ---- *)
Lemma units_overlap maximum duration copy d0 x0 s1 x1 p1 b1 d x2 s2 x3 p2 b2 d' x4 u :
  goes maximum duration copy any anywhere first_units d0 x0 ->
  read_stamp copy duration x0 s1 None = (x1, p1) -> evidential_base p1 = Some b1 ->
  goes maximum duration copy (sparing [set_at (bases (memory x1) b1)]) anywhere x1 d x2 ->
  read_stamp copy duration x2 s2 None = (x3, p2) -> evidential_base p2 = Some b2 ->
  goes maximum duration copy (sparing [set_at (bases (memory x1) b1); set_at (bases (memory x3) b2)]) anywhere x3 d' x4 ->
  exists r, is_overlaped (look x4 u) b1 b2 = Ok r /\
    (r = true <-> d0 (copy s1) mod two64
       = (d0 (copy s2) + (if copy s2 =? copy s1 then 1 else 0) + d (copy s2)) mod two64).
Proof.
  intros G0 R1 E1 G1 R2 E2 G2.
  apply goes_fine in G0; [|apply fine_start].
  pose proof (reads _ _ _ _ _ _ _ (w_fine _ _ _ _ _ G0) R1 E1) as K1.
  apply (goes_went _ _ _ _ _ [set_at (bases (memory x1) b1)]) in G1; [|auto|apply K1].
  pose proof (reads _ _ _ _ _ _ _ (w_fine _ _ _ _ _ G1) R2 E2) as K2.
  apply (goes_went _ _ _ _ _ [set_at (bases (memory x1) b1); set_at (bases (memory x3) b2)]) in G2; [|auto|apply K2].
  destruct G0 as [A1 A2 A3 A4 A5 A6 A7 A8]. destruct G1 as [B1 B2 B3 B4 B5 B6 B7 B8]. destruct G2 as [C1 C2 C3 C4 C5 C6 C7 C8].
  destruct K1 as [K1 K2' K3 K4 K5 K6 K7 K8 K9 K10]. destruct K2 as [L1 L2 L3 L4 L5 L6 L7 L8 L9 L10].
  destruct (overlap_exact (look x4 u) b1 b2 (g_sorted _ (f_good _ C1 u))) as (r & Er & X).
  exists r. split; [assumption|]. rewrite X. unfold ids. cbn [look sets bases].
  unfold made in *.
  assert (I1 : sets (memory x4) (set_at (bases (memory x4) b1)) = [counter x0 (copy s1)]).
  { rewrite C8, L10, B8 by lia. rewrite K4. rewrite C5, L7, B5; [exact K5|lia|cbn; auto|lia|lia|cbn; auto]. }
  assert (I2 : sets (memory x4) (set_at (bases (memory x4) b2)) = [counter x2 (copy s2)]).
  { rewrite C8 by lia. rewrite L4. rewrite C5; [exact L5|lia|cbn; auto]. }
  rewrite I1, I2. rewrite B2, K6, A2, A2. cbn [first_units counter]. rewrite !Z.add_0_l.
  assert (Q : ((if copy s2 =? copy s1 then (d0 (copy s2) mod two64 + 1) mod two64 else d0 (copy s2) mod two64) + d (copy s2)) mod two64
              = (d0 (copy s2) + (if copy s2 =? copy s1 then 1 else 0) + d (copy s2)) mod two64).
  { destruct (copy s2 =? copy s1).
    - rewrite (Zplus_mod_idemp_l (d0 (copy s2))), Zplus_mod_idemp_l. reflexivity.
    - rewrite Zplus_mod_idemp_l. f_equal. lia. }
  rewrite Q. split.
  - intros (z & [<-|[]] & [Hz|[]]). auto.
  - intros E. exists (d0 (copy s1) mod two64). cbn. auto.
Qed.


Lemma same_counter maximum duration copy d0 x0 s1 x1 p1 b1 d x2 s2 x3 p2 b2 d' x4 u :
  goes maximum duration copy any anywhere first_units d0 x0 ->
  read_stamp copy duration x0 s1 None = (x1, p1) -> evidential_base p1 = Some b1 ->
  goes maximum duration copy (sparing [set_at (bases (memory x1) b1)]) anywhere x1 d x2 ->
  read_stamp copy duration x2 s2 None = (x3, p2) -> evidential_base p2 = Some b2 ->
  goes maximum duration copy (sparing [set_at (bases (memory x1) b1); set_at (bases (memory x3) b2)]) anywhere x3 d' x4 ->
  copy s1 = copy s2 -> d (copy s2) + 1 < two64 ->
  is_overlaped (look x4 u) b1 b2 = Ok false.
Proof.
  intros G0 R1 E1 G1 R2 E2 G2 Ec Hd.
  destruct (units_overlap _ _ _ _ _ _ _ _ _ _ _ _ _ _ _ _ _ u G0 R1 E1 G1 R2 E2 G2) as (r & -> & X).
  f_equal. destruct r; [|reflexivity]. exfalso. pose proof (proj1 X eq_refl) as Y. rewrite Ec, Z.eqb_refl in Y.
  apply goes_fine in G0; [|apply fine_start].
  pose proof (reads _ _ _ _ _ _ _ (w_fine _ _ _ _ _ G0) R1 E1) as K1.
  apply goes_fine in G1; [|apply K1]. pose proof (w_d _ _ _ _ _ G1 (copy s2)) as Hd0.
  set (a := d0 (copy s2)) in *. set (b := d (copy s2)) in *.
  assert (Z : (a + 1 + b - a) mod two64 = 0).
  { rewrite Zminus_mod, <- Y, Z.sub_diag. reflexivity. }
  replace (a + 1 + b - a) with (b + 1) in Z by lia. rewrite Z.mod_small in Z by lia. lia.
Qed.

(* ---- C174 ---- *)
Lemma written_stays maximum duration copy (P : kind -> Prop) (W : Z -> Prop) x d x' u : fine x ->
  goes maximum duration copy P W x d x' -> ~ W u -> clock x' u = clock x u.
Proof. intros F G N. apply goes_fine in G; [|assumption]. apply (w_clock _ _ _ _ _ G). assumption. Qed.

Lemma read_occurrence copy duration y s mk y' p : read_stamp copy duration y s mk = (y', p) ->
  is_eternal p = (match mk with None => true | Some _ => false end)
  /\ (forall m, mk = Some m -> t_occurrence p = marked_time duration m).
Proof.
  unfold read_stamp. destruct mk as [m|]; cbn [parsed_stamp].
  - unfold stamp5, new_base, get_input_id, new_base_of. intros E. injection E as _ <-. cbn. split; [reflexivity|]. congruence.
  - unfold stamp_bool, get_input_id, new_base_of, stamp5. intros E. injection E as _ <-. cbn. split; [reflexivity|]. discriminate.
Qed.

Lemma unwritten_clock maximum duration copy (W : Z -> Prop) d x s y s' mk y' p :
  0 < duration < 2147483648 -> goes maximum duration copy any W first_units d x -> ~ W (copy s) ->
  read_stamp copy duration y s' mk = (y', p) -> said duration mk (shown_tense copy duration x s p).
Proof.
  intros Hd G N R. pose proof (written_stays _ _ _ _ _ _ _ _ _ fine_start G N) as C. cbn [first_units clock] in C.
  destruct (read_occurrence _ _ _ _ _ _ _ R) as (He & Ho). unfold shown_tense.
  destruct mk as [m|]; cbn [said]; [|unfold tense_of; rewrite He; reflexivity].
  specialize (Ho m eq_refl).
  destruct (tense_ranges duration (look x (copy s)) p) as (T1 & T2 & T3).
  { lia. } { cbn [look time]. lia. } { cbn [look time]. lia. } { exact He. }
  cbn [look time] in T1, T2, T3. rewrite C in *. rewrite Ho in *.
  destruct m; cbn [marked_time] in *.
  - apply T3. unfold to_int. rewrite Z.mod_small by lia. lia.
  - apply T2. lia.
  - apply T1. unfold to_int. rewrite Zplus_mod_idemp_l, Z.mod_small by lia. lia.
  - split; [rewrite T1; lia|]. split; [rewrite T2; lia|rewrite T3; lia].
Qed.

Lemma own_clock maximum duration copy (W : Z -> Prop) d x u t d' x' s p :
  goes maximum duration copy any anywhere first_units d x -> 0 < duration -> 0 <= t -> t + duration < 2147483648 ->
  goes maximum duration copy any W (write x u t) d' x' -> ~ W u -> copy s = u -> is_eternal p = false ->
  (shown_tense copy duration x' s p = Past <-> t_occurrence p <= t - duration)
  /\ (shown_tense copy duration x' s p = Present <-> t - duration < t_occurrence p < t + duration)
  /\ (shown_tense copy duration x' s p = Future <-> t + duration <= t_occurrence p).
Proof.
  intros G Hd Ht Hs G' N Ec He.
  pose proof (goes_fine _ _ _ _ _ _ _ _ fine_start G) as F. apply w_fine in F.
  assert (F' : fine (write x u t)) by (apply fine_write; [assumption|unfold two64; lia]).
  pose proof (written_stays _ _ _ _ _ _ _ _ _ F' G' N) as C. cbn [write clock] in C. unfold assign in C. rewrite Z.eqb_refl in C.
  unfold shown_tense. rewrite Ec.
  destruct (tense_ranges duration (look x' u) p) as (T1 & T2 & T3); cbn [look time] in *; rewrite ?C in *; auto; lia.
Qed.
