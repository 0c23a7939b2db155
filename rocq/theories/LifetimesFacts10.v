(* Building collects the indices of the components. *)
From Coq Require Import String ZArith List Bool Arith Lia.
From Verif Require Import Base Lifetimes LifetimesSpec LifetimesFacts LifetimesFacts2 LifetimesFacts3 LifetimesFacts4 LifetimesFacts7 LifetimesFacts9.
Import ListNotations.

Lemma built_firm : forall L W m m' n i, firm2 L W m m' -> ~ In n W -> built_with m n i -> built_with m' n i.
Proof.
  intros L W m m' n i F N (x & l & s & E & B). destruct (f_slot _ _ _ _ F n s E) as (s' & E' & _ & _ & _ & V). specialize (V N). rewrite B in V.
  destruct V as (x' & i' & k' & B' & I' & K'). destruct (K' eq_refl) as [-> _]. rewrite (I' (or_introl eq_refl)) in B'. exists x', l, s'. auto.
Qed.

Lemma builts_firm : forall L W m m' ns is, firm2 L W m m' -> (forall n, In n ns -> ~ In n W) -> Forall2 (built_with m) ns is -> Forall2 (built_with m') ns is.
Proof.
  intros L W m m' ns is F N B. induction B as [|n i ns is H B IH]; constructor.
  - eapply built_firm; [exact F|apply N; left; reflexivity|exact H].
  - apply IH. intros q I. apply N. right. assumption.
Qed.

Lemma has_lt : forall m n b, has_body m n b -> n < length m.
Proof. intros m n b (s & E & _). apply nth_error_Some. congruence. Qed.

(* A list that nothing points to and that has not been built. *)
Definition unbuilt (m : mem) (k : nat) : Prop := avoid (eq k) m /\ exists x l, has_body m k (BIndex x [] l false).

Lemma spare_old : forall k m m', k < length m -> spare (eq k) m m'.
Proof. intros k m m' L q Q1 Q2 <-. lia. Qed.

Lemma unbuilt_lt : forall m k, unbuilt m k -> k < length m.
Proof. intros m k (_ & x & l & B). eapply has_lt; exact B. Qed.

Lemma unbuilt_calm : forall m m' k, unbuilt m k -> calm (eq k) m m' -> unbuilt m' k.
Proof. intros m m' k (A & x & l & B) [C1 C2]. split; [assumption|]. exists x, l. apply C2; auto. Qed.

Lemma build_built : forall fuel m n m', build false fuel m n = Ok m' -> exists x i l, has_body m' n (BIndex x i l true) /\ (has_body m n (BIndex x i l true) \/ x <> None).
Proof.
  intros [|fuel] m n m' E; [discriminate|]. simpl in E. step E b Q. apply body_has in Q. destruct b as [| |x i s [|]| |]; try discriminate.
  - injection E as <-. eauto 6.
  - step E m1 W1. step E m2 D. step E m6 Lp. step E bn Q6. destruct bn as [| |x6 j6 t6 k6| |]; try discriminate. step E m7 W7.
    pose proof (write_body _ _ _ _ W7) as B7. unfold normalize in E. step E b7 Q7. apply body_has in Q7. pose proof (has_same _ _ _ _ B7 Q7) as <-.
    destruct x6 as [v|].
    + injection E as <-. exists (Some v), j6, t6. split; [assumption|]. right. discriminate.
    + destruct (alloc m7 BVector) as [m8 v]. exists (Some v), j6, t6. split; [eapply write_body; exact E|]. right. discriminate.
Qed.

Lemma normalize_body : forall m n m' x i l k, normalize m n = Ok m' -> has_body m n (BIndex x i l k) -> exists v, has_body m' n (BIndex (Some v) i l k).
Proof.
  intros m n m' x i l k E B. unfold normalize in E. step E b Q. apply body_has in Q. pose proof (has_same _ _ _ _ B Q) as <-. destruct x as [v|].
  - injection E as <-. eauto.
  - destruct (alloc m BVector) as [m1 v]. exists v. eapply write_body; exact E.
Qed.

Section Loop.
Variables (fuel n : nat) (x : option nat) (s : list nat).
Definition pass (m3 : mem) (son : nat) : res mem :=
  bind (build false fuel m3 son) (fun m4 =>
  bind (body_at m4 son) (fun bs =>
  match bs with
  | BIndex _ is _ _ =>
      bind (acquire_all m4 is) (fun m5 =>
      bind (body_at m5 n) (fun bn =>
      match bn with
      | BIndex x j t k => write m5 n (BIndex x (j ++ is) t k)
      | _ => UB
      end))
  | _ => UB
  end)).

Lemma loop_collects : forall l m m' j, each pass m l = Ok m' -> ~ In n l -> avoid (eq n) m -> has_body m n (BIndex x j s false) ->
  exists is, has_body m' n (BIndex x (j ++ concat is) s false) /\ Forall2 (built_with m') l is /\ avoid (eq n) m' /\ firm2 [] [n] m m'.
Proof.
  induction l as [|son l IH]; intros m m' j E N A B; simpl in E.
  - injection E as <-. exists []. simpl. rewrite app_nil_r. split; [assumption|]. split; [constructor|]. split; [assumption|]. apply firm_refl2.
  - step E m1 Q. unfold pass in Q. step Q m4 B4. step Q bs Qs. destruct bs as [| |xs is ss ks| |]; try discriminate. step Q m5 A5. step Q bn Qn. apply body_has in Qn.
    pose proof (has_lt _ _ _ B) as Ln. assert (Ns : n <> son) by (intros ->; apply N; left; reflexivity).
    pose proof (build_calm (eq n) _ _ _ _ B4 Ns A (spare_old _ _ _ Ln)) as [C4 C4']. pose proof (body_free _ _ _ _ C4 Qs) as Fs.
    pose proof (acquire_all_calm (eq n) _ _ _ C4 A5) as [C5 C5']. pose proof (C5' _ _ eq_refl (C4' _ _ eq_refl B)) as Bn. pose proof (has_same _ _ _ _ Bn Qn) as <-.
    pose proof (write_body _ _ _ _ Q) as B1.
    assert (A1 : avoid (eq n) m1).
    { eapply write_avoid; [exact C5| |exact Q]. destruct Bn as (sn & En & Bn). intros r I. simpl in I. rewrite !in_app_iff in I.
      assert (Fn : free (eq n) (refs (BIndex x j s false))).
      { intros q Iq. destruct B as (s0 & E0 & B0). intros <-. pose proof Iq as Iq2. revert Iq2. unfold write in Q. step Q sl Lk. apply look_inv in Lk.
        destruct Lk as [Lk1 Lk2]. rewrite En in Lk1. injection Lk1 as <-. rewrite <- Bn. intros Iq2. exact (C5 n sn En n Iq2 eq_refl). }
      destruct I as [I|[[I|I]|I]]; [| |apply Fs; simpl; rewrite !in_app_iff; auto|]; apply Fn; simpl; rewrite !in_app_iff; auto. }
    assert (F1 : firm2 [] [n] m m1).
    { eapply firm_trans2; [eapply firm_incl2; [| |exact (firm_trans _ _ _ _ (build_firm _ _ _ _ B4) (acquire_all_firm _ _ _ A5))]; intros z []|].
      eapply write_su; [exact Bn|left; left; reflexivity|exact Q]. }
    destruct (IH m1 m' (j ++ is) E (fun I => N (or_intror I)) A1 B1) as (iss & P1 & P2 & P3 & P4).
    exists (is :: iss). simpl. rewrite app_assoc. split; [exact P1|]. split; [|split; [exact P3|eapply firm_trans2; eassumption]].
    constructor; [|exact P2]. eapply built_firm; [exact P4|intros [Q1|[]]; congruence|].
    destruct (build_built _ _ _ _ B4) as (x4 & i4 & l4 & B4' & _). apply body_has in Qs. pose proof (has_same _ _ _ _ B4' Qs) as X. injection X as <- <- <- <-.
    assert (B5 : built_with m5 son i4) by (eapply built_firm; [exact (acquire_all_firm _ _ _ A5)|intros []|]; exists x4, l4; exact B4').
    eapply (built_firm [] [n]); [|intros [Q1|[]]; congruence|exact B5]. eapply write_su; [exact Bn|left; left; reflexivity|exact Q].
Qed.
End Loop.

Lemma build_collects : forall fuel m n m', unbuilt m n -> build false fuel m n = Ok m' -> collected m' true n.
Proof.
  intros [|fuel] m n m' (A & x & s & B) E; [discriminate|]. simpl in E. step E b Q. apply body_has in Q. pose proof (has_same _ _ _ _ B Q) as <-.
  step E m1 W1. step E m2 D. step E m6 Lp. step E bn Q6. apply body_has in Q6. destruct bn as [| |x6 j6 t6 k6| |]; try discriminate. step E m7 W7.
  assert (Ei : (match s with [] => [] | _ :: _ => [] end : list nat) = []) by (destruct s; reflexivity). rewrite Ei in W1, D.
  assert (F : free (eq n) (refs (BIndex x [] s false))) by (destruct B as (sb & Eb & <-); exact (A n sb Eb)). unfold drop_all in D. simpl in D. injection D as <-.
  pose proof (write_body _ _ _ _ W1) as B1.
  assert (A1 : avoid (eq n) m1) by (exact (write_avoid _ _ _ _ _ A F W1)).
  assert (Ns : ~ In n s) by (intros I; apply (F n); [simpl; rewrite !in_app_iff; auto|reflexivity]).
  destruct (loop_collects fuel n x s s m1 m6 [] Lp Ns A1 B1) as (is & P1 & P2 & P3 & P4). simpl in P1.
  pose proof (has_same _ _ _ _ P1 Q6) as X. injection X as <- <- <- <-. pose proof (write_body _ _ _ _ W7) as B7.
  destruct (normalize_body _ _ _ _ _ _ _ E B7) as (v & Bv). exists (Some v), (concat is), s. split; [exact Bv|]. split; [discriminate|].
  exists is. split; [|reflexivity].
  eapply builts_firm; [exact (normalize_firm _ _ _ E)|intros q _ []|].
  eapply (builts_firm [] [n] m6 m7); [|intros q Iq [->|[]]; contradiction|exact P2]. eapply write_su; [exact P1|left; left; reflexivity|exact W7].
Qed.

Lemma build_one_collects : forall m h n m', unbuilt m n -> build_one false m h n = Ok m' -> collected m' h n.
Proof.
  intros m h n m' U E. unfold build_one in E. destruct h; [eapply build_collects; eassumption|]. destruct U as (A & x & l & B).
  step E b Q. apply body_has in Q. pose proof (has_same _ _ _ _ B Q) as <-. exists x, [], l. split; [eapply write_body; exact E|reflexivity].
Qed.

Lemma collected_firm : forall L m m' h k, firm L m m' -> ~ In k L -> (forall q, In q L -> unbuilt m q) -> collected m h k -> collected m' h k.
Proof.
  intros L m m' h k F N U (x & i & l & B & C). destruct B as (s & E & B). destruct (f_slot _ _ _ _ F k s E) as (s' & E' & _ & _ & _ & V).
  specialize (V N). rewrite B in V. destruct V as (x' & i' & k' & B' & I' & K'). destruct (K' eq_refl) as [-> X']. rewrite (I' (or_introl eq_refl)) in B'.
  exists x', i, l. split; [exists s'; auto|]. destruct h; [|exact C]. destruct C as (Nx & is & Fa & Ei). split; [rewrite X' by assumption; assumption|].
  exists is. split; [|assumption]. eapply builts_firm; [exact F| |exact Fa]. intros q Iq IL. destruct (U q IL) as (_ & x1 & l1 & B1).
  clear -Fa Iq B1. induction Fa as [|a b l is H Fa IH]; [destruct Iq|]. destruct Iq as [->|I]; [|auto]. destruct H as (x2 & l2 & B2).
  pose proof (has_same _ _ _ _ B1 B2). discriminate.
Qed.

Definition all_unbuilt (m : mem) (a b c : nat) : Prop := unbuilt m a /\ unbuilt m b /\ unbuilt m c.

Lemma build_lists_collect : forall m a b c f m', NoDup [a; b; c] -> all_unbuilt m a b c -> build_lists false m (a, b, c) f = Ok m' ->
  collected m' (f_ivar f) a /\ collected m' (f_dvar f) b /\ collected m' (f_qvar f) c.
Proof.
  intros m a b c f m' ND (Ua & Ub & Uc) E. simpl in E. step E m1 E1. step E m2 E2.
  assert (Nab : a <> b) by (inversion ND as [|? ? N1 N2]; intros ->; apply N1; left; reflexivity).
  assert (Nac : a <> c) by (inversion ND as [|? ? N1 N2]; intros ->; apply N1; right; left; reflexivity).
  assert (Nbc : b <> c) by (inversion ND as [|? ? _ N1]; inversion N1 as [|? ? N2 N3]; intros ->; apply N2; left; reflexivity).
  pose proof (build_one_firm _ _ _ _ E1) as F1. pose proof (build_one_firm _ _ _ _ E2) as F2. pose proof (build_one_firm _ _ _ _ E) as F3.
  assert (St : forall m h n m' k, k <> n -> unbuilt m k -> build_one false m h n = Ok m' -> unbuilt m' k).
  { intros p h n p' k Ne U Ep. eapply unbuilt_calm; [exact U|]. eapply build_one_calm; [exact Ep|exact Ne|exact (proj1 U)|apply spare_old, unbuilt_lt; exact U]. }
  pose proof (build_one_collects _ _ _ _ Ua E1) as Ca. pose proof (St _ _ _ _ b (not_eq_sym Nab) Ub E1) as Ub1. pose proof (St _ _ _ _ c (not_eq_sym Nac) Uc E1) as Uc1.
  pose proof (build_one_collects _ _ _ _ Ub1 E2) as Cb. pose proof (St _ _ _ _ c (not_eq_sym Nbc) Uc1 E2) as Uc2.
  pose proof (build_one_collects _ _ _ _ Uc2 E) as Cc.
  assert (K : forall p p' h k, firm [] p p' -> collected p h k -> collected p' h k) by (intros; eapply collected_firm; [eassumption|intros []|intros q []|assumption]).
  split; [eapply K; [exact F3|]; eapply K; [exact F2|exact Ca]|]. split; [eapply K; [exact F3|exact Cb]|exact Cc].
Qed.

Lemma normalize_unbuilt : forall m n m' k, unbuilt m k -> normalize m n = Ok m' -> unbuilt m' k.
Proof.
  intros m n m' k U E. pose proof (unbuilt_lt _ _ U) as L. destruct (Nat.eq_dec k n) as [->|Ne].
  - destruct U as (A & x & l & B). split; [eapply normalize_avoid; [exact E|exact A|apply spare_old; assumption]|].
    destruct (normalize_body _ _ _ _ _ _ _ E B) as (v & Bv). eauto.
  - eapply unbuilt_calm; [exact U|]. eapply normalize_calm; [exact E|exact Ne|exact (proj1 U)|apply spare_old; assumption].
Qed.

Lemma hash_unbuilt : forall m v m' k, unbuilt m k -> hash_lists m v = Ok m' -> unbuilt m' k.
Proof.
  intros m [[a b] c] m' k U E. simpl in E. step E m1 E1. step E m2 E2.
  eapply normalize_unbuilt; [|exact E]. eapply normalize_unbuilt; [|exact E2]. eapply normalize_unbuilt; eassumption.
Qed.

Lemma connect_unbuilt : forall m a b m' k, unbuilt m k -> b <> k -> connect false m a b = Ok m' -> unbuilt m' k.
Proof.
  intros m a b m' k U Nb E. destruct (Nat.eq_dec k a) as [->|Ne].
  - destruct U as (A & x & l & B). split; [eapply connect_avoid; [exact E|congruence|exact A]|].
    unfold connect in E. step E bd Q. apply body_has in Q. pose proof (has_same _ _ _ _ B Q) as <-. step E m1 W. step E m2 D. step E m3 Aq.
    exists None, (l ++ [b]). eapply write_body; exact E.
  - eapply unbuilt_calm; [exact U|]. eapply connect_calm; [exact E|exact Ne|congruence|exact (proj1 U)].
Qed.

Lemma join_unbuilt : forall parts m v m' k, unbuilt m k -> join_lists false m v parts = Ok m' -> unbuilt m' k.
Proof.
  induction parts as [|t parts IH]; intros m [[a b] c] m' k U E; unfold join_lists in E; simpl in E; [injection E as <-; assumption|].
  step E m1 Q. step Q son Ls. step Q m2 C1. step Q m3 C2. pose proof (list_at_free _ _ _ _ (proj1 U) Ls) as Ns. apply not_eq_sym in Ns.
  apply (IH m1 (a, b, c) m' k); [|exact E]. eapply connect_unbuilt; [|exact Ns|exact Q]. eapply connect_unbuilt; [|exact Ns|exact C2]. eapply connect_unbuilt; eassumption.
Qed.

(* ---- no pointer leads outside ---- *)
Definition shut (m : mem) : Prop := forall k, length m <= k -> avoid (eq k) m.

Lemma shut_calm : forall m m', shut m -> length m <= length m' -> (forall k, length m' <= k -> avoid (eq k) m -> spare (eq k) m m' -> calm (eq k) m m') -> shut m'.
Proof.
  intros m m' Sh Le C k Lk. apply (C k Lk); [apply Sh; lia|]. intros q Q1 Q2 <-. lia.
Qed.

Lemma new_lists_unbuilt : forall m m' a b c, shut m -> new_lists m = (m', (a, b, c)) -> all_unbuilt m' a b c /\ shut m'.
Proof.
  intros m m' a b c Sh N. destruct (new_lists_made _ _ _ _ _ N) as (F & Ea & Eb & Ec & L & _).
  assert (W : forall k, In k [a; b; c] -> unbuilt m' k).
  { intros k I. assert (Lk : length m <= k) by (destruct I as [<-|[<-|[<-|[]]]]; lia). split; [exact (proj1 (new_lists_calm (eq k) _ _ _ N (Sh k Lk)))|].
    exists None, []. eexists. split; [exact (new_lists_body _ _ _ _ _ N k I)|reflexivity]. }
  split; [repeat split; apply W; simpl; auto|]. eapply shut_calm; [exact Sh|exact (f_len _ _ _ _ F)|]. intros k _ A _. eapply new_lists_calm; eassumption.
Qed.

(* Functions like clone. *)
Definition tame (cl : mem -> nat -> res (mem * nat)) : Prop := longer cl /\ forall P, calms P cl.

Lemma clone_tame : forall choose fuel, tame (clone false choose fuel).
Proof. intros choose fuel. split; [apply clone_len|]. intros P. apply clone_calms. Qed.

Lemma clone_of_tame : forall choose, tame (clone_of false choose).
Proof.
  intros choose. split.
  - intros m n m' r E. exact (clone_len choose _ m n m' r E).
  - intros P m n m' r E. exact (clone_calms P choose _ m n m' r E).
Qed.

Lemma part_tame : forall choose i, tame (part false choose i).
Proof.
  intros choose i. unfold part. destruct i; [|apply clone_of_tame]. split.
  - intros m n m' r E. step E m1 Q. injection E as <- <-. exact (f_len _ _ _ _ (acquire_firm _ _ _ Q)).
  - intros P m n m' r E N A Sp. step E m1 Q. injection E as <- <-. split; [eapply acquire_calm; eassumption|assumption].
Qed.

Lemma tame_shut : forall cl m n m' r, tame cl -> shut m -> n < length m -> cl m n = Ok (m', r) -> shut m' /\ r < length m'.
Proof.
  intros cl m n m' r [Lo C] Sh Ln E. pose proof (Lo _ _ _ _ E) as Le. split.
  - eapply shut_calm; [exact Sh|exact Le|]. intros k Lk A Sp. refine (proj1 (C _ _ _ _ _ E _ A Sp)). intros ->. lia.
  - destruct (Nat.lt_ge_cases r (length m')) as [|Ge]; [assumption|]. exfalso.
    refine (proj2 (C (eq r) _ _ _ _ E _ _ _) eq_refl); [intros ->; lia|apply Sh; lia|]. intros q Q1 Q2 <-. lia.
Qed.

Lemma tame_unbuilt : forall cl m n m' r k, tame cl -> unbuilt m k -> n <> k -> cl m n = Ok (m', r) -> unbuilt m' k /\ r <> k.
Proof.
  intros cl m n m' r k [Lo C] U Ne E. pose proof (unbuilt_lt _ _ U) as L.
  destruct (C (eq k) _ _ _ _ E (not_eq_sym Ne) (proj1 U) (spare_old _ _ _ L)) as [C1 C2]. split; [eapply unbuilt_calm; eassumption|congruence].
Qed.

Lemma clones_shut : forall cl l m m' rs, tame cl -> shut m -> (forall n, In n l -> n < length m) -> clones cl m l = Ok (m', rs) -> shut m'.
Proof.
  intros cl. induction l as [|n l IH]; intros m m' rs T Sh Ln E; simpl in E; [injection E as <- <-; assumption|].
  step E r1 E1. step E r2 E2. injection E as <- <-. destruct r1 as [m1 r1], r2 as [m2 r2]. simpl fst in *. pose proof (proj1 T _ _ _ _ E1) as Le.
  destruct (tame_shut _ _ _ _ _ T Sh (Ln n (or_introl eq_refl)) E1) as [Sh1 _]. eapply IH; [exact T|exact Sh1| |exact E2]. intros q I. pose proof (Ln q (or_intror I)). lia.
Qed.

Lemma clones_unbuilt : forall cl l m m' rs k, tame cl -> unbuilt m k -> ~ In k l -> clones cl m l = Ok (m', rs) -> unbuilt m' k /\ ~ In k rs.
Proof.
  intros cl. induction l as [|n l IH]; intros m m' rs k T U N E; simpl in E; [injection E as <- <-; auto|].
  step E r1 E1. step E r2 E2. injection E as <- <-. destruct r1 as [m1 r1], r2 as [m2 r2]. simpl fst in *. simpl snd in *.
  assert (Nn : n <> k) by (intros ->; apply N; left; reflexivity). destruct (tame_unbuilt _ _ _ _ _ k T U Nn E1) as [U1 N1].
  destruct (IH _ _ _ k T U1 (fun I => N (or_intror I)) E2) as [U2 N2]. split; [assumption|]. intros [->|I]; [congruence|contradiction].
Qed.

Lemma fill_unbuilt : forall choose m l m' t k, unbuilt m k -> ~ In k l -> fill false choose m l = Ok (m', t) -> unbuilt m' k.
Proof.
  intros choose m l m' t k U N E. eapply unbuilt_calm; [exact U|]. eapply fill_calm; [exact E| |exact (proj1 U)]. intros r I <-. contradiction.
Qed.

Lemma acquire_unbuilt : forall m n m' k, unbuilt m k -> acquire m n = Ok m' -> unbuilt m' k.
Proof. intros m n m' k U E. eapply unbuilt_calm; [exact U|]. eapply acquire_calm; [exact (proj1 U)|exact E]. Qed.

(* ---- the copies of lists ---- *)
Lemma new_ints_count : forall k m m' l, new_ints m k = (m', l) -> length l = k.
Proof.
  induction k as [|k IH]; intros m m' l E; simpl in E; [injection E as <- <-; reflexivity|].
  destruct (new_ints (m ++ [Slot 1 true false BInt]) k) as [m2 l2] eqn:E2. injection E as <- <-. simpl. f_equal. eapply IH; exact E2.
Qed.

Lemma new_ints_new : forall k m m' l, new_ints m k = (m', l) -> new m l.
Proof.
  induction k as [|k IH]; intros m m' l E; simpl in E; [injection E as <- <-; split; [constructor|intros n []]|].
  destruct (new_ints (m ++ [Slot 1 true false BInt]) k) as [m2 l2] eqn:E2. injection E as <- <-. destruct (IH _ _ _ E2) as [ND Ge].
  assert (Ge' : forall n, In n l2 -> length m < n) by (intros n I; apply Ge in I; rewrite app_length in I; simpl in I; lia).
  split; [constructor; [intros I; apply Ge' in I; lia|assumption]|]. intros n [<-|I]; [lia|apply Ge' in I; lia].
Qed.

Lemma copy_list_size : forall m n r, copy_list m n = Ok r -> exists x i l b, has_body m n (BIndex x i l b)
  /\ exists x' i', has_body (fst r) (snd r) (BIndex x' i' [] false) /\ length i' = length i /\ new m i'.
Proof.
  intros m n r E. unfold copy_list in E. step E b Q. apply body_has in Q. destruct b as [| |x i s k| |]; try discriminate. exists x, i, s, k. split; [assumption|].
  destruct x as [v|].
  - destruct (new_ints (m ++ [Slot 1 true false BVector]) (length i)) as [m2 l] eqn:E2. simpl in E. rewrite E2 in E. injection E as <-.
    exists (Some (length m)), l. split; [exact (alloc_body m2 (BIndex (Some (length m)) l [] false))|].
    split; [eapply new_ints_count; exact E2|]. destruct (new_ints_new _ _ _ _ E2) as [ND Ge]. split; [exact ND|]. intros q I. apply Ge in I. rewrite app_length in I. simpl in I. lia.
  - destruct (new_ints m (length i)) as [m2 l] eqn:E2. injection E as <-.
    exists None, l. split; [exact (alloc_body m2 (BIndex None l [] false))|].
    split; [eapply new_ints_count; exact E2|eapply new_ints_new; exact E2].
Qed.

Lemma kept_list : forall L m m' n x i l b, firm L m m' -> ~ In n L -> has_body m n (BIndex x i l b) ->
  exists x' i' b', has_body m' n (BIndex x' i' l b') /\ (b = true \/ l = [] -> i' = i).
Proof.
  intros L m m' n x i l b F N (s & E & B). destruct (f_slot _ _ _ _ F n s E) as (s' & E' & _ & _ & _ & V). specialize (V N). rewrite B in V.
  destruct V as (x' & i' & k' & B' & I' & _). exists x', i', k'. split; [exists s'; auto|assumption].
Qed.

Lemma size_firm : forall L m m1 m2 x x', firm L m1 m2 -> ~ In x' L -> same_size m m1 x x' -> same_size m m2 x x'.
Proof.
  intros L m m1 m2 x x' F N Z n i l b B K. destruct (Z n i l b B K) as (n' & i' & b' & B' & Le).
  destruct (kept_list _ _ _ _ _ _ _ _ F N B') as (n2 & i2 & b2 & B2 & I2). exists n2, i2, b2. rewrite (I2 (or_intror eq_refl)) in *. auto.
Qed.

Lemma copy_size : forall m0 m n r, firm [] m0 m -> copy_list m n = Ok r -> same_size m0 (fst r) n (snd r).
Proof.
  intros m0 m n r F E x i l b B K. destruct (copy_list_size _ _ _ E) as (x1 & i1 & l1 & b1 & B1 & x' & i' & B' & Le).
  destruct (kept_list _ _ _ _ _ _ _ _ F (fun q => q) B) as (x2 & i2 & b2 & B2 & I2). pose proof (has_same _ _ _ _ B1 B2) as X. injection X as <- <- <- <-.
  exists x', i', false. rewrite <- (I2 K). split; [exact B'|]. destruct Le as [Le [ND Ge]]. split; [exact Le|]. split; [exact ND|].
  intros q Iq. apply Ge in Iq. pose proof (f_len _ _ _ _ F). lia.
Qed.

Lemma copy_variable_sizes : forall m0 m name f x y z m' r, firm [] m0 m -> copy_variable m (CVariable name) f (x, y, z) = Ok (m', r) ->
  firm [] m m' /\ exists x' y' z', has_body m' r (BTerm (CVariable name) f None None None x' y' z') /\ new m [x'; y'; z'; r]
    /\ sizes m0 m' [x; y; z] [x'; y'; z'].
Proof.
  intros m0 m name f x y z m' r F0 E. destruct (copy_variable_made _ _ _ _ _ _ E) as (F & x' & y' & z' & B & N). split; [exact F|].
  exists x', y', z'. split; [exact B|]. split; [exact N|]. unfold copy_variable in E. step E r1 E1. step E r2 E2. step E r3 E3.
  destruct (copy_list_made _ _ _ E1) as (F1 & _). destruct (copy_list_made _ _ _ E2) as (F2 & _). destruct (copy_list_made _ _ _ E3) as (F3 & _).
  pose proof (alloc_firm (fst r3) (BTerm (CVariable name) f None None None (snd r1) (snd r2) (snd r3))) as F4.
  pose proof (alloc_body (fst r3) (BTerm (CVariable name) f None None None (snd r1) (snd r2) (snd r3))) as B4.
  injection E as <- <-. pose proof (has_same _ _ _ _ B B4) as X. injection X as -> -> ->.
  pose proof (copy_size _ _ _ _ F0 E1) as Z1. pose proof (copy_size _ _ _ _ (firm_trans _ _ _ _ F0 F1) E2) as Z2.
  pose proof (copy_size _ _ _ _ (firm_trans _ _ _ _ (firm_trans _ _ _ _ F0 F1) F2) E3) as Z3.
  constructor; [|constructor; [|constructor; [|constructor]]].
  - eapply size_firm; [exact (firm_trans _ _ _ _ (firm_trans _ _ _ _ F2 F3) F4)|intros []|exact Z1].
  - eapply size_firm; [exact (firm_trans _ _ _ _ F3 F4)|intros []|exact Z2].
  - eapply size_firm; [exact F4|intros []|exact Z3].
Qed.
