(* What every term object is like at any time. *)
From Coq Require Import String ZArith List Bool Arith Lia.
From Verif Require Import Base Lifetimes LifetimesSpec LifetimesFacts LifetimesFacts2 LifetimesFacts3 LifetimesFacts4 LifetimesFacts7 LifetimesFacts9 LifetimesFacts10 LifetimesFacts11 LifetimesFacts8.
Import ListNotations.

(* ---- no pointer leads outside ---- *)
Lemma shut_parts : forall m n b, shut m -> has_body m n b -> forall r, In r (refs b) -> r < length m.
Proof.
  intros m n b Sh (s & E & <-) r I. destruct (Nat.lt_ge_cases r (length m)) as [|Ge]; [assumption|]. exfalso. exact (Sh r Ge n s E r I eq_refl).
Qed.

Lemma alloc_shut : forall m b, shut m -> (forall r, In r (refs b) -> r <= length m) -> shut (fst (alloc m b)).
Proof.
  intros m b Sh Lr. eapply shut_calm; [exact Sh|simpl; rewrite app_length; lia|]. intros k Lk A _. apply alloc_calm; [exact A|].
  simpl in Lk. rewrite app_length in Lk. simpl in Lk. intros r I <-. apply Lr in I. lia.
Qed.

Lemma acquire_shut : forall m n m', shut m -> acquire m n = Ok m' -> shut m'.
Proof. intros m n m' Sh E. eapply shut_calm; [exact Sh|exact (f_len _ _ _ _ (acquire_firm _ _ _ E))|]. intros k _ A _. eapply acquire_calm; eassumption. Qed.
Lemma acquire_all_shut : forall l m m', shut m -> acquire_all m l = Ok m' -> shut m'.
Proof. intros l m m' Sh E. eapply shut_calm; [exact Sh|exact (f_len _ _ _ _ (acquire_all_firm _ _ _ E))|]. intros k _ A _. eapply acquire_all_calm; eassumption. Qed.
Lemma drop_all_shut : forall l m m', shut m -> drop_all false m l = Ok m' -> shut m'.
Proof. intros l m m' Sh E. eapply shut_calm; [exact Sh|exact (f_len _ _ _ _ (drop_all_firm _ _ _ E))|]. intros k _ A _. eapply drop_all_calm; eassumption. Qed.
Lemma drop_shut : forall fuel m n m', shut m -> release false fuel m n = Ok m' -> shut m'.
Proof. intros fuel m n m' Sh E. eapply shut_calm; [exact Sh|exact (f_len _ _ _ _ (release_firm _ _ _ _ E))|]. intros k _ A _. eapply release_calm; eassumption. Qed.

Lemma join_shut : forall parts m a b c m', shut m -> a < length m -> b < length m -> c < length m -> join_lists false m (a, b, c) parts = Ok m' -> shut m'.
Proof.
  intros parts m a b c m' Sh La Lb Lc E. pose proof (join_len _ _ _ _ E) as Le. eapply shut_calm; [exact Sh|exact Le|]. intros k Lk A _.
  eapply join_calm; [exact E| |exact A]. simpl. repeat split; lia.
Qed.

Lemma build_lists_shut : forall m a b c f m', shut m -> a < length m -> b < length m -> c < length m -> build_lists false m (a, b, c) f = Ok m' -> shut m'.
Proof.
  intros m a b c f m' Sh La Lb Lc E. pose proof (f_len _ _ _ _ (build_lists_firm _ _ _ _ E)) as Le. eapply shut_calm; [exact Sh|exact Le|]. intros k Lk A Sp.
  eapply build_lists_calm; [exact E| |exact A|exact Sp]. simpl. repeat split; lia.
Qed.

Lemma normalize_shut : forall m n m', shut m -> n < length m -> normalize m n = Ok m' -> shut m'.
Proof.
  intros m n m' Sh Ln E. pose proof (f_len _ _ _ _ (normalize_firm _ _ _ E)) as Le. eapply shut_calm; [exact Sh|exact Le|]. intros k Lk A Sp.
  eapply normalize_calm; [exact E|lia|exact A|exact Sp].
Qed.

Lemma hash_shut : forall m a b c m', shut m -> a < length m -> b < length m -> c < length m -> hash_lists m (a, b, c) = Ok m' -> shut m'.
Proof.
  intros m a b c m' Sh La Lb Lc E. simpl in E. step E m1 E1. step E m2 E2.
  pose proof (f_len _ _ _ _ (normalize_firm _ _ _ E1)). pose proof (f_len _ _ _ _ (normalize_firm _ _ _ E2)).
  apply (normalize_shut m2 c m'); [|lia|exact E]. apply (normalize_shut m1 b m2); [|lia|exact E2]. apply (normalize_shut m a m1); assumption.
Qed.

Lemma fill_shut : forall choose m l m' t, shut m -> (forall r, In r l -> r < length m) -> fill false choose m l = Ok (m', t) -> shut m' /\ t < length m'.
Proof.
  intros choose m l m' t Sh Ll E. pose proof (fill_len _ _ _ _ _ E) as Le. split.
  - eapply shut_calm; [exact Sh|exact Le|]. intros k Lk A _. eapply fill_calm; [exact E| |exact A]. intros r I <-. apply Ll in I. lia.
  - unfold fill in E. step E m1 D. injection E as <- <-. rewrite app_length. simpl. lia.
Qed.

Lemma copy_variable_shut : forall m c f v m' r, shut m -> copy_variable m c f v = Ok (m', r) -> shut m'.
Proof.
  intros m c f v m' r Sh E. pose proof (copy_variable_len _ _ _ _ _ _ E) as Le. eapply shut_calm; [exact Sh|exact Le|]. intros k Lk A Sp. eapply copy_variable_calm; eassumption.
Qed.

Lemma clones_bound : forall cl l m m' rs, tame cl -> shut m -> (forall n, In n l -> n < length m) -> clones cl m l = Ok (m', rs) -> forall r, In r rs -> r < length m'.
Proof.
  intros cl. induction l as [|n l IH]; intros m m' rs T Sh Ln E r I; simpl in E; [injection E as <- <-; destruct I|].
  step E r1 E1. step E r2 E2. injection E as <- <-. destruct r1 as [m1 r1], r2 as [m2 r2]. simpl fst in *. simpl snd in *. pose proof (proj1 T _ _ _ _ E1) as Le.
  destruct (tame_shut _ _ _ _ _ T Sh (Ln n (or_introl eq_refl)) E1) as [Sh1 L1]. pose proof (clones_len _ _ _ _ _ (proj1 T) E2) as Le2. destruct I as [<-|I]; [lia|].
  eapply IH; [exact T|exact Sh1| |exact E2|exact I]. intros q Iq. pose proof (Ln q (or_intror Iq)). lia.
Qed.

(* ---- nothing new but lists, vectors, ints and Terms ---- *)
Definition plain (m m' : mem) : Prop := forall n b, length m <= n -> has_body m' n b -> kind_of b <> KTerm.

Lemma plain_same : forall m m', length m' = length m -> plain m m'.
Proof. intros m m' L n b Ln B. apply has_lt in B. lia. Qed.

Lemma plain_trans : forall L W a b c, plain a b -> firm2 L W b c -> plain b c -> plain a c.
Proof.
  intros L W a b c A F B n x Ln Bn. destruct (Nat.lt_ge_cases n (length b)) as [Lt|Ge]; [|exact (B n x Ge Bn)].
  apply nth_error_Some in Lt. destruct (nth_error b n) as [s|] eqn:E; [|congruence]. destruct (f_slot _ _ _ _ F n s E) as (s' & E' & K & _).
  destruct Bn as (s1 & E1 & B1). rewrite E' in E1. injection E1 as <-. rewrite <- B1, K. apply (A n); [assumption|]. exists s. auto.
Qed.

Lemma alloc_plain : forall m b, kind_of b <> KTerm -> plain m (fst (alloc m b)).
Proof.
  intros m b K n x Ln (s & E & B). simpl in E. rewrite nth_error_app2 in E by assumption. destruct (n - length m) as [|k]; [|destruct k; discriminate].
  injection E as <-. simpl in B. congruence.
Qed.

Lemma write_same : forall m n b m', write m n b = Ok m' -> length m' = length m.
Proof. intros m n b m' E. unfold write in E. step E s Q. injection E as <-. apply set_nth_length. Qed.
Lemma acquire_same : forall m n m', acquire m n = Ok m' -> length m' = length m.
Proof. intros m n m' E. unfold acquire in E. step E s Q. injection E as <-. apply set_nth_length. Qed.
Lemma acquire_all_same : forall l m m', acquire_all m l = Ok m' -> length m' = length m.
Proof.
  induction l as [|n l IH]; intros m m' E; simpl in E; [injection E as <-; reflexivity|]. step E m1 Q. rewrite (IH _ _ E). eapply acquire_same; exact Q.
Qed.
Lemma release_same : forall fuel m n m', release false fuel m n = Ok m' -> length m' = length m.
Proof.
  induction fuel as [|fuel IH]; intros m n m' E; [discriminate|]. simpl in E. step E s Q. destruct (s_count s) as [|[|c]]; [discriminate| |].
  - rewrite <- (set_nth_length _ n (dead s) m). revert E. generalize (rev (refs (s_body s))). generalize (set_nth n (dead s) m). intros m1 l. revert m1. clear -IH.
    induction l as [|k l IHl]; intros m1 E; simpl in E; [injection E as <-; reflexivity|]. step E m2 Q. rewrite (IHl _ E). eapply IH; exact Q.
  - injection E as <-. apply set_nth_length.
Qed.
Lemma drop_all_same : forall l m m', drop_all false m l = Ok m' -> length m' = length m.
Proof.
  induction l as [|n l IH]; intros m m' E; unfold drop_all in E; simpl in E; [injection E as <-; reflexivity|]. step E m1 Q. rewrite (IH _ _ E). eapply release_same; exact Q.
Qed.
Lemma connect_same : forall m a b m', connect false m a b = Ok m' -> length m' = length m.
Proof.
  intros m a b m' E. unfold connect in E. step E bd Q. destruct bd; try discriminate. step E m1 W. step E m2 D. step E m3 A.
  rewrite (write_same _ _ _ _ E), (acquire_same _ _ _ A), (drop_all_same _ _ _ D). eapply write_same; exact W.
Qed.
Lemma join_same : forall l m v m', join_lists false m v l = Ok m' -> length m' = length m.
Proof.
  induction l as [|t l IH]; intros m [[a b] c] m' E; unfold join_lists in E; simpl in E; [injection E as <-; reflexivity|].
  step E m1 Q. step Q son Ls. step Q m2 C1. step Q m3 C2. rewrite (IH m1 (a, b, c) m' E), (connect_same _ _ _ _ Q), (connect_same _ _ _ _ C2). eapply connect_same; exact C1.
Qed.

Lemma normalize_plain : forall m n m', normalize m n = Ok m' -> plain m m'.
Proof.
  intros m n m' E. unfold normalize in E. step E b Q. destruct b as [| |[v|] i s k| |]; try discriminate.
  - injection E as <-. apply plain_same. reflexivity.
  - apply body_has in Q. pose proof (alloc_plain m BVector ltac:(discriminate)) as P. pose proof (alloc_has m BVector _ _ Q) as Q1. destruct (alloc m BVector) as [m1 v]. simpl fst in *.
    eapply plain_trans; [exact P| |apply plain_same; eapply write_same; exact E].
    eapply (write_firm [] [n]); [exact Q1| | | | |exact E]; [reflexivity..|right; reflexivity|left; left; reflexivity].
Qed.

Lemma build_plain : forall fuel m n m', build false fuel m n = Ok m' -> plain m m'.
Proof.
  induction fuel as [|fuel IH]; intros m n m' E; [discriminate|]. simpl in E. step E b Q. apply body_has in Q.
  destruct b as [| |x i s [|]| |]; try discriminate; [injection E as <-; apply plain_same; reflexivity|].
  step E m1 W1. step E m2 D. step E m6 Lp. step E bn Q6. apply body_has in Q6. destruct bn as [| |x6 j6 t6 k6| |]; try discriminate. step E m7 W7.
  assert (Lg : forall l m2 m6, each (pass fuel n) m2 l = Ok m6 -> plain m2 m6 /\ firm2 [] [n] m2 m6).
  { clear -IH. induction l as [|son l IHl]; intros m2 m6 E; simpl in E; [injection E as <-; split; [apply plain_same; reflexivity|apply firm_refl2]|].
    step E m3 Q. unfold pass in Q. step Q m4 B4. step Q bs Qs. destruct bs as [| |xs is ss ks| |]; try discriminate. step Q m5 A5. step Q bn Qn. apply body_has in Qn.
    destruct bn as [| |xn jn tn kn| |]; try discriminate. destruct (IHl _ _ E) as [P1 F1].
    assert (F0 : firm2 [] [n] m5 m3) by (eapply write_su; [exact Qn|left; left; reflexivity|exact Q]).
    assert (F2 : firm2 [] [n] m2 m3).
    { eapply firm_trans2; [eapply firm_incl2; [| |exact (firm_trans _ _ _ _ (build_firm _ _ _ _ B4) (acquire_all_firm _ _ _ A5))]; intros z []|exact F0]. }
    split; [|eapply firm_trans2; eassumption]. eapply plain_trans; [|exact F1|exact P1].
    eapply plain_trans; [eapply plain_trans; [eapply IH; exact B4|exact (acquire_all_firm _ _ _ A5)|apply plain_same; eapply acquire_all_same; exact A5]|exact F0|].
    apply plain_same. eapply write_same; exact Q. }
  destruct (Lg _ _ _ Lp) as [P6 F6].
  assert (F2 : firm2 [] [n] m m2).
  { eapply firm_trans2; [eapply write_su; [exact Q|left; left; reflexivity|exact W1]|]. eapply firm_incl2; [| |exact (drop_all_firm _ _ _ D)]; intros z []. }
  pose proof (write_su [n] _ _ _ _ _ _ _ _ _ _ Q6 (or_introl (or_introl eq_refl)) W7) as F7.
  eapply plain_trans; [|exact (normalize_firm _ _ _ E)|eapply normalize_plain; exact E].
  eapply plain_trans; [|exact F7|apply plain_same; eapply write_same; exact W7].
  eapply plain_trans; [|exact F6|exact P6].
  apply plain_same. rewrite (drop_all_same _ _ _ D). eapply write_same; exact W1.
Qed.

Lemma build_one_plain : forall m h n m', build_one false m h n = Ok m' -> plain m m'.
Proof.
  intros m h n m' E. unfold build_one in E. destruct h; [eapply build_plain; exact E|]. step E b Q. destruct b; try discriminate.
  apply plain_same. eapply write_same; exact E.
Qed.

Lemma build_lists_plain : forall m v f m', build_lists false m v f = Ok m' -> plain m m'.
Proof.
  intros m [[a b] c] f m' E. simpl in E. step E m1 E1. step E m2 E2.
  eapply plain_trans; [|exact (build_one_firm _ _ _ _ E)|eapply build_one_plain; exact E].
  eapply plain_trans; [eapply build_one_plain; exact E1|exact (build_one_firm _ _ _ _ E2)|eapply build_one_plain; exact E2].
Qed.

Lemma hash_plain : forall m v m', hash_lists m v = Ok m' -> plain m m'.
Proof.
  intros m [[a b] c] m' E. simpl in E. step E m1 E1. step E m2 E2.
  eapply plain_trans; [|exact (normalize_firm _ _ _ E)|eapply normalize_plain; exact E].
  eapply plain_trans; [eapply normalize_plain; exact E1|exact (normalize_firm _ _ _ E2)|eapply normalize_plain; exact E2].
Qed.

Lemma fill_plain : forall choose m l m' t, fill false choose m l = Ok (m', t) -> plain m m'.
Proof.
  intros choose m l m' t E. unfold fill in E. step E m1 D. pose proof (alloc_plain m1 (BTerms (picked (choose m l) l)) ltac:(discriminate)) as P.
  replace m' with (fst (alloc m1 (BTerms (picked (choose m l) l)))) by (injection E; intros; subst; reflexivity).
  eapply plain_trans; [apply plain_same; eapply drop_all_same; exact D|apply alloc_firm|exact P].
Qed.

Lemma new_lists_plain : forall m m' v, new_lists m = (m', v) -> plain m m'.
Proof.
  intros m m' v E. unfold new_lists, new_list in E.
  pose proof (alloc_plain m (BIndex None [] [] false) ltac:(discriminate)) as P1. destruct (alloc m (BIndex None [] [] false)) as [m1 a1]. simpl fst in P1.
  pose proof (alloc_plain m1 (BIndex None [] [] false) ltac:(discriminate)) as P2. pose proof (alloc_firm m1 (BIndex None [] [] false)) as F2. destruct (alloc m1 (BIndex None [] [] false)) as [m2 a2]. simpl fst in *.
  pose proof (alloc_plain m2 (BIndex None [] [] false) ltac:(discriminate)) as P3. pose proof (alloc_firm m2 (BIndex None [] [] false)) as F3. destruct (alloc m2 (BIndex None [] [] false)) as [m3 a3]. simpl fst in *.
  injection E as <- _. eapply plain_trans; [eapply plain_trans; [exact P1|exact F2|exact P2]|exact F3|exact P3].
Qed.

Lemma new_ints_plain : forall k m m' l, new_ints m k = (m', l) -> plain m m'.
Proof.
  induction k as [|k IH]; intros m m' l E; simpl in E; [injection E as <- <-; apply plain_same; reflexivity|].
  destruct (new_ints (m ++ [Slot 1 true false BInt]) k) as [m2 l2] eqn:E2. injection E as <- <-.
  eapply plain_trans; [exact (alloc_plain m BInt ltac:(discriminate))|eapply new_ints_firm; exact E2|eapply IH; exact E2].
Qed.

Lemma copy_list_plain : forall m n r, copy_list m n = Ok r -> plain m (fst r).
Proof.
  intros m n r E. unfold copy_list in E. step E b Q. destruct b as [| |x i s k| |]; try discriminate.
  assert (W : forall m1 x', plain m m1 -> (let '(m2, ints') := new_ints m1 (length i) in Ok (alloc m2 (BIndex x' ints' [] false))) = Ok r -> plain m (fst r)).
  { intros m1 x' P1 E'. destruct (new_ints m1 (length i)) as [m2 l] eqn:E2. injection E' as <-.
    eapply plain_trans; [eapply plain_trans; [exact P1|eapply new_ints_firm; exact E2|eapply new_ints_plain; exact E2]| |exact (alloc_plain m2 (BIndex x' l [] false) ltac:(discriminate))].
    exact (alloc_firm m2 (BIndex x' l [] false)). }
  destruct x as [v|].
  - apply (W (fst (alloc m BVector)) (Some (length m))); [apply alloc_plain; discriminate|exact E].
  - apply (W m None); [apply plain_same; reflexivity|exact E].
Qed.

(* ---- every term is well made ---- *)
Definition whole (m : mem) (b : body) : Prop :=
  match b with BTerm c f s p t x y z => well_made m c f s p t x y z | _ => True end.
Definition sound (m : mem) : Prop := forall n b, has_body m n b -> whole m b.

Lemma leaf_firm : forall L m m' n k, firm L m m' -> ~ In n L -> bare_list m n k -> bare_list m' n k.
Proof.
  intros L m m' n k F N (x & i & b & B & Le). destruct (kept_list _ _ _ _ _ _ _ _ F N B) as (x' & i' & b' & B' & I'). exists x', i', b'.
  rewrite (I' (or_intror eq_refl)) in *. auto.
Qed.

Lemma joined_parts : forall m ls parts n, joined m ls parts -> In n parts -> exists b, has_body m n b.
Proof.
  intros m ls parts n (sons & A & _) I. induction A as [|t v parts sons H A IH]; [destruct I|]. destruct I as [<-|I]; [|auto].
  destruct H as (c & f & a & b & l & y & z & B). eauto.
Qed.

Lemma any_back : forall L W m m' g parts, firm2 L W m m' -> (forall n, In n parts -> exists b, has_body m n b) -> any_of m' g parts -> any_of m g parts.
Proof.
  intros L W m m' g parts F Ex (n & c & f & a & b & l & x & y & z & I & B & Q). exists n, c, f, a, b, l, x, y, z. split; [assumption|]. split; [|assumption].
  destruct (Ex n I) as (b0 & s & E & Bs). destruct (f_slot _ _ _ _ F n s E) as (s' & E' & K & T & _). destruct B as (s1 & E1 & B1). rewrite E1 in E'. injection E' as <-.
  exists s. split; [assumption|]. rewrite B1 in K, T. simpl in K. destruct (s_body s); try discriminate. congruence.
Qed.

Lemma whole_firm : forall L m m' b, firm L m m' -> (forall q, In q L -> unbuilt m q) -> (forall q, In q L -> ~ In q (refs b)) -> whole m b -> whole m' b.
Proof.
  intros L m m' b F U N Wb. destruct b as [c f s p t x y z| | | |]; try exact I. simpl in Wb.
  assert (Nk : forall k, In k [x; y; z] -> ~ In k L) by (intros k I IL; apply (N k IL); simpl; rewrite !in_app_iff; auto).
  assert (Lf : forall k n, In k [x; y; z] -> bare_list m k n -> bare_list m' k n) by (intros k n I; eapply leaf_firm; [exact F|auto]).
  unfold whole, well_made in *. destruct c.
  1-3: destruct Wb as (E1 & E2 & E3 & E4 & Ls); repeat (split; [assumption|]); intros k I; apply Lf; auto.
  - destruct Wb as (E2 & E3 & E4 & k & Ek & Lx & Ly & Lz). repeat (split; [assumption|]). exists k. split; [assumption|].
    split; [|split]; (apply Lf; [simpl; auto|assumption]).
  - destruct Wb as (s' & p' & E1 & E2 & E3 & Fl & Ls). exists s', p'. repeat (split; [assumption|]). split; [|eapply lists_firm; eassumption].
    eapply flags_of_firm; [exact F| |exact Fl]. intros n I. eapply joined_parts; [exact (proj1 Ls)|exact I].
  - destruct Wb as (t' & l & E1 & E2 & E3 & Bt & Ls & C1 & C2 & C3 & C4). exists t', l. repeat (split; [assumption|]).
    split; [eapply firm_body; [exact F|right; reflexivity|exact Bt]|]. split; [eapply lists_firm; eassumption|].
    assert (Bk : forall g, any_of m' g l -> any_of m g l) by (intros g; eapply any_back; [exact F|]; intros n I; eapply joined_parts; [exact (proj1 Ls)|exact I]).
    split; [|split; [|split]]; intros A; [apply C1|apply C2|apply C3|apply C4]; apply Bk; exact A.
Qed.

Lemma term_back : forall L W m m' n b, firm2 L W m m' -> n < length m -> kind_of b = KTerm -> has_body m' n b -> has_body m n b.
Proof.
  intros L W m m' n b F Ln K (s1 & E1 & B1). apply nth_error_Some in Ln. destruct (nth_error m n) as [s|] eqn:E; [|congruence]. exists s. split; [exact E|].
  destruct (f_slot _ _ _ _ F n s E) as (s' & E' & K' & T & _). rewrite E1 in E'. injection E' as <-. rewrite B1 in *. rewrite K in K'. destruct (s_body s); try discriminate. congruence.
Qed.

Lemma sound_step : forall L m m', firm L m m' -> (forall q, In q L -> unbuilt m q) -> sound m ->
  (forall n b, length m <= n -> has_body m' n b -> kind_of b = KTerm -> whole m' b) -> sound m'.
Proof.
  intros L m m' F U Sd Nw n b B. destruct b as [c f s p t x y z| | | |] eqn:Eb; try exact I. rewrite <- Eb in *.
  assert (K : kind_of b = KTerm) by (rewrite Eb; reflexivity). destruct (Nat.lt_ge_cases n (length m)) as [Lt|Ge]; [|exact (Nw n b Ge B K)].
  pose proof (term_back _ _ _ _ _ _ F Lt K B) as B0. eapply whole_firm; [exact F|exact U| |exact (Sd n b B0)].
  intros q I1 I2. destruct (U q I1) as [A _]. destruct B0 as (s0 & E0 & B0). rewrite <- B0 in I2. exact (A n s0 E0 q I2 eq_refl).
Qed.

Lemma sound_plain : forall m m', firm [] m m' -> plain m m' -> sound m -> sound m'.
Proof. intros m m' F P Sd. eapply sound_step; [exact F|intros q []|exact Sd|]. intros n b Ln B K. exfalso. exact (P n b Ln B K). Qed.

Lemma sound_alloc : forall m b, sound m -> whole (fst (alloc m b)) b -> sound (fst (alloc m b)).
Proof.
  intros m b Sd Wb. eapply sound_step; [apply alloc_firm|intros q []|exact Sd|]. intros n b' Ln B _.
  pose proof (has_lt _ _ _ B) as Lt. simpl in Lt. rewrite app_length in Lt. simpl in Lt. assert (n = length m) by lia. subst n.
  pose proof (has_same _ _ _ _ B (alloc_body m b)) as ->. exact Wb.
Qed.

Definition flagged (m : mem) (n : nat) (f : flags) : Prop := exists c a b t x y z, has_body m n (BTerm c f a b t x y z).

Lemma flagged_firm : forall L W m m' n f, firm2 L W m m' -> flagged m n f -> flagged m' n f.
Proof. intros L W m m' n f F (c & a & b & t & x & y & z & B). exists c, a, b, t, x, y, z. eapply firm_body; [exact F|left; reflexivity|exact B]. Qed.

Definition alike (m m' : mem) (n r : nat) : Prop := exists f, flagged m n f /\ flagged m' r f.

Lemma flagged_one : forall m n f f', flagged m n f -> flagged m n f' -> f = f'.
Proof. intros m n f f' (c & a & b & t & x & y & z & B) (c' & a' & b' & t' & x' & y' & z' & B'). pose proof (has_same _ _ _ _ B B') as X. congruence. Qed.

Lemma alike_any : forall m m' l l' g, Forall2 (alike m m') l l' -> (any_of m g l <-> any_of m' g l').
Proof.
  intros m m' l l' g A. split.
  - intros (n & c & f & a & b & t & x & y & z & I & B & Q). induction A as [|n0 r0 l l' (f0 & F1 & F2) A IH]; [destruct I|]. destruct I as [->|I].
    + assert (f = f0) by (eapply flagged_one; [|exact F1]; exists c, a, b, t, x, y, z; exact B). subst f0.
      destruct F2 as (c' & a' & b' & t' & x' & y' & z' & B'). exists r0, c', f, a', b', t', x', y', z'. split; [left; reflexivity|auto].
    + destruct (IH I) as (n' & c' & f' & a' & b' & t' & x' & y' & z' & I' & R). exists n', c', f', a', b', t', x', y', z'. split; [right; assumption|exact R].
  - intros (n & c & f & a & b & t & x & y & z & I & B & Q). induction A as [|n0 r0 l l' (f0 & F1 & F2) A IH]; [destruct I|]. destruct I as [->|I].
    + assert (f = f0) by (eapply flagged_one; [|exact F2]; exists c, a, b, t, x, y, z; exact B). subst f0.
      destruct F1 as (c' & a' & b' & t' & x' & y' & z' & B'). exists n0, c', f, a', b', t', x', y', z'. split; [left; reflexivity|auto].
    + destruct (IH I) as (n' & c' & f' & a' & b' & t' & x' & y' & z' & I' & R). exists n', c', f', a', b', t', x', y', z'. split; [right; assumption|exact R].
Qed.

Lemma alike_flags : forall m m' l l' f, Forall2 (alike m m') l l' -> flags_of m l f -> flags_of m' l' f.
Proof. intros m m' l l' f A (F1 & F2 & F3 & F4). unfold flags_of. rewrite <- !(alike_any m m' l l' _ A). auto. Qed.

Lemma any_incl : forall m g l l', incl l l' -> any_of m g l -> any_of m g l'.
Proof. intros m g l l' In1 (n & c & f & a & b & t & x & y & z & I & R). exists n, c, f, a, b, t, x, y, z. split; [apply In1; exact I|exact R]. Qed.
