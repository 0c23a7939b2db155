(* Proofs about the iterators: what assignments do, and how blocks are deleted *)
From Coq Require Import ZArith String List Bool Lia Permutation.
From Verif Require Import Base Maps MapsFacts Term Iterators IteratorsSpec IteratorsFacts.
Import ListNotations.
Open Scope string_scope.
Open Scope list_scope.
Open Scope Z_scope.

Lemma mbind_ok {A B} (m : M A) (f : A -> M B) h h' b : mbind m f h = (h', Ok b) ->
  exists h1 a, m h = (h1, Ok a) /\ f a h1 = (h', Ok b).
Proof.
  unfold mbind. destruct (m h) as [h1 [a| | |]]; intros E; try discriminate E. exists h1, a. split; [reflexivity|exact E].
Qed.

Lemma lift_ok {A} (r : res A) h h' a : lift r h = (h', Ok a) -> h' = h /\ r = Ok a.
Proof. intros E. injection E as -> ->. split; reflexivity. Qed.

Lemma read_ok set a h h' s : read set a h = (h', Ok s) -> h' = h /\ lookup Z.eqb a (live h) = Some s /\ set = of_set s.
Proof.
  unfold read. destruct (lookup Z.eqb a (live h)) as [t|]; [|discriminate].
  destruct (Bool.eqb set (of_set t)) eqn:E; [|discriminate]. intros H. injection H as <- <-.
  apply eqb_prop in E. repeat split. exact E.
Qed.

Lemma var_ok m x h h' i : var m x h = (h', Ok i) -> h' = h /\ lookup String.eqb x (vars m) = Some i.
Proof.
  unfold var. intros E. apply lift_ok in E. destruct E as [-> E]. split; [reflexivity|].
  destruct (lookup String.eqb x (vars m)); [congruence|discriminate E].
Qed.

(* A block is made. *)
Definition made h h' i := exists s, h' = Memory (top h + 1) ((top h, s) :: live h) (odd h) /\ i = It (of_set s) (top h).

Lemma begin_made cs c h h' i : begin_of cs c h = (h', Ok i) -> made h h' i.
Proof.
  unfold begin_of. destruct (lookup Z.eqb c cs) as [k|]; [|discriminate]. intros E. injection E as <- <-.
  exists (Spot (commutative k) c 0). split; reflexivity.
Qed.

Lemma end_made cs c h h' i : end_of cs c h = (h', Ok i) -> made h h' i.
Proof.
  unfold end_of. destruct (lookup Z.eqb c cs) as [k|]; [|discriminate]. intros E. injection E as <- <-.
  eexists (Spot (commutative k) c _). split; reflexivity.
Qed.

Lemma copy_made i h h' j : copy i h = (h', Ok j) -> made h h' j.
Proof.
  intros E. apply mbind_ok in E. destruct E as (h1 & s & E & E'). apply read_ok in E. destruct E as (-> & _ & F).
  injection E' as <- <-. exists s. rewrite F. split; reflexivity.
Qed.

Lemma moved_set cs s n s' : moved cs s n = Ok s' -> of_set s' = of_set s.
Proof.
  unfold moved. destruct (lookup Z.eqb (owner s) cs) as [k|]; [|discriminate].
  destruct (_ && _); [|discriminate]. intros E. injection E as <-. reflexivity.
Qed.

Lemma plus_made cs i n h h' j : plus cs i n h = (h', Ok j) -> made h h' j.
Proof.
  intros E. apply mbind_ok in E. destruct E as (h1 & s & E & E'). apply read_ok in E. destruct E as (-> & _ & F).
  apply mbind_ok in E'. destruct E' as (h2 & s' & E & E'). apply lift_ok in E. destruct E as [-> E].
  apply moved_set in E. injection E' as <- <-. exists s'. rewrite F, <- E. split; reflexivity.
Qed.

(* A block is overwritten. *)
Definition altered h h' := top h' = top h /\ odd h' = odd h /\ (sound h -> sound h') /\
  forall a, option_map of_set (lookup Z.eqb a (live h')) = option_map of_set (lookup Z.eqb a (live h)).

Lemma altered_same h : altered h h.
Proof. repeat split; auto; apply H. Qed.

Lemma incr_altered cs i h h' : incr cs i h = (h', Ok tt) -> altered h h'.
Proof.
  intros E. apply mbind_ok in E. destruct E as (h1 & s & E & E'). apply read_ok in E. destruct E as (-> & L & F).
  apply mbind_ok in E'. destruct E' as (h2 & s' & E & E'). apply lift_ok in E. destruct E as [-> E].
  apply moved_set in E. injection E' as <-. split; [reflexivity|]. split; [reflexivity|]. split.
  - intros S. exact (sound_set h (it_ i) s' s (odd h) S L).
  - intros a. cbn [live]. destruct (Z.eq_dec a (it_ i)) as [->|D].
    + rewrite (lookup_set_same Z.eqb Zeqb_ok), L. cbn. rewrite E. reflexivity.
    + rewrite (lookup_set_other Z.eqb Zeqb_ok) by exact D. reflexivity.
Qed.

Lemma equal_ok cs i j h h' b : equal cs i j h = (h', Ok b) -> h' = h.
Proof.
  intros E. apply mbind_ok in E. destruct E as (h1 & s & E & E'). apply read_ok in E. destruct E as (-> & _).
  apply mbind_ok in E'. destruct E' as (h2 & t & E & E'). apply read_ok in E. destruct E as (-> & _).
  apply lift_ok in E'. exact (proj1 E').
Qed.

Lemma differ_ok cs i j h h' b : differ cs i j h = (h', Ok b) -> h' = h.
Proof.
  intros E. apply mbind_ok in E. destruct E as (h1 & x & E & E'). apply equal_ok in E. injection E' as <- _. exact E.
Qed.

Lemma deref_ok cs i h h' t : deref cs i h = (h', Ok t) -> h' = h.
Proof.
  intros E. apply mbind_ok in E. destruct E as (h1 & s & E & E'). apply read_ok in E. destruct E as (-> & _).
  apply lift_ok in E'. exact (proj1 E').
Qed.

(* ---- any program at all ---- *)

Record fine (m : machine) (h : memory) : Prop := {
  f_names : NoDup (map fst (vars m));
  f_sound : sound h;
  f_below : forall x i, In (x, i) (vars m) -> it_ i < top h;
  f_flags : forall x i s, In (x, i) (vars m) -> lookup Z.eqb (it_ i) (live h) = Some s -> of_set s = is_commutative i
}.

(* Two variables share a block, or one has lost it. *)
Definition shared (m : machine) (h : memory) : Prop :=
  ~ NoDup (map (fun v => it_ (snd v)) (vars m)) \/
  exists x i, In (x, i) (vars m) /\ lookup Z.eqb (it_ i) (live h) = None.

Lemma altered_none h h' a : altered h h' -> lookup Z.eqb a (live h) = None -> lookup Z.eqb a (live h') = None.
Proof.
  intros (_ & _ & _ & L) E. specialize (L a). rewrite E in L. destruct (lookup Z.eqb a (live h')); [discriminate L|reflexivity].
Qed.

Lemma altered_fine m h h' : altered h h' -> fine m h -> fine m h'.
Proof.
  intros (T & O & S & L) [N SD B K]. constructor; auto.
  - intros x i I. rewrite T. exact (B x i I).
  - intros x i s I E. specialize (L (it_ i)). rewrite E in L. cbn in L.
    destruct (lookup Z.eqb (it_ i) (live h)) as [s0|] eqn:E0; [|discriminate L]. injection L as ->. exact (K x i s0 I E0).
Qed.

Lemma altered_shared m h h' : altered h h' -> shared m h -> shared m h'.
Proof.
  intros A [N|(x & i & I & E)]; [left; exact N|right]. exists x, i. split; [exact I|exact (altered_none _ _ _ A E)].
Qed.

Lemma made_fine m h h' i x : made h h' i -> has String.eqb x (vars m) = false -> fine m h ->
  fine (Machine (conts m) ((x, i) :: vars m)) h'.
Proof.
  intros (s & -> & ->) HX [N SD B K]. constructor; cbn [vars live top].
  - cbn [map fst]. constructor; [|exact N]. intros I. apply in_map_iff in I. destruct I as ([y j] & E & I).
    cbn in E. subst y. apply (in_lookup String.eqb Seqb_ok) in I; [|exact N]. unfold has in HX. rewrite I in HX. discriminate HX.
  - apply sound_new. exact SD.
  - intros y j [E|I]; [injection E as <- <-; cbn; lia|]. specialize (B y j I). lia.
  - intros y j t [E|I] L.
    + injection E as <- <-. cbn [it_ lookup] in L. rewrite Z.eqb_refl in L. injection L as <-. reflexivity.
    + cbn [lookup] in L. specialize (B y j I). destruct (Z.eqb_spec (it_ j) (top h)) as [E|D]; [lia|]. exact (K y j t I L).
Qed.

Lemma made_shared m h h' i x : made h h' i -> fine m h -> shared m h ->
  shared (Machine (conts m) ((x, i) :: vars m)) h'.
Proof.
  intros (s & -> & ->) [_ _ B _] [N|(y & j & I & E)]; [left|right]; cbn [vars live].
  - cbn [map]. intros X. inversion X; subst. contradiction.
  - exists y, j. split; [right; exact I|]. cbn [lookup]. specialize (B y j I).
    destruct (Z.eqb_spec (it_ j) (top h)) as [E'|D]; [lia|exact E].
Qed.

Definition dropping (i : instr) : nat := match i with Drop _ => 1 | _ => 0 end.

Definition good m h m' h' n := fine m' h' /\ (shared m h -> shared m' h') /\ odd h' = (n + odd h)%nat.

Lemma good_declared m h x (f : M iterator) h' m' out : fine m h ->
  (forall h' i, f h = (h', Ok i) -> made h h' i) ->
  declare m x f h = (h', Ok (m', out)) -> good m h m' h' 0.
Proof.
  intros G D E. unfold declare in E. destruct (has String.eqb x (vars m)) eqn:HX; [discriminate E|].
  apply mbind_ok in E. destruct E as (h1 & i & E & E'). injection E' as <- <- <-. specialize (D _ _ E).
  split; [exact (made_fine m h h1 i x D HX G)|]. split; [exact (made_shared m h h1 i x D G)|].
  destruct D as (s & -> & _). reflexivity.
Qed.

Lemma good_altered m h h' : fine m h -> altered h h' -> good m h m h' 0.
Proof. intros G A. split; [exact (altered_fine m h h' A G)|]. split; [exact (altered_shared m h h' A)|exact (proj1 (proj2 A))]. Qed.

Lemma good_same m h : fine m h -> good m h m h 0.
Proof. intros G. exact (good_altered m h h G (altered_same h)). Qed.

Lemma unset_in' (l : names) x v : In v (unset String.eqb x l) -> In v l /\ fst v <> x.
Proof.
  unfold unset. intros I. apply filter_In in I. destruct I as [I E]. split; [exact I|].
  intros <-. rewrite String.eqb_refl in E. discriminate E.
Qed.

Lemma in_unset (l : names) x v : In v l -> fst v <> x -> In v (unset String.eqb x l).
Proof.
  intros I D. apply filter_In. split; [exact I|]. destruct (String.eqb_spec x (fst v)) as [E|_]; [congruence|reflexivity].
Qed.

(* taking one variable out *)
Lemma names_split (l : names) x i : NoDup (map fst l) -> lookup String.eqb x l = Some i ->
  Permutation l ((x, i) :: unset String.eqb x l).
Proof.
  induction l as [|[y j] l IH]; intros N L; [discriminate L|]. cbn [lookup map fst] in *. inversion N as [|u v U N']; subst.
  unfold unset. cbn [filter fst]. destruct (String.eqb_spec x y) as [->|D]; cbn [negb].
  - injection L as ->. fold (unset String.eqb y l). rewrite (held_away l y U). apply Permutation_refl.
  - fold (unset String.eqb x l). eapply Permutation_trans; [apply perm_skip; exact (IH N' L)|apply perm_swap].
Qed.

Lemma dup_perm {A} (l l' : list A) : Permutation l l' -> ~ NoDup l -> ~ NoDup l'.
Proof. intros P N N'. apply N. eapply Permutation_NoDup; [apply Permutation_sym; exact P|exact N']. Qed.

(* x := y *)
Lemma assign_fine m h x y i j : fine m h -> lookup String.eqb x (vars m) = Some i -> lookup String.eqb y (vars m) = Some j ->
  fine (Machine (conts m) (Maps.set String.eqb x j (vars m))) h.
Proof.
  intros [N SD B K] LX LY. apply (lookup_in String.eqb Seqb_ok) in LY. constructor; cbn [vars].
  - unfold Maps.set. cbn [map fst]. constructor; [|apply (unset_keys String.eqb); exact N].
    intros I. apply in_map_iff in I. destruct I as (v & E & I). apply unset_in' in I. apply (proj2 I). exact E.
  - exact SD.
  - intros z k [E|I]; [injection E as <- <-; exact (B _ _ LY)|]. apply unset_in' in I. exact (B _ _ (proj1 I)).
  - intros z k s [E|I] L; [injection E as <- <-; exact (K _ _ _ LY L)|]. apply unset_in' in I. exact (K _ _ _ (proj1 I) L).
Qed.

Lemma assign_shares m h x y j : lookup String.eqb y (vars m) = Some j -> x <> y ->
  shared (Machine (conts m) (Maps.set String.eqb x j (vars m))) h.
Proof.
  intros LY D. left. cbn [vars]. unfold Maps.set. cbn [map snd]. intros X. inversion X as [|u v U _]; subst. apply U.
  apply in_map_iff. exists (y, j). split; [reflexivity|]. apply in_unset; [|cbn; congruence].
  apply (lookup_in String.eqb Seqb_ok). exact LY.
Qed.

Lemma assign_keeps m h x y i j : fine m h -> lookup String.eqb x (vars m) = Some i -> lookup String.eqb y (vars m) = Some j ->
  shared m h -> shared (Machine (conts m) (Maps.set String.eqb x j (vars m))) h.
Proof.
  intros G LX LY SH. destruct (string_dec x y) as [<-|D]; [|exact (assign_shares m h x y j LY D)].
  rewrite LX in LY. injection LY as <-. pose proof (names_split (vars m) x i (f_names _ _ G) LX) as P.
  destruct SH as [N|(z & k & I & E)]; [left|right]; cbn [vars].
  - eapply dup_perm; [|exact N]. apply Permutation_map. exact P.
  - exists z, k. split; [|exact E]. eapply Permutation_in; [exact P|exact I].
Qed.

(* the end of the scope of x *)
Lemma drop_good m h x i h' : fine m h -> lookup String.eqb x (vars m) = Some i -> destroy i h = (h', Ok tt) ->
  good m h (Machine (conts m) (unset String.eqb x (vars m))) h' 1.
Proof.
  intros G LX E. pose proof (names_split (vars m) x i (f_names _ _ G) LX) as P. destruct G as [N SD B K].
  pose proof (lookup_in String.eqb Seqb_ok _ _ _ LX) as IX.
  unfold destroy, delete in E. destruct (lookup Z.eqb (it_ i) (live h)) as [s|] eqn:L; [|discriminate E].
  rewrite (K x i s IX L) in E. injection E as <-. split; [|split].
  - constructor; cbn [vars live top].
    + apply (unset_keys String.eqb). exact N.
    + apply sound_unset. exact SD.
    + intros y j I. apply unset_in' in I. exact (B y j (proj1 I)).
    + intros y j t I L'. apply unset_in' in I. destruct (Z.eq_dec (it_ j) (it_ i)) as [E|D].
      * rewrite E, (lookup_unset_same Z.eqb) in L'. discriminate L'.
      * rewrite (lookup_unset_other Z.eqb Zeqb_ok) in L' by exact D. exact (K y j t (proj1 I) L').
  - intros SH. cbn [vars live].
    destruct (in_dec Z.eq_dec (it_ i) (map (fun v => it_ (snd v)) (unset String.eqb x (vars m)))) as [I|NI].
    + right. apply in_map_iff in I. destruct I as ([y j] & E & I). cbn in E. exists y, j. split; [exact I|].
      rewrite E. apply (lookup_unset_same Z.eqb).
    + destruct SH as [ND|(y & j & I & E)]; [left|right].
      * cbn [vars]. intros X. eapply dup_perm in ND; [|apply Permutation_map; exact P]. apply ND. cbn [map snd]. constructor; assumption.
      * assert (D : it_ j <> it_ i) by (intros E'; rewrite E' in E; congruence).
        exists y, j. split.
        -- apply in_unset; [exact I|]. cbn. intros ->. apply (in_lookup String.eqb Seqb_ok) in I; [|exact N]. congruence.
        -- cbn [live]. rewrite (lookup_unset_other Z.eqb Zeqb_ok) by exact D. exact E.
  - cbn [odd]. destruct (is_commutative i); reflexivity.
Qed.

Lemma exec_good m h i m' h' out : fine m h -> exec m i h = (h', Ok (m', out)) -> good m h m' h' (dropping i).
Proof.
  intros G E. destruct i as [x c|x c|x y|x y|x y n|x y n|x y|x|x|x y|x y|x|c]; cbn [exec dropping] in *.
  - eapply good_declared; [exact G| |exact E]. intros. eapply begin_made. eassumption.
  - eapply good_declared; [exact G| |exact E]. intros. eapply end_made. eassumption.
  - apply mbind_ok in E. destruct E as (h1 & i & E & E'). apply var_ok in E. destruct E as [-> _].
    eapply good_declared; [exact G| |exact E']. intros. eapply copy_made. eassumption.
  - apply mbind_ok in E. destruct E as (h1 & i & E & E'). apply var_ok in E. destruct E as [-> L].
    unfold declare in E'. destruct (has String.eqb x (vars m)) eqn:HX; [discriminate E'|].
    apply mbind_ok in E'. destruct E' as (h2 & k & E & E'). injection E' as <- <- <-.
    apply mbind_ok in E. destruct E as (h3 & j & E & E'). apply mbind_ok in E. destruct E as (h4 & [] & E & E2).
    injection E2 as -> ->. apply incr_altered in E. apply copy_made in E'.
    pose proof (altered_fine m h h3 E G) as G3. split; [exact (made_fine m h3 h2 k x E' HX G3)|]. split.
    + intros SH. exact (made_shared m h3 h2 k x E' G3 (altered_shared m h h3 E SH)).
    + destruct E' as (s & -> & _). cbn [odd]. exact (proj1 (proj2 E)).
  - apply mbind_ok in E. destruct E as (h1 & i & E & E'). apply var_ok in E. destruct E as [-> _].
    eapply good_declared; [exact G| |exact E']. intros. eapply plus_made. eassumption.
  - apply mbind_ok in E. destruct E as (h1 & i & E & E'). apply var_ok in E. destruct E as [-> _].
    eapply good_declared; [exact G| |exact E']. intros. eapply plus_made. eassumption.
  - apply mbind_ok in E. destruct E as (h1 & i & E & E'). apply var_ok in E. destruct E as [-> LX].
    apply mbind_ok in E'. destruct E' as (h2 & j & E & E'). apply var_ok in E. destruct E as [-> LY].
    injection E' as <- <- <-. split; [exact (assign_fine m h x y i j G LX LY)|]. split; [exact (assign_keeps m h x y i j G LX LY)|reflexivity].
  - apply mbind_ok in E. destruct E as (h1 & i & E & E'). apply var_ok in E. destruct E as [-> _].
    apply mbind_ok in E'. destruct E' as (h2 & [] & E & E'). injection E' as <- <- <-. apply incr_altered in E. exact (good_altered m h h2 G E).
  - apply mbind_ok in E. destruct E as (h1 & i & E & E'). apply var_ok in E. destruct E as [-> _].
    apply mbind_ok in E'. destruct E' as (h2 & t & E & E'). injection E' as <- <- <-. apply deref_ok in E. subst h2. exact (good_same m h G).
  - apply mbind_ok in E. destruct E as (h1 & i & E & E'). apply var_ok in E. destruct E as [-> _].
    apply mbind_ok in E'. destruct E' as (h1 & j & E & E'). apply var_ok in E. destruct E as [-> _].
    apply mbind_ok in E'. destruct E' as (h2 & t & E & E'). injection E' as <- <- <-. apply equal_ok in E. subst h2. exact (good_same m h G).
  - apply mbind_ok in E. destruct E as (h1 & i & E & E'). apply var_ok in E. destruct E as [-> _].
    apply mbind_ok in E'. destruct E' as (h1 & j & E & E'). apply var_ok in E. destruct E as [-> _].
    apply mbind_ok in E'. destruct E' as (h2 & t & E & E'). injection E' as <- <- <-. apply differ_ok in E. subst h2. exact (good_same m h G).
  - apply mbind_ok in E. destruct E as (h1 & i & E & E'). apply var_ok in E. destruct E as [-> L].
    apply mbind_ok in E'. destruct E' as (h2 & [] & E & E'). injection E' as <- <- <-. exact (drop_good m h x i h2 G L E).
  - destruct (has Z.eqb c (conts m)); [|discriminate E]. injection E as <- <- <-.
    destruct G as [N SD B K]. split; [constructor; assumption|]. split; [intros SH; exact SH|reflexivity].
Qed.

Lemma run_good p : forall m h m' h' out, fine m h -> run m p h = (h', Ok (m', out)) ->
  fine m' h' /\ odd h' = (drops p + odd h)%nat /\
  (shared m h \/ (exists x y, In (Assign x y) p /\ x <> y) -> shared m' h').
Proof.
  induction p as [|i p IH]; intros m h m' h' out G E; cbn [run] in E.
  - injection E as <- <- <-. split; [exact G|]. split; [reflexivity|]. intros [SH|(x & y & [] & _)]. exact SH.
  - apply mbind_ok in E. destruct E as (h1 & [m1 o1] & E1 & E). apply mbind_ok in E. destruct E as (h2 & [m2 o2] & E2 & E).
    injection E as <- <- _. cbn [fst snd] in *. destruct (exec_good m h i m1 h1 o1 G E1) as (G1 & SH1 & O1).
    destruct (IH m1 h1 m2 h2 o2 G1 E2) as (G2 & O2 & SH2). split; [exact G2|]. split.
    + rewrite O2, O1. unfold drops. cbn [filter]. destruct i; cbn [dropping length]; lia.
    + intros [SH|(x & y & [EQ|I] & D)]; apply SH2.
      * left. exact (SH1 SH).
      * left. subst i. cbn [exec] in E1. apply mbind_ok in E1. destruct E1 as (h3 & a & E1 & E3). apply var_ok in E1. destruct E1 as [-> _].
        apply mbind_ok in E3. destruct E3 as (h3 & b & E1 & E3). apply var_ok in E1. destruct E1 as [-> LY].
        injection E3 as <- <- _. exact (assign_shares m h x y b LY D).
      * right. exists x, y. split; assumption.
Qed.

Lemma fine_start cs h : sound h -> fine (Machine cs []) h.
Proof. intros S. constructor; [constructor|exact S|intros x i []|intros x i s []]. Qed.

(* A program that leaves no variable behind has not assigned one to another. *)
Theorem assigning cs p h h' m out : sound h -> run (Machine cs []) p h = (h', Ok (m, out)) -> vars m = [] ->
  forall x y, In (Assign x y) p -> x = y.
Proof.
  intros S E V x y I. destruct (string_dec x y) as [e|D]; [exact e|exfalso].
  destruct (run_good p _ _ _ _ _ (fine_start cs h S) E) as (_ & _ & SH).
  destruct (SH (or_intror (ex_intro _ x (ex_intro _ y (conj I D))))) as [N|(z & i & J & _)]; rewrite V in *.
  - apply N. constructor.
  - destruct J.
Qed.

(* Every block is deleted as what it is not. *)
Theorem deleting cs p h h' m out : sound h -> run (Machine cs []) p h = (h', Ok (m, out)) ->
  odd h' = (drops p + odd h)%nat.
Proof. intros S E. exact (proj1 (proj2 (run_good p _ _ _ _ _ (fine_start cs h S) E))). Qed.

(* ---- loops ---- *)

Lemma skipn_next {B} p : forall (l : list B) t r, skipn p l = t :: r -> skipn (S p) l = r.
Proof.
  induction p as [|p IH]; intros l t r E; destruct l as [|x l]; try discriminate E.
  - cbn in E. injection E as -> ->. reflexivity.
  - cbn [skipn] in E. exact (IH l t r E).
Qed.

Section Loops.
Variable cs : containers.
Variable c : Z.
Variable k : container.
Hypothesis there : lookup Z.eqb c cs = Some k.

Definition here (a p : Z) (rest : spots) (h : memory) : Prop :=
  sound h /\ live h = (a, Spot (commutative k) c p) :: rest.

Lemma here_read a p rest h : here a p rest h -> read (commutative k) a h = (h, Ok (Spot (commutative k) c p)).
Proof. intros [_ L]. unfold read. rewrite L. cbn [lookup]. rewrite Z.eqb_refl. cbn [of_set]. rewrite eqb_reflx. reflexivity. Qed.

Lemma here_below a p rest h : here a p rest h -> a < top h.
Proof. intros [[_ B] L]. apply (B a (Spot (commutative k) c p)). rewrite L. left. reflexivity. Qed.

Lemma here_rest a p rest h : here a p rest h -> unset Z.eqb a rest = rest.
Proof.
  intros [[N _] L]. rewrite L in N. cbn [map fst] in N. inversion N as [|u v U _]; subst. exact (unset_away rest a U).
Qed.

(* A block made and deleted again *)
Definition after_temp (n : Z) (d : nat) (h : memory) : memory := Memory (top h + n) (live h) (d + odd h).

Lemma here_temp a p rest h n d : here a p rest h -> 0 <= n -> here a p rest (after_temp n d h).
Proof.
  intros [[N B] L] P. split; [|exact L]. split; [exact N|]. cbn [top live after_temp].
  intros x s I. specialize (B x s I). lia.
Qed.

Definition it (a : Z) : iterator := It (commutative k) a.

Lemma unset_top h : sound h -> unset Z.eqb (top h) (live h) = live h.
Proof. intros S. exact (unset_away (live h) (top h) (top_fresh h S)). Qed.

(* Two blocks compared *)
Lemma differ_blocks a b p q h : lookup Z.eqb a (live h) = Some (Spot (commutative k) c p) ->
  lookup Z.eqb b (live h) = Some (Spot (commutative k) c q) ->
  differ cs (it a) (it b) h = (h, Ok (negb (p =? q))).
Proof.
  intros LA LB. unfold differ, equal, mbind, read, it. cbn [is_commutative it_]. rewrite LA. cbn [of_set]. rewrite eqb_reflx, LB.
  cbn [of_set]. rewrite eqb_reflx. unfold lift, has. cbn [owner place]. rewrite Z.eqb_refl, there. reflexivity.
Qed.

(* The last block made is deleted. *)
Lemma destroy_last h s o : sound h ->
  destroy (it (top h)) (Memory (top h + 1) ((top h, Spot (commutative k) c s) :: live h) o) =
  (Memory (top h + 1) (live h) (S o), Ok tt).
Proof.
  intros SD. unfold destroy, delete, it. cbn [is_commutative it_ live top odd lookup]. rewrite Z.eqb_refl. cbn [of_set].
  replace (unset Z.eqb (top h) ((top h, Spot (commutative k) c s) :: live h)) with (live h).
  - destruct (commutative k); reflexivity.
  - unfold unset. cbn [filter fst]. rewrite Z.eqb_refl. cbn [negb]. symmetry. exact (unset_top h SD).
Qed.

Lemma end_new h : end_of cs c h =
  (Memory (top h + 1) ((top h, Spot (commutative k) c (Z.of_nat (length (members k)))) :: live h) (odd h), Ok (it (top h))).
Proof. unfold end_of. rewrite there. reflexivity. Qed.

(* it != c.end() *)
Lemma at_end a p rest h : here a p rest h ->
  mbind (end_of cs c) (fun e => leaving (differ cs (it a) e) (destroy e)) h =
  (after_temp 1 1 h, Ok (negb (p =? Z.of_nat (length (members k))))).
Proof.
  intros H. pose proof (here_below _ _ _ _ H) as B. destruct H as [SD L].
  unfold mbind. rewrite end_new. unfold leaving.
  rewrite (differ_blocks a (top h) p (Z.of_nat (length (members k)))).
  - unfold mbind. rewrite (destroy_last h _ _ SD). reflexivity.
  - cbn [live lookup]. destruct (Z.eqb_spec a (top h)) as [E|_]; [lia|]. rewrite L. cbn [lookup]. rewrite Z.eqb_refl. reflexivity.
  - cbn [live lookup]. rewrite Z.eqb_refl. reflexivity.
Qed.

(* it != c.end() - 1 *)
Lemma at_last a p rest h : here a p rest h -> members k <> [] ->
  mbind (end_of cs c) (fun e => leaving (mbind (minus cs e 1) (fun l => leaving (differ cs (it a) l) (destroy l))) (destroy e)) h =
  (after_temp 2 2 h, Ok (negb (p =? Z.of_nat (length (members k)) - 1))).
Proof.
  intros H NE. pose proof (here_below _ _ _ _ H) as B. destruct H as [SD L].
  assert (LN : 1 <= Z.of_nat (length (members k))) by (destruct (members k); [contradiction|cbn [length]; lia]).
  unfold mbind. rewrite end_new. unfold leaving.
  set (n := Z.of_nat (length (members k))) in *.
  set (h1 := Memory (top h + 1) ((top h, Spot (commutative k) c n) :: live h) (odd h)).
  assert (S1 : sound h1) by exact (sound_new h _ SD).
  assert (E1 : minus cs (it (top h)) 1 h1 = (Memory (top h1 + 1) ((top h1, Spot (commutative k) c (n - 1)) :: live h1) (odd h1), Ok (it (top h1)))).
  { unfold minus, plus, mbind, read. unfold it at 1 2. cbn [is_commutative it_]. unfold h1 at 1. cbn [live lookup]. rewrite Z.eqb_refl. cbn [of_set].
    rewrite eqb_reflx. unfold lift, moved. cbn [owner place of_set]. rewrite there. fold n.
    destruct (Z.leb_spec 0 (n + - (1))) as [_|X]; [|lia]. destruct (Z.leb_spec (n + - (1)) n) as [_|X]; [|lia]. reflexivity. }
  unfold mbind. rewrite E1. rewrite (differ_blocks a (top h1) p (n - 1)).
  - unfold mbind. rewrite (destroy_last h1 _ _ S1). unfold ret at 1. cbn [live odd h1].
    assert (E2 : destroy (it (top h)) (Memory (top h1 + 1) ((top h, Spot (commutative k) c n) :: live h) (S (odd h))) =
      (Memory (top h1 + 1) (live h) (S (S (odd h))), Ok tt)).
    { unfold destroy, delete, it. cbn [is_commutative it_ live top odd lookup]. rewrite Z.eqb_refl. cbn [of_set].
      replace (unset Z.eqb (top h) ((top h, Spot (commutative k) c n) :: live h)) with (live h).
      - destruct (commutative k); reflexivity.
      - unfold unset. cbn [filter fst]. rewrite Z.eqb_refl. cbn [negb]. symmetry. exact (unset_top h SD). }
    unfold h1 in E2 at 1 2. cbn [top] in E2. unfold h1. cbn [live odd top]. rewrite E2. unfold ret, after_temp. cbn [Nat.add].
    replace (top h + 2) with (top h + 1 + 1) by lia. reflexivity.
  - unfold h1. cbn [live lookup top]. destruct (Z.eqb_spec a (top h + 1)) as [E|_]; [lia|].
    destruct (Z.eqb_spec a (top h)) as [E|_]; [lia|]. rewrite L. cbn [lookup]. rewrite Z.eqb_refl. reflexivity.
  - cbn [live lookup]. rewrite Z.eqb_refl. reflexivity.
Qed.

(* *it *)
Lemma at_deref a p rest h t : here a p rest h -> 0 <= p -> nth_error (members k) (Z.to_nat p) = Some t ->
  deref cs (it a) h = (h, Ok t).
Proof.
  intros H P E. unfold deref, mbind, it. cbn [is_commutative it_]. rewrite (here_read _ _ _ _ H). unfold lift. cbn [owner place].
  rewrite there. destruct (Z.ltb_spec p 0) as [X|_]; [lia|]. rewrite E. reflexivity.
Qed.

(* ++it *)
Lemma at_incr a p rest h : here a p rest h -> 0 <= p < Z.of_nat (length (members k)) ->
  exists h', incr cs (it a) h = (h', Ok tt) /\ here a (p + 1) rest h'.
Proof.
  intros H P. unfold incr, mbind, it. cbn [is_commutative it_]. rewrite (here_read _ _ _ _ H). unfold lift, moved. cbn [owner place of_set].
  rewrite there. destruct (Z.leb_spec 0 (p + 1)) as [_|X]; [|lia].
  destruct (Z.leb_spec (p + 1) (Z.of_nat (length (members k)))) as [_|X]; [|lia]. cbn [andb].
  unfold write. eexists. split; [reflexivity|]. pose proof (here_rest _ _ _ _ H) as U. destruct H as [S L]. split.
  - eapply sound_set; [exact S|]. rewrite L. cbn [lookup]. rewrite Z.eqb_refl. reflexivity.
  - cbn [live]. rewrite L. unfold Maps.set, unset. cbn [filter fst]. rewrite Z.eqb_refl. cbn [negb].
    unfold unset in U. rewrite U. reflexivity.
Qed.

(* ~it *)
Lemma at_destroy a p rest h : here a p rest h ->
  destroy (it a) h = (Memory (top h) rest (S (odd h)), Ok tt) /\ sound (Memory (top h) rest (S (odd h))).
Proof.
  intros H. pose proof (here_rest _ _ _ _ H) as U. destruct H as [S L]. split.
  - unfold destroy, delete, it. cbn [is_commutative it_]. rewrite L. cbn [lookup]. rewrite Z.eqb_refl. cbn [of_set].
    unfold unset. cbn [filter fst]. rewrite Z.eqb_refl. cbn [negb]. unfold unset in U. rewrite U. destruct (commutative k); reflexivity.
  - pose proof (sound_unset h a (Datatypes.S (odd h)) S) as X. rewrite L in X. unfold unset in X. cbn [filter fst] in X. rewrite Z.eqb_refl in X.
    cbn [negb] in X. unfold unset in U. rewrite U in X. exact X.
Qed.

Lemma here_begin h : sound h -> exists h', begin_of cs c h = (h', Ok (it (top h))) /\ here (top h) 0 (live h) h'.
Proof.
  intros S. unfold begin_of. rewrite there. unfold mbind, new, ret. eexists. split; [reflexivity|].
  split; [apply sound_new; exact S|reflexivity].
Qed.

(* What a body does at each element *)
Variable A : Type.
Variable body : iterator -> A -> M A.
Variable f : nat -> A -> term -> res A.
Hypothesis bodily : forall a p rest h t acc, here a (Z.of_nat p) rest h -> nth_error (members k) p = Some t ->
  match f p acc t with
  | Ok acc' => exists h', body (it a) acc h = (h', Ok acc') /\ here a (Z.of_nat p) rest h'
  | Throw => exists h', body (it a) acc h = (h', Throw) /\ here a (Z.of_nat p) rest h'
  | UB => exists h', body (it a) acc h = (h', UB)
  | OutOfFuel => exists h', body (it a) acc h = (h', OutOfFuel)
  end.

Fixpoint along (p : nat) (l : list term) (acc : A) : res A :=
  match l with
  | [] => Ok acc
  | t :: l' => bind (f p acc t) (along (S p) l')
  end.

Lemma loop_along : forall l p a rest h acc fuel, here a (Z.of_nat p) rest h -> skipn p (members k) = l ->
  (p <= length (members k))%nat -> (length l < fuel)%nat ->
  match along p l acc with
  | Ok acc' => exists h' q, loop cs fuel c (it a) body acc h = (h', Ok acc') /\ here a q rest h'
  | Throw => exists h' q, loop cs fuel c (it a) body acc h = (h', Throw) /\ here a q rest h'
  | UB => exists h', loop cs fuel c (it a) body acc h = (h', UB)
  | OutOfFuel => exists h', loop cs fuel c (it a) body acc h = (h', OutOfFuel)
  end.
Proof.
  induction l as [|t l IH]; intros p a rest h acc fuel H E LE F; (destruct fuel as [|fuel]; [inversion F|]); cbn [loop along].
  - assert (P : p = length (members k)).
    { apply (f_equal (@length term)) in E. rewrite skipn_length in E. cbn in E. lia. }
    pose proof (at_end a (Z.of_nat p) rest h H) as X. unfold mbind in X |- *.
    destruct (end_of cs c h) as [h1 [e| | |]]; try discriminate X. rewrite X. rewrite P, Z.eqb_refl. cbn [negb].
    eexists _, _. split; [reflexivity|]. apply here_temp; [exact H|lia].
  - assert (P : (p < length (members k))%nat).
    { apply (f_equal (@length term)) in E. rewrite skipn_length in E. cbn in E. lia. }
    assert (NE : nth_error (members k) p = Some t).
    { rewrite <- (firstn_skipn p (members k)), E. rewrite nth_error_app2; rewrite firstn_length_le by lia; [|lia].
      rewrite Nat.sub_diag. reflexivity. }
    pose proof (at_end a (Z.of_nat p) rest h H) as X. unfold mbind in X |- *.
    destruct (end_of cs c h) as [h1 [e| | |]]; try discriminate X. rewrite X.
    destruct (Z.eqb_spec (Z.of_nat p) (Z.of_nat (length (members k)))) as [Y|_]; [lia|]. cbn [negb].
    pose proof (here_temp a (Z.of_nat p) rest h 1 1 H ltac:(lia)) as H1.
    pose proof (bodily a p rest _ t acc H1 NE) as BD. destruct (f p acc t) as [acc'| | |]; cbn [bind].
    + destruct BD as (h2 & -> & H2).
      destruct (at_incr a (Z.of_nat p) rest h2 H2) as (h3 & -> & H3); [lia|].
      replace (Z.of_nat p + 1) with (Z.of_nat (S p)) in H3 by lia.
      assert (E' : skipn (S p) (members k) = l).
      { exact (skipn_next p (members k) t l E). }
      apply (IH (S p) a rest h3 acc' fuel H3 E'); cbn [length] in F; lia.
    + destruct BD as (h2 & ->). exists h2. reflexivity.
    + destruct BD as (h2 & -> & H2). exists h2, (Z.of_nat p). split; [reflexivity|exact H2].
    + destruct BD as (h2 & ->). exists h2. reflexivity.
Qed.

(* The whole loop: the memory is as it was, also when the body throws. *)
Lemma for_each_along h acc : sound h ->
  match along 0 (members k) acc with
  | Ok acc' => exists h', for_each cs c body acc h = (h', Ok acc') /\ sound h' /\ live h' = live h
  | Throw => exists h', for_each cs c body acc h = (h', Throw) /\ sound h' /\ live h' = live h
  | UB => exists h', for_each cs c body acc h = (h', UB)
  | OutOfFuel => exists h', for_each cs c body acc h = (h', OutOfFuel)
  end.
Proof.
  intros S. unfold for_each, mbind. destruct (here_begin h S) as (h1 & -> & H1). unfold leaving, size. rewrite there.
  pose proof (loop_along (members k) 0 (top h) (live h) h1 acc (Datatypes.S (length (members k))) H1 eq_refl ltac:(lia) ltac:(lia)) as L.
  destruct (along 0 (members k) acc) as [acc'| | |].
  - destruct L as (h2 & q & -> & H2). destruct (at_destroy _ _ _ _ H2) as [D S']. unfold mbind. rewrite D.
    eexists. split; [reflexivity|]. split; [exact S'|reflexivity].
  - destruct L as (h2 & ->). exists h2. reflexivity.
  - destruct L as (h2 & q & -> & H2). destruct (at_destroy _ _ _ _ H2) as [D S']. unfold mbind. rewrite D.
    eexists. split; [reflexivity|]. split; [exact S'|reflexivity].
  - destruct L as (h2 & ->). exists h2. reflexivity.
Qed.

End Loops.
