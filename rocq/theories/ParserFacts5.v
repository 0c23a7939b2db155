(* Scanning a text with a space put in. *)
From Coq Require Import ZArith String Ascii List Bool Lia.
From Verif Require Import Base Tables Parser ParserSpec Grammar LexFacts ParserCert ParserFacts ParserFacts2 ParserFacts3 ParserFacts4.
Import ListNotations.
Open Scope string_scope.
Open Scope list_scope.
Open Scope Z_scope.

(* One character of a scan, in terms of the checked functions. *)
Lemma scan_one m cells : 0 <= m < 70 -> nth_error machines (Z.to_nat m) = Some cells ->
  forall st c text n best, 0 <= st < states_of m ->
  (target_of cells st (code c) = None /\
     scan m st (c :: text) n best = Ok (Found (fst best) (snd best) (S n)))
  \/ exists st', target_of cells st (code c) = Some st' /\ 0 <= st' < states_of m /\ 0 <= code c < 128 /\
     (accept_of cells st' = 0 /\ scan m st (c :: text) n best = scan m st' text (S n) best
      \/ 2 <= accept_of cells st' <= 59 /\
         scan m st (c :: text) n best = scan m st' text (S n) (accept_of cells st' - 1, S n)).
Proof.
  intros Hm N st c text n best Hst.
  destruct (scan_cases m st c text n best Hm Hst) as (l & a & CA & H).
  unfold cell_at in CA. rewrite N in CA. unfold target_of. rewrite CA.
  destruct H as [H|(st' & l' & a' & F & R & P & CA' & H)]; [left; exact H|right].
  exists st'. split; [exact F|]. split; [exact R|]. split; [pose proof (code_bound c); lia|].
  unfold cell_at in CA'. rewrite N in CA'. unfold accept_of. rewrite CA'. exact H.
Qed.

Lemma machine_row m cells st : nth_error machines (Z.to_nat m) = Some cells -> 0 <= st < states_of m ->
  In st (rows_of cells).
Proof. intros N H. unfold states_of in H. rewrite N in H. apply upto_In. exact H. Qed.

Lemma machine_start m cells : nth_error machines (Z.to_nat m) = Some cells -> 0 <= 0 < states_of m.
Proof.
  intros N. unfold states_of. rewrite N. destruct tables_ok as (OK & _). rewrite forallb_forall in OK.
  specialize (OK _ (nth_error_In _ _ N)). unfold row_ok in OK.
  apply andb_true_iff in OK as [_ OK]. apply Z.leb_le in OK. lia.
Qed.

Lemma calm_fact m cells st : nth_error machines (Z.to_nat m) = Some cells -> 0 <= st < states_of m ->
  (calm (quiets cells) st = true -> target_of cells st 32 = None) /\
  forall x st', 0 <= x < 128 -> target_of cells st x = Some st' ->
    (st = 0 -> x <> 34 -> calm (quiets cells) st' = true) /\
    (st <> 0 -> calm (quiets cells) st = true -> calm (quiets cells) st' = true) /\
    accept_of cells st <> 7 /\
    (st = 0 -> x = 32 -> forall y, 0 <= y < 128 -> target_of cells st' y = None) /\
    st' <> 0.
Proof.
  intros N H. pose proof spaces_ok as K. rewrite forallb_forall in K.
  specialize (K _ (nth_error_In _ _ N)). unfold space_ok in K. cbv zeta in K.
  rewrite forallb_forall in K. specialize (K _ (machine_row _ _ _ N H)).
  apply andb_true_iff in K as [K1 K2]. split.
  - intros Q. rewrite Q in K1. cbn [negb orb] in K1. apply negb_true_iff in K1.
    unfold spacey in K1. destruct (target_of cells st 32); [discriminate|reflexivity].
  - intros x st' Hx T. rewrite forallb_forall in K2. specialize (K2 x (upto_In 128 x Hx)).
    cbv beta in K2. rewrite T in K2. rewrite !andb_true_iff, !negb_true_iff in K2.
    destruct K2 as [[[K2 K3] K4] K5]. apply Z.eqb_neq in K3, K5.
    split; [|split; [|split; [exact K3|split; [|exact K5]]]].
    + intros -> X. cbn [Z.eqb] in K2. apply orb_true_iff in K2 as [K2|K2]; [|exact K2].
      apply Z.eqb_eq in K2. contradiction.
    + intros X Q. destruct (Z.eqb_spec st 0); [contradiction|]. rewrite Q in K2. exact K2.
    + intros -> ->. change (negb ((0 =? 0) && (32 =? 32))) with false in K4. cbn [orb] in K4. intros y Hy. rewrite forallb_forall in K4.
      specialize (K4 y (upto_In 128 y Hy)). cbv beta in K4.
      destruct (target_of cells st' y); [discriminate|reflexivity].
Qed.

(* The result of a scan never falls back behind the best found so far. *)
Lemma scan_best m cells : 0 <= m < 70 -> nth_error machines (Z.to_nat m) = Some cells ->
  forall text st n best, 0 <= st < states_of m -> (snd best <= n)%nat ->
  exists f, scan m st text n best = Ok f /\
    (fsym f = fst best /\ flen f = snd best \/ 1 <= fsym f < 59 /\ (n < flen f)%nat).
Proof.
  intros Hm N text st n best Hst B.
  destruct (scan_total m Hm text st n best Hst) as (f & E & S & _). eauto.
Qed.

(* From a state whose token is shifted, every longer token is shifted too. *)
Lemma scan_shifted p m cells : 0 <= m < 70 -> nth_error machines (Z.to_nat m) = Some cells ->
  (forall st x st', 0 <= st < states_of m -> 0 <= x < 128 -> 0 < accept_of cells st ->
     has_entry p (accept_of cells st - 1) = true -> target_of cells st x = Some st' ->
     0 < accept_of cells st' /\ shifted p (accept_of cells st' - 1) = true) ->
  forall text st n f, 0 <= st < states_of m -> 0 < accept_of cells st ->
  shifted p (accept_of cells st - 1) = true ->
  scan m st text n (accept_of cells st - 1, n) = Ok f -> shifted p (fsym f) = true.
Proof.
  intros Hm N G. induction text as [|c text IH]; intros st n f Hst A S E.
  - cbn in E. inversion E. exact S.
  - assert (HE : has_entry p (accept_of cells st - 1) = true).
    { unfold shifted in S. unfold has_entry. destruct (entry_of p (accept_of cells st - 1)); [reflexivity|discriminate]. }
    destruct (scan_one m cells Hm N st c text n (accept_of cells st - 1, n) Hst)
      as [(T & E')|(st' & T & R & C & [(A' & E')|(A' & E')])]; rewrite E' in E.
    + inversion E. exact S.
    + destruct (G st (code c) st' Hst C A HE T) as [G1 _]. lia.
    + destruct (G st (code c) st' Hst C A HE T) as [G1 G2]. eapply IH; [exact R|exact G1|exact G2|exact E].
Qed.

(* Cutting a scan short with a space. *)
Lemma scan_cut p m cells post w : 0 <= m < 70 -> nth_error machines (Z.to_nat m) = Some cells ->
  (forall st x st', 0 <= st < states_of m -> 0 <= x < 128 -> 0 < accept_of cells st ->
     has_entry p (accept_of cells st - 1) = true -> target_of cells st x = Some st' ->
     0 < accept_of cells st' /\ shifted p (accept_of cells st' - 1) = true) ->
  forall u st n best f f', 0 <= st < states_of m -> st <> 0 -> calm (quiets cells) st = true ->
  (snd best <= n)%nat ->
  (has_entry p (fst best) = false \/ best = (accept_of cells st - 1, n) /\ 0 < accept_of cells st) ->
  scan m st (u ++ post) n best = Ok f -> scan m st (u ++ " "%char :: w) n best = Ok f' ->
  fsym f' = fsym f /\ flen f' = flen f
  \/ (n + length u < flen f)%nat /\ (has_entry p (fsym f') = false \/ shifted p (fsym f) = true).
Proof.
  intros Hm N G. induction u as [|c u IH]; intros st n best f f' Hst Z0 Q B J E E'.
  - cbn [app] in *. destruct (calm_fact m cells st N Hst) as [CF _].
    destruct (scan_one m cells Hm N st " "%char w n best Hst) as [(T' & X)|(st' & T' & _)].
    2:{ change (code " ") with 32 in T'. rewrite CF in T'; [discriminate|exact Q]. }
    rewrite X in E'. inversion E'. subst f'. cbn [fsym flen length].
    destruct (scan_total m Hm post st n best Hst) as (f0 & E0 & S0 & _).
    rewrite E in E0. inversion E0. subst f0.
    destruct S0 as [[S1 S2]|[S1 S2]]; [left; rewrite S1, S2; auto|].
    right. split; [lia|]. destruct J as [J|[J A]]; [left; exact J|].
    destruct (has_entry p (fst best)) eqn:HE; [|left; reflexivity]. right.
    destruct post as [|c post].
    + cbn in E. inversion E. subst f. cbn [flen] in S2. lia.
    + destruct (scan_one m cells Hm N st c post n best Hst)
        as [(T & X')|(st' & T & R & C & [(A' & X')|(A' & X')])]; rewrite X' in E.
      * inversion E. subst f. cbn [flen] in S2. lia.
      * subst best. cbn [fst] in HE. destruct (G st (code c) st' Hst C A HE T) as [G1 _]. lia.
      * subst best. cbn [fst] in HE. destruct (G st (code c) st' Hst C A HE T) as [G1 G2].
        eapply (scan_shifted p m cells Hm N G); eassumption.
  - cbn [app] in *. destruct (calm_fact m cells st N Hst) as [_ CF].
    destruct (scan_one m cells Hm N st c (u ++ post) n best Hst)
      as [(T & X)|(st' & T & R & C & K)];
    destruct (scan_one m cells Hm N st c (u ++ " "%char :: w) n best Hst)
      as [(T' & X')|(st'' & T' & R' & C' & K')]; rewrite T in T'; try discriminate.
    + rewrite X in E. rewrite X' in E'. inversion E. inversion E'. left. auto.
    + inversion T'. subst st''. clear T' R' C'.
      destruct (CF (code c) st' C T) as (_ & CF1 & _ & _ & CF2).
      specialize (CF1 Z0 Q).
      destruct K as [(A & X)|(A & X)], K' as [(A' & X')|(A' & X')]; try lia; rewrite X in E; rewrite X' in E'.
      * destruct (IH st' (S n) best f f') as [G1|[G1 G2]]; auto.
        -- destruct J as [J|[J J']]; [left; exact J|].
           destruct (has_entry p (fst best)) eqn:HE; [|left; reflexivity].
           subst best. cbn [fst] in HE. destruct (G st (code c) st' Hst C J' HE T) as [G1 _]. lia.
        -- right. split; [cbn [length]; lia|exact G2].
      * destruct (IH st' (S n) (accept_of cells st' - 1, S n) f f') as [G1|[G1 G2]]; auto.
        -- right. split; [reflexivity|lia].
        -- right. split; [cbn [length]; lia|exact G2].
Qed.

(* First characters. *)
Fixpoint begins (x : Z) (r : re) : bool :=
  match r with
  | Void | Eps => false
  | Range l => in_ranges l x
  | Except l => negb (in_ranges l x)
  | Cat a b => begins x a || nullable a && begins x b
  | Alt a b => begins x a || begins x b
  | Star a => begins x a
  end.

Lemma matches_nullable r w : matches r w -> w = [] -> nullable r = true.
Proof.
  induction 1; intros E; cbn [nullable]; try discriminate; try reflexivity.
  - apply app_eq_nil in E as [E1 E2]. rewrite IHmatches1, IHmatches2; auto.
  - rewrite IHmatches; auto.
  - rewrite IHmatches; auto. apply orb_true_r.
Qed.

Lemma matches_begins r w : matches r w -> forall c w', w = c :: w' -> begins (code c) r = true.
Proof.
  induction 1; intros x w' E; cbn [begins]; try discriminate.
  - inversion E; subst. assumption.
  - inversion E; subst. rewrite H. reflexivity.
  - destruct u as [|y u].
    + rewrite (matches_nullable a [] H eq_refl). cbn [app] in E.
      rewrite (IHmatches2 _ _ E). apply orb_true_r.
    + cbn in E. inversion E; subst. rewrite (IHmatches1 _ _ eq_refl). reflexivity.
  - rewrite (IHmatches _ _ E). reflexivity.
  - rewrite (IHmatches _ _ E). apply orb_true_r.
  - destruct u as [|y u].
    + cbn [app] in E. specialize (IHmatches2 _ _ E). exact IHmatches2.
    + cbn in E. inversion E; subst. apply (IHmatches1 _ _ eq_refl).
Qed.

Lemma only_quoted : forallb (fun x => negb (begins 34 (lexeme x)) || (x =? 6)) (upto 59) = true.
Proof. vm_compute. reflexivity. Qed.

(* Scanning on from the end of a quoted text, or of a space, finds nothing
   more; cutting there changes nothing. *)
Lemma scan_stuck m cells st best n : 0 <= m < 70 -> nth_error machines (Z.to_nat m) = Some cells ->
  0 <= st < states_of m -> (forall x, 0 <= x < 128 -> target_of cells st x = None) ->
  forall text, exists k, scan m st text n best = Ok (Found (fst best) (snd best) k).
Proof.
  intros Hm N Hst T text. destruct text as [|c text]; [eexists; reflexivity|].
  destruct (scan_one m cells Hm N st c text n best Hst) as [(_ & X)|(st' & T' & _ & C & _)].
  - eexists. exact X.
  - rewrite T in T'; [discriminate|exact C].
Qed.

(* A scan that ends with a quoted text inside u. *)
Lemma scan_quoted m cells post w : 0 <= m < 70 -> nth_error machines (Z.to_nat m) = Some cells ->
  forall u st n best f, 0 <= st < states_of m -> fst best <> 6 ->
  scan m st (u ++ post) n best = Ok f -> fsym f = 6 -> (flen f <= n + length u)%nat ->
  exists f', scan m st (u ++ w) n best = Ok f' /\ fsym f' = 6 /\ flen f' = flen f.
Proof.
  intros Hm N. induction u as [|c u IH]; intros st n best f Hst B E SY L.
  - exfalso. cbn [app length] in *.
    destruct (scan_total m Hm post st n best Hst) as (f0 & E0 & S0 & _).
    rewrite E in E0. inversion E0. subst f0. destruct S0 as [[S0 _]|[_ S0]]; [congruence|lia].
  - cbn [app] in *.
    destruct (scan_one m cells Hm N st c (u ++ post) n best Hst)
      as [(T & X)|(st' & T & R & C & K)].
    { rewrite X in E. inversion E. subst f. cbn [fsym] in SY. congruence. }
    destruct (scan_one m cells Hm N st c (u ++ w) n best Hst)
      as [(T' & X')|(st'' & T' & R' & C' & K')]; rewrite T in T'; [discriminate|].
    inversion T'. subst st''. clear T' R' C'.
    destruct K as [(A & X)|(A & X)], K' as [(A' & X')|(A' & X')]; try lia; rewrite X in E; rewrite X'.
    + destruct (IH st' (S n) best f R B E SY ltac:(cbn [length] in L; lia)) as (f' & G). exists f'. exact G.
    + destruct (Z.eq_dec (accept_of cells st' - 1) 6) as [Q|Q].
      * assert (T' : forall x, 0 <= x < 128 -> target_of cells st' x = None).
        { intros x Hx. destruct (target_of cells st' x) eqn:TT; [|reflexivity]. exfalso.
          destruct (calm_fact m cells st' N R) as [_ CF]. destruct (CF x z Hx TT) as (_ & _ & CF1 & _). lia. }
        destruct (scan_stuck m cells st' (accept_of cells st' - 1, S n) (S n) Hm N R T' (u ++ post)) as [k1 Y1].
        destruct (scan_stuck m cells st' (accept_of cells st' - 1, S n) (S n) Hm N R T' (u ++ w)) as [k2 Y2].
        rewrite Y1 in E. inversion E. subst f. eexists. split; [exact Y2|]. cbn [fsym flen fst snd]. auto.
      * destruct (IH st' (S n) (accept_of cells st' - 1, S n) f R Q E SY ltac:(cbn [length] in L; lia)) as (f' & G).
        exists f'. exact G.
Qed.
