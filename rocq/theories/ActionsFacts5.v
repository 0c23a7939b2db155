(* Copulas, whole numbers, ranges, rejected inputs. *)
From Coq Require Import ZArith String Ascii List Bool Reals Lra Lia Permutation.
From Flocq Require Import Core BinarySingleNaN.
From Verif Require Import Base Enums Term Terms Compound CompoundSpec Maps Float FloatFacts Truth Numeral NumeralSpec NumeralFacts.
From Verif Require Import Parser ParserSpec Grammar Actions ActionsSpec AstFacts ActionsFacts ActionsFacts2 ActionsFacts3 ActionsFacts4.
From Verif Require Interning Evidence.
Import ListNotations.
Open Scope string_scope.
Open Scope Z_scope.
Open Scope list_scope.

(* ---- copulas ---- *)

Section Copulas.
Variable ord : list (option connector * list term) -> list (option connector * list term).
Variable fresh : Interning.world -> Z.
Hypothesis permutes : forall m, Permutation (ord m) m.

Lemma lone_set c t : c = ExtensionalSet \/ c = IntensionalSet -> ~ set_compound t ->
  compound ord false c [t] = Ok (Comp c [t]).
Proof.
  intros C N. 
  assert (K : category t = None).
  { destruct t as [| | | |d l]; try reflexivity. cbn [category]. destruct (is_commutative d) eqn:D; [|reflexivity].
    exfalso. apply N. exists d, l. split; [reflexivity|]. destruct d; try discriminate D; constructor. }
  assert (H : has_connector c t = false).
  { destruct t as [| | | |d l]; try reflexivity. cbn [has_connector].
    destruct C as [->| ->]; destruct d; try reflexivity; exfalso; apply N; eexists _, _; (split; [reflexivity|constructor]). }
  assert (R : is_reducible c = true /\ is_commutative c = true) by (destruct C as [->| ->]; split; reflexivity).
  destruct R as [R1 R2].
  unfold compound, compound_of_terms. rewrite R2.
  assert (M : mk_terms true [t] = [t]) by reflexivity. rewrite M.
  unfold fuel_for. cbn [compound_fuel]. unfold preprocess. rewrite R1, R2. cbn [negb].
  assert (F : flatten_set c [t] = [t]).
  { unfold flatten_set. cbn [flat_map]. rewrite H. reflexivity. }
  rewrite F. assert (G : categories [t] = [(None, [t])]).
  { unfold categories. cbn [fold_left]. rewrite K. reflexivity. }
  rewrite G. assert (O : ord [(None, [t])] = [(None, [t])]).
  { apply Permutation_length_1_inv. apply Permutation_sym. apply permutes. }
  rewrite O. cbn [norm_all norm_entry map app bind length Nat.ltb Nat.leb step4].
  assert (T : terms_set (terms_set [t]) = [t]) by reflexivity.
  destruct C as [->| ->]; cbn [bind]; reflexivity.
Qed.

Lemma copula_value e c st : In (e, c) copula_actions -> transform ord fresh st (Node e []) = Ok (st, VCopula c).
Proof.
  unfold copula_actions. cbn [In]. intros I.
  repeat (destruct I as [I|I]; [injection I as <- <-; reflexivity|]). contradiction.
Qed.

Lemma statement_meant e c st a b st1 st2 s p : In (e, c) copula_actions ->
  transform ord fresh st a = Ok (st1, VTerm s) -> transform ord fresh st1 b = Ok (st2, VTerm p) ->
  (wraps_subject c -> ~ set_compound s) -> (wraps_predicate c -> ~ set_compound p) ->
  transform ord fresh st (Node "statement" [a; Node e []; b]) = Ok (st2, VTerm (meant c s p)).
Proof.
  intros I A B S P. rewrite transform_node. cbn [transform_all]. rewrite A. cbn [bind].
  rewrite (copula_value _ _ _ I). cbn [bind]. rewrite B. cbn [bind].
  change (call ord fresh "statement" st2 (Some [VTerm s; VCopula c; VTerm p])) with
    (make_statement ord st2 (Some [VTerm s; VCopula c; VTerm p])).
  unfold make_statement. cbn [all_args bind arg nth_error as_term as_copula].
  destruct c; cbn [meant]; try reflexivity.
  - rewrite lone_set; [reflexivity|left; reflexivity|]. apply S. left. reflexivity.
  - rewrite lone_set; [reflexivity|right; reflexivity|]. apply P. left. reflexivity.
  - rewrite lone_set; [|left; reflexivity|apply S; right; reflexivity]. cbn [bind].
    rewrite lone_set; [reflexivity|right; reflexivity|]. apply P. right. reflexivity.
Qed.
End Copulas.

(* ---- whole numbers ---- *)

Lemma decimal_whole l n : whole l n -> exists neg m count, decimal (string_of_list_ascii l) = (neg, m, 0, count) /\
  0 <= m /\ 0 < count /\ n = (if neg then - m else m).
Proof.
  intros H. destruct H as [a N D|a N D].
  - exists false, (number a), (Z.of_nat (length a)).
    assert (L : 0 < Z.of_nat (length a)) by (destruct a; [contradiction|cbn [length]; lia]).
    split; [|split; [exact (number_nonneg _ D)|split; [exact L|reflexivity]]].
    unfold decimal. rewrite <- (app_nil_r a). rewrite no_sign by assumption.
    rewrite digits_append by exact D. cbn [string_of_list_ascii digits after_point]. rewrite app_nil_r. reflexivity.
  - exists true, (number a), (Z.of_nat (length a)).
    assert (L : 0 < Z.of_nat (length a)) by (destruct a; [contradiction|cbn [length]; lia]).
    split; [|split; [exact (number_nonneg _ D)|split; [exact L|reflexivity]]].
    unfold decimal. cbn [string_of_list_ascii sign]. change (Ascii.eqb "-" "-") with true. cbv iota.
    rewrite <- (app_nil_r a) at 1. rewrite digits_append by exact D.
    cbn [string_of_list_ascii digits after_point]. reflexivity.
Qed.

Lemma fmt_whole n : Z.abs n <= 2 ^ 53 -> fmt64 (IZR n).
Proof.
  intros B. destruct (Z.eq_dec (Z.abs n) (2 ^ 53)) as [E|E].
  - assert (F : fmt64 (IZR (2 ^ 53))).
    { change (IZR (2 ^ 53)) with (IZR (Zpower radix2 53)). rewrite IZR_Zpower by lia. apply (fmt_bpow 53 1024 53). unfold SpecFloat.emin. lia. }
    destruct (Z.abs_eq_or_opp n) as [Q|Q].
    + rewrite <- Q, E. exact F.
    + replace n with (- (2 ^ 53)) by lia. rewrite opp_IZR. apply fmt_opp. exact F.
  - apply generic_format_FLT with (prec := 53) (emin := -1074).
    exists (Float radix2 n 0).
    + unfold F2R. cbn [Fnum Fexp bpow]. rewrite Rmult_1_r. reflexivity.
    + cbn [Fnum]. change (Zpower radix2 53) with (2 ^ 53). lia.
    + cbn [Fexp]. lia.
Qed.

Lemma whole_signed neg m : signed neg (IZR m / IZR (10 ^ 0)) = IZR (if neg then - m else m).
Proof. change (10 ^ 0) with 1. destruct neg; cbn [signed]; rewrite ?opp_IZR; field. Qed.

Lemma no_underflow_whole m : 0 <= m -> underflow m 0 = false.
Proof.
  intros M. unfold underflow. change (10 ^ 0) with 1. rewrite Z.mod_1_r. rewrite andb_false_r. reflexivity.
Qed.

Lemma trunc_whole (x : float64) n : B2R x = IZR n -> Btrunc x = n.
Proof.
  intros E. apply eq_IZR. rewrite (Btrunc_correct 53 1024 emax64). rewrite E. apply round_generic; [apply valid_rnd_ZR|].
  apply generic_format_FIX. exists (Float radix2 n 0); [|reflexivity].
  unfold F2R. cbn [Fnum Fexp bpow]. rewrite Rmult_1_r. reflexivity.
Qed.

Lemma read_whole s n : whole (list_ascii_of_string s) n ->
  bind (stod s) truncated = (if (-2147483648 <=? n) && (n <=? 2147483647) then Ok n else UB) \/
  (Z.abs n > 2 ^ 53 /\ bind (stod s) truncated = Throw).
Proof.
  intros H. destruct (decimal_whole _ _ H) as (neg & m & count & D & M & C & E).
  rewrite string_of_list_ascii_of_string in D. unfold stod. rewrite D.
  replace (count =? 0) with false by (symmetry; apply Z.eqb_neq; lia).
  rewrite (no_underflow_whole _ M). rewrite finite64.
  destruct (nearest_value neg m 0 M ltac:(lia)) as [FI VA]. rewrite whole_signed, <- E in VA.
  destruct (Z.leb_spec (Z.abs n) (2 ^ 53)) as [SM|BG].
  - left. assert (F : is_finite (nearest neg m 0) = true).
    { apply FI. change (10 ^ 0) with 1. unfold Rdiv. rewrite Rinv_1, Rmult_1_r.
      assert (AM : Z.abs m <= 2 ^ 53) by (subst n; destruct neg; lia).
      rewrite rnd_id by (apply fmt_whole; exact AM). rewrite <- abs_IZR.
      apply Rle_lt_trans with (IZR (2 ^ 53)); [apply IZR_le; exact AM|].
      change (IZR (2 ^ 53)) with (IZR (Zpower radix2 53)). rewrite IZR_Zpower by lia. apply bpow_lt. lia. }
    rewrite F. cbn [bind]. unfold truncated. rewrite finite64, F. specialize (VA F).
    rewrite rnd_id in VA by (apply fmt_whole; exact SM). rewrite (trunc_whole _ _ VA). reflexivity.
  - destruct (is_finite (nearest neg m 0)) eqn:F; [|right; split; [lia|reflexivity]].
    left. cbn [bind]. unfold truncated. rewrite finite64, F. specialize (VA eq_refl).
    set (x := nearest neg m 0) in *. clearbody x.
    assert (T : 2 ^ 53 <= Z.abs (Btrunc x)).
    { assert (B : (IZR (2 ^ 53) <= Rabs (B2R x))%R).
      { rewrite VA. assert (FM : fmt64 (IZR (2 ^ 53))) by (apply fmt_whole; vm_compute; discriminate).
        destruct (Z.abs_eq_or_opp n) as [Q|Q].
        - apply Rle_trans with (2 := RRle_abs _). apply lb64; [apply IZR_le; lia|exact FM].
        - rewrite <- Rabs_Ropp. apply Rle_trans with (2 := RRle_abs _). apply Ropp_le_cancel. rewrite Ropp_involutive.
          apply ub64; [rewrite <- opp_IZR; apply IZR_le; lia|apply fmt_opp; exact FM]. }
      pose proof (Btrunc_correct 53 1024 emax64 x) as TC.
      assert (TZ : Btrunc x = Ztrunc (B2R x)).
      { apply eq_IZR. rewrite TC. rewrite round_FIX_IZR. reflexivity. }
      rewrite TZ. apply le_IZR. rewrite abs_IZR. 
      rewrite <- (Ztrunc_IZR (2 ^ 53)). rewrite <- abs_IZR, <- Ztrunc_abs. apply IZR_le. apply Ztrunc_le. exact B. }
    replace ((-2147483648 <=? Btrunc x) && (Btrunc x <=? 2147483647)) with false.
    2: { symmetry. apply andb_false_iff. destruct (Z.leb_spec (-2147483648) (Btrunc x)); [right; apply Z.leb_gt; lia|left; reflexivity]. }
    replace ((-2147483648 <=? n) && (n <=? 2147483647)) with false; [reflexivity|].
    symmetry. apply andb_false_iff. destruct (Z.leb_spec (-2147483648) n); [right; apply Z.leb_gt; lia|left; reflexivity].
Qed.

Lemma integer_whole w : matches integer w -> exists n, whole w n.
Proof.
  unfold integer. intros M. apply cat_inv in M. destruct M as (u & v & -> & O & P).
  apply plus_digits in P; try lia. destruct P as [D N].
  unfold opt in O. inversion O as [| | | |? ? ? A|? ? ? A| |]; subst.
  - inversion A; subst. cbn [app]. eexists. apply whole_plain; assumption.
  - apply chr_inv in A. destruct A as (c & -> & E).
    assert (c = "-"%char) as -> by (apply code_char; [exact E|vm_compute; lia]).
    cbn [app]. eexists. apply whole_minus; assumption.
Qed.

(* ---- ranges ---- *)

Lemma reads_unique l v w : reads l v -> reads l w -> v = w.
Proof.
  intros A B. destruct (decimal_value _ _ A) as (n & k & c & D & _ & _ & _ & ->).
  destruct (decimal_value _ _ B) as (n' & k' & c' & D' & _ & _ & _ & ->). rewrite D in D'.
  injection D' as <- <- <-. reflexivity.
Qed.

Lemma keeps_unit s x v : keeps s x -> reads (list_ascii_of_string s) v -> (0 <= v <= 1)%R ->
  is_finite x = true /\ (0 <= B2R x <= 1)%R.
Proof.
  intros (w & y & R & F & _ & E & ->) R' B. rewrite (reads_unique _ _ _ R R') in E.
  assert (F1 : fmt64 1) by (change 1%R with (bpow radix2 0); apply (fmt_bpow 53 1024 0); unfold SpecFloat.emin; lia).
  assert (G1 : fmt32 1) by (change 1%R with (bpow radix2 0); apply (fmt_bpow 24 128 0); unfold SpecFloat.emin; lia).
  assert (Y : (0 <= B2R y <= 1)%R).
  { rewrite E. change (round radix2 (FLT_exp (-1074) 53) ZnearestE) with rnd64. split.
    - apply lb64; [lra|apply fmt_0].
    - apply ub64; [lra|exact F1]. }
  destruct (to32_at y (B2R y) 0 ltac:(lia) (conj F eq_refl)) as [FX EX].
  { change (bpow radix2 0) with 1%R. rewrite Rabs_pos_eq by lra. lra. }
  split; [exact FX|]. rewrite EX. split.
  - apply lb32; [lra|apply fmt_0].
  - apply ub32; [lra|exact G1].
Qed.

Lemma keeps_natural s x n : keeps s x -> reads (list_ascii_of_string s) (IZR n) -> 1 <= n ->
  x = B754_infinity false \/ is_finite x = true /\ (1 <= B2R x)%R.
Proof.
  intros (w & y & R & F & SG & E & ->) R' B. rewrite (reads_unique _ _ _ R R') in E.
  assert (F1 : fmt64 1) by (change 1%R with (bpow radix2 0); apply (fmt_bpow 53 1024 0); unfold SpecFloat.emin; lia).
  assert (G1 : fmt32 1) by (change 1%R with (bpow radix2 0); apply (fmt_bpow 24 128 0); unfold SpecFloat.emin; lia).
  assert (Y : (1 <= B2R y)%R).
  { rewrite E. change (round radix2 (FLT_exp (-1074) 53) ZnearestE) with rnd64.
    apply lb64; [apply IZR_le in B; exact B|exact F1]. }
  destruct y as [s0|s0| |s0 m e BB]; try discriminate F; cbn [B2R] in Y; [exfalso; lra|].
  cbn in SG. subst s0. cbn [to32 cond_Zopp].
  pose proof (binary_normalize_correct 24 128 prec32 emax32 mode_NE (Zpos m) e false) as C. cbv zeta in C.
  change (F2R (Float radix2 (cond_Zopp false (Zpos m)) e)) with (F2R (Float radix2 (Zpos m) e)) in Y.
  change (round radix2 (SpecFloat.fexp 24 128) (round_mode mode_NE)) with rnd32 in C.
  set (z := binary_normalize _ _ _ _ _ _ _ _) in *. clearbody z.
  destruct (Rlt_bool _ _).
  - right. destruct C as (C1 & C2 & _). split; [exact C2|]. rewrite C1. apply lb32; [exact Y|exact G1].
  - left. rewrite Rlt_bool_false in C by lra. destruct z; try discriminate C. injection C as ->. reflexivity.
Qed.

Lemma within_kid n e kids : In n kids -> within n (Node e kids).
Proof. intros I. apply W_child with n; [exact I|constructor]. Qed.

Lemma within_trans a b c : within a b -> within b c -> within a c.
Proof. intros A B. induction B as [|name kids k I _ IH]; [exact A|]. apply W_child with k; assumption. Qed.

Lemma leaf_spelled e tok : good (Leaf e tok) -> spelled e tok.
Proof. intros G. inversion G. assumption. Qed.

Lemma one_range : (0 <= B2R (literal 1 1) <= 1)%R /\ is_finite (literal 1 1) = true /\ B2R (literal 1 1) = 1%R.
Proof.
  assert (E : B2SF (literal 1 1) = SpecFloat.S754_finite false 8388608 (-23)) by (vm_compute; reflexivity).
  assert (V : B2R (literal 1 1) = 1%R).
  { rewrite <- SF2R_B2SF, E. unfold SF2R, F2R. cbn [cond_Zopp Fnum Fexp bpow]. change (Z.pow_pos 2 23) with 8388608. 
    change (Zpower_pos radix2 23) with 8388608. lra. }
  split; [rewrite V; lra|]. split; [|exact V]. destruct (literal 1 1); try discriminate E; reflexivity.
Qed.

Lemma nine_range : is_finite (literal 9 10) = true /\ (0 < B2R (literal 9 10) < 1)%R.
Proof.
  assert (E : B2SF (literal 9 10) = SpecFloat.S754_finite false 15099494 (-24)) by (vm_compute; reflexivity).
  split; [destruct (literal 9 10); try discriminate E; reflexivity|].
  rewrite <- SF2R_B2SF, E. unfold SF2R, F2R. cbn [cond_Zopp Fnum Fexp bpow].
  change (Zpower_pos radix2 24) with 16777216. lra.
Qed.

Lemma truth_ranges ord fresh room input trees left st st' vs tk t :
  (match room with Some n => 1 <= n | None => True end)%nat ->
  parse room [] input = Ok (Accepted trees, left) ->
  transform_all ord fresh st trees = Ok (st', vs) -> vs = [VTask tk] -> truth_of (sentence_of tk) = Some t ->
  (is_finite (Truth.fr ieee t) = true /\ 0 <= B2R (Truth.fr ieee t : float32) <= 1)%R /\
  (is_finite (Truth.co ieee t) = true /\ 0 <= B2R (Truth.co ieee t : float32) <= 1)%R /\
  ((Truth.kk ieee t : float32) = B754_infinity false \/
   is_finite (Truth.kk ieee t) = true /\ (1 <= B2R (Truth.kk ieee t : float32))%R).
Proof.
  intros R P T EV ET. destruct (accepted_good _ _ _ _ R P) as (n & -> & G & L).
  destruct (parsed_task _ _ _ _ _ _ _ _ _ R P T) as (n' & tk' & E1 & E2 & _ & TT).
  injection E1 as <-. rewrite EV in E2. injection E2 as <-. clear EV.
  destruct TT as (bu & c & tense & tr & EN & _ & TT).
  assert (Q : exists t, truth_of (sentence_of tk) = Some t /\
        (tr = [] /\ t = Truth.Truth ieee (literal 1 1) (literal 9 10) (literal 1 1) \/
         exists f co k, 
           tr = [Node "truth" (Leaf "frequency" f :: optional "confidence" co ++ optional "k_evidence" k)] /\
           (co = None -> k = None) /\
           keeps f (Truth.fr ieee t) /\ kept co (literal 9 10) (Truth.co ieee t) /\
           kept k (literal 1 1) (Truth.kk ieee t))).
  { destruct (punct (sentence_of tk)); [exact TT| |exact TT|]; exfalso; rewrite (proj2 TT) in ET; discriminate ET. }
  clear TT. destruct Q as (t' & ET' & Q). rewrite ET in ET'. injection ET' as <-.
  destruct one_range as (O1 & O2 & O3). destruct nine_range as (N1 & N2).
  destruct Q as [[_ ->]|(f & co & k & -> & _ & KF & KC & KK)].
  - cbn [Truth.fr Truth.co Truth.kk]. split; [split; assumption|]. split; [split; [exact N1|lra]|].
    right. split; [exact O2|]. rewrite O3. lra.
  - assert (SP : forall e s, In (Leaf e s) (Leaf "frequency" f :: optional "confidence" co ++ optional "k_evidence" k) -> spelled e s).
    { intros e s I. apply leaf_spelled. refine (good_within _ _ _ G). rewrite EN.
      refine (within_trans _ _ _ (within_kid _ _ _ I) _).
      refine (within_trans _ _ _ (within_kid _ _ _ _) (within_kid _ "task" _ _)); [|apply in_or_app; right; left; reflexivity].
      right. apply in_or_app. right. left. reflexivity. }
    split; [|split].
    + destruct (spelled_unit "frequency" f ltac:(cbn; tauto) (SP _ _ (or_introl eq_refl))) as (v & RV & B).
      exact (keeps_unit _ _ _ KF RV B).
    + destruct co as [s|]; cbn [kept] in KC.
      * destruct (spelled_open "confidence" s ltac:(cbn; tauto)) as (v & RV & B).
        { apply SP. right. left. reflexivity. }
        apply (keeps_unit _ _ _ KC RV). lra.
      * rewrite KC. split; [exact N1|lra].
    + destruct k as [s|]; cbn [kept] in KK.
      * destruct (spelled_natural s) as (v & RV & B).
        { apply SP. right. apply in_or_app. right. left. reflexivity. }
        exact (keeps_natural _ _ _ KK RV B).
      * rewrite KK. right. split; [exact O2|]. rewrite O3. lra.
Qed.

(* ---- rejected inputs ---- *)

Lemma rejected_nothing ord fresh room st left input left' : pending st = [] ->
  parse room left input = Ok (Rejected, left') ->
  parse_task ord fresh room st left input = Ok (with_vars st [] [] [], left', None, false).
Proof.
  intros N P. unfold parse_task. rewrite P. cbn [bind]. unfold finish. cbn [pending with_vars]. rewrite N. reflexivity.
Qed.

Lemma finish_pending ord fresh st o st' v : pending st = [] -> finish ord fresh st o = Ok (st', v, false) -> pending st' = [].
Proof.
  intros N. unfold finish. cbv zeta. cbn [pending with_vars]. rewrite N.
  assert (G : forall l, match l with
    | [] => Ok (with_vars st [] [] [], None, false)
    | _ => match transform_all ord fresh (with_vars st [] [] []) l with
           | Ok (st, v :: _) => Ok (with_pending st [], Some v, false)
           | Ok (_, []) => UB
           | UB => UB
           | Throw => Ok (with_pending (with_vars st [] [] []) l, None, true)
           | OutOfFuel => OutOfFuel
           end
    end = Ok (st', v, false) -> pending st' = []).
  { intros [|a l] H.
    - injection H as <- _. cbn [pending with_vars]. exact N.
    - destruct (transform_all _ _ _ _) as [[st1 [|w ws]]| | |]; try discriminate H. injection H as <- _. reflexivity. }
  exact (G _).
Qed.

Lemma history_pending ord fresh room inputs : forall st left st' left', pending st = [] ->
  history ord fresh room st left inputs = Ok (st', left', false) -> pending st' = [].
Proof.
  induction inputs as [|s inputs IH]; intros st left st' left' N H; cbn [history] in H.
  - injection H as <- _. exact N.
  - unfold parse_task in H. destruct (parse room left s) as [[o l1]| | |]; cbn [bind] in H; try discriminate H.
    destruct (finish ord fresh st o) as [[[st1 v] thrown]| | |] eqn:F; cbn [bind] in H; try discriminate H.
    destruct (history ord fresh room st1 l1 inputs) as [[[st2 l2] thrown']| | |] eqn:Hy; cbn [bind] in H; try discriminate H.
    injection H as <- _ Q. apply orb_false_iff in Q. destruct Q as [-> ->].
    exact (IH _ _ _ _ (finish_pending _ _ _ _ _ _ N F) Hy).
Qed.

Lemma rejected_after ord fresh room inputs st left st1 left1 input left2 : pending st = [] ->
  history ord fresh room st left inputs = Ok (st1, left1, false) ->
  parse room left1 input = Ok (Rejected, left2) ->
  exists st2, parse_task ord fresh room st1 left1 input = Ok (st2, left2, None, false).
Proof.
  intros N H P. eexists. apply rejected_nothing; [|exact P]. exact (history_pending _ _ _ _ _ _ _ _ N H).
Qed.

(* ---- intervals and tenses ---- *)

Lemma interval_read ord fresh st s n : whole (list_ascii_of_string s) n ->
  transform ord fresh st (Node "interval" [Leaf "integer" s]) =
    (if (-2147483648 <=? n) && (n <=? 2147483647) then Ok (st, VTerm (Itv n)) else UB) \/
  (Z.abs n > 2 ^ 53 /\ transform ord fresh st (Node "interval" [Leaf "integer" s]) = Throw).
Proof.
  intros W.
  assert (E : transform ord fresh st (Node "interval" [Leaf "integer" s]) =
    bind (bind (stod s) truncated) (fun n => Ok (st, VTerm (Itv n)))).
  { transitivity (bind (bind (stod s) (fun x => Ok (st, VNumber x))) (fun '(st, v) => make_interval st (Some [v]))).
    - rewrite transform_node. cbn [transform_all].
      change (transform ord fresh st (Leaf "integer" s)) with (make_number st (Some [VText s])).
      unfold make_number. cbn [all_args bind arg nth_error as_text].
      destruct (stod s) as [x| | |]; reflexivity.
    - destruct (stod s) as [x| | |]; reflexivity. }
  rewrite E. destruct (read_whole _ _ W) as [Q|[B Q]]; rewrite Q.
  - left. destruct ((-2147483648 <=? n) && (n <=? 2147483647)); reflexivity.
  - right. split; [exact B|reflexivity].
Qed.

Lemma time_read ord fresh st s n : whole (list_ascii_of_string s) n ->
  transform ord fresh st (Node "tense_time" [Leaf "integer" s]) =
    (if (-2147483648 <=? n) && (n <=? 2147483647) then Ok (st, VTime n) else UB) \/
  (Z.abs n > 2 ^ 53 /\ transform ord fresh st (Node "tense_time" [Leaf "integer" s]) = Throw).
Proof.
  intros W.
  assert (E : transform ord fresh st (Node "tense_time" [Leaf "integer" s]) =
    bind (bind (stod s) truncated) (fun n => Ok (st, VTime n))).
  { transitivity (bind (bind (stod s) (fun x => Ok (st, VNumber x))) (fun '(st, v) => make_time st (Some [v]))).
    - rewrite transform_node. cbn [transform_all].
      change (transform ord fresh st (Leaf "integer" s)) with (make_number st (Some [VText s])).
      unfold make_number. cbn [all_args bind arg nth_error as_text].
      destruct (stod s) as [x| | |]; reflexivity.
    - destruct (stod s) as [x| | |]; reflexivity. }
  rewrite E. destruct (read_whole _ _ W) as [Q|[B Q]]; rewrite Q.
  - left. destruct ((-2147483648 <=? n) && (n <=? 2147483647)); reflexivity.
  - right. split; [exact B|reflexivity].
Qed.

(* ---- numbering, for accepted inputs ---- *)

Lemma accepted_numbering ord fresh room input n left st k st1 kids st2 v :
  (match room with Some n => 1 <= n | None => True end)%nat ->
  parse room [] input = Ok (Accepted [n], left) -> table k st = [] ->
  visits ord fresh st n st1 (Node (variable_name k) kids) ->
  transform ord fresh st1 (Node (variable_name k) kids) = Ok (st2, v) ->
  exists e s i, kids = [Leaf e s] /\ v = VTerm (Var k (Z.of_nat i)) /\
    nth_error (firsts (names k n)) i = Some s.
Proof.
  intros R P. destruct (accepted_good _ _ _ _ R P) as (n' & E & G & _). injection E as <-.
  exact (numbering ord fresh n st k st1 kids st2 v G).
Qed.

Lemma accepted_same_name ord fresh room input n left st k st1 e1 s1 st2 i1 st3 e2 s2 st4 i2 :
  (match room with Some n => 1 <= n | None => True end)%nat ->
  parse room [] input = Ok (Accepted [n], left) -> table k st = [] ->
  visits ord fresh st n st1 (Node (variable_name k) [Leaf e1 s1]) ->
  transform ord fresh st1 (Node (variable_name k) [Leaf e1 s1]) = Ok (st2, VTerm (Var k i1)) ->
  visits ord fresh st n st3 (Node (variable_name k) [Leaf e2 s2]) ->
  transform ord fresh st3 (Node (variable_name k) [Leaf e2 s2]) = Ok (st4, VTerm (Var k i2)) ->
  (i1 = i2 <-> s1 = s2).
Proof.
  intros R P N V1 T1 V2 T2.
  destruct (accepted_numbering _ _ _ _ _ _ _ _ _ _ _ _ R P N V1 T1) as (e & s & i & E & EV & X1).
  destruct (accepted_numbering _ _ _ _ _ _ _ _ _ _ _ _ R P N V2 T2) as (e' & s' & j & E' & EV' & X2).
  injection E as <- <-. injection E' as <- <-. injection EV as ->. injection EV' as ->.
  split.
  - intros Q. apply Nat2Z.inj in Q. subst j. rewrite X1 in X2. injection X2 as ->. reflexivity.
  - intros <-. f_equal. eapply NoDup_nth_error.
    + exact (firsts_NoDup (names k n)).
    + apply nth_error_Some. rewrite X1. discriminate.
    + rewrite X1, X2. reflexivity.
Qed.

Lemma accepted_afresh ord fresh room input n left left1 st st' v k :
  (match room with Some n => 1 <= n | None => True end)%nat ->
  parse room [] input = Ok (Accepted [n], left) ->
  parse_task ord fresh room st [] input = Ok (st', left1, Some v, false) ->
  forall s i, Maps.lookup String.eqb (vk_repr k ++ s)%string (table k st') = Some i <->
    exists j, i = Z.of_nat j /\ nth_error (firsts (names k n)) j = Some s.
Proof.
  intros R P H. destruct (accepted_good _ _ _ _ R P) as (n' & E & G & _). injection E as <-.
  unfold parse_task in H. rewrite P in H. cbn [bind] in H. unfold finish in H. cbv zeta in H. cbn [transform_all] in H.
  destruct (transform ord fresh (with_vars st [] [] []) n) as [[st1 v1]| | |] eqn:T; cbn [bind] in H; try discriminate H.
  assert (Q : table k st' = table k st1).
  { injection H as <- _ _. destruct k; reflexivity. }
  rewrite Q. apply (final_tables ord fresh n (with_vars st [] [] []) st1 v1 k G); [destruct k; reflexivity|exact T].
Qed.
