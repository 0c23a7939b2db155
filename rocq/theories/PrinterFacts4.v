(* Printed numbers are correctly rounded decimals. *)
From Coq Require Import ZArith Bool Reals Lra Lia String Ascii List.
From Flocq Require Import Core BinarySingleNaN.
From Verif Require Import Base Enums Term Float NumeralSpec Actions Printer PrinterSpec PrinterFacts.
From Verif Require Evidence Truth.
Import ListNotations.
Open Scope string_scope.
Open Scope list_scope.
Local Open Scope Z_scope.

Lemma nearest_even_correct a b : 0 < b -> nearest_even a b = ZnearestE (IZR a / IZR b).
Proof.
  intros B. assert (Bp : (0 < IZR b)%R) by (apply (IZR_lt 0); exact B).
  pose proof (Z.div_mod a b ltac:(lia)) as D. pose proof (Z.mod_pos_bound a b B) as M.
  assert (Fl : Zfloor (IZR a / IZR b) = a / b) by (apply Zfloor_div; lia).
  assert (X : (IZR a / IZR b - IZR (a / b) = IZR (a mod b) / IZR b)%R).
  { rewrite D at 1. rewrite plus_IZR, mult_IZR. field. lra. }
  unfold nearest_even, Znearest. rewrite Fl, X.
  destruct (Z.ltb_spec (2 * (a mod b)) b) as [L|L].
  - apply IZR_lt in L. rewrite mult_IZR in L. rewrite Rcompare_Lt; [reflexivity|].
    apply Rmult_lt_reg_r with (IZR b); [exact Bp|]. unfold Rdiv. rewrite Rmult_assoc, Rinv_l by lra. lra.
  - assert (Ce : a mod b <> 0 -> Zceil (IZR a / IZR b) = a / b + 1).
    { intros N. rewrite Zceil_floor_neq; [rewrite Fl; reflexivity|]. rewrite Fl. intros E.
      assert (Z0 : (IZR (a mod b) / IZR b = 0)%R) by (rewrite <- X, <- E; ring).
      apply N, eq_IZR. apply Rmult_eq_reg_r with (/ IZR b)%R; [|apply Rinv_neq_0_compat; lra]. rewrite Rmult_0_l. exact Z0. }
    destruct (Z.ltb_spec b (2 * (a mod b))) as [G|G].
    + rewrite Ce by lia. apply IZR_lt in G. rewrite mult_IZR in G. rewrite Rcompare_Gt; [reflexivity|].
      apply Rmult_lt_reg_r with (IZR b); [exact Bp|]. unfold Rdiv. rewrite Rmult_assoc, Rinv_l by lra. lra.
    + assert (E : 2 * (a mod b) = b) by lia. rewrite Ce by lia. apply (f_equal IZR) in E. rewrite mult_IZR in E.
      rewrite Rcompare_Eq; [destruct (Z.even (a / b)); reflexivity|]. rewrite <- E. field. lra.
Qed.

Lemma padded_chars k : forall n s, 0 <= n -> exists l, chars (padded k n s) = l ++ chars s /\ length l = k /\
  Forall decimal_digit l /\ number l = n mod 10 ^ Z.of_nat k.
Proof.
  induction k as [|k IH]; intros n s N.
  - exists []. split; [reflexivity|]. split; [reflexivity|]. split; [constructor|]. cbn. rewrite Z.mod_1_r. reflexivity.
  - cbn [padded]. destruct (IH (n / 10) (String (digit_char (n mod 10)) s)) as (l & C & L & F & V); [apply Z.div_pos; lia|].
    pose proof (Z.mod_pos_bound n 10 ltac:(lia)) as B.
    exists (l ++ [digit_char (n mod 10)]). split; [rewrite C, <- app_assoc; reflexivity|].
    split; [rewrite app_length, L; cbn; lia|]. split.
    + apply Forall_app. split; [exact F|]. constructor; [|constructor]. unfold decimal_digit.
      pose proof (digit_char_code (n mod 10) ltac:(lia)). lia.
    + rewrite number_snoc, V, digit_char_code by lia. rewrite Nat2Z.inj_succ, Z.pow_succ_r by lia.
      rewrite Z.rem_mul_r by (try apply Z.pow_pos_nonneg; lia). lia.
Qed.

Lemma fixed_shape k n sign : 0 <= n -> exists a b,
  chars (sign ++ natural 10 (n / 10 ^ Z.of_nat k) ++ "." ++ padded k (n mod 10 ^ Z.of_nat k) "") = chars sign ++ a ++ "."%char :: b /\
  length b = k /\ (a = ["0"%char] \/ exists c a', a = c :: a' /\ c <> "0"%char) /\
  reads (a ++ "."%char :: b) (IZR n / 10 ^ k).
Proof.
  intros N. set (p := 10 ^ Z.of_nat k). assert (P : 0 < p) by (apply Z.pow_pos_nonneg; lia).
  pose proof (Z.mod_pos_bound n p P) as B.
  destruct (natural_numeral (n / p) (Z.div_pos _ _ N P)) as (F & V & S).
  destruct (padded_chars k (n mod p) "" ltac:(lia)) as (b & C & L & D & W). fold p in W.
  exists (chars (natural 10 (n / p))), b. split; [|split; [exact L|split]].
  - rewrite !chars_app, C. cbn. rewrite app_nil_r. reflexivity.
  - destruct S as [ -> |(c & s & -> & Nc)]; [left; reflexivity|]. right. exists c, (chars s). split; [reflexivity|exact Nc].
  - assert (E : (IZR n / 10 ^ k = IZR (number (chars (natural 10 (n / p)))) + IZR (number b) / 10 ^ length b)%R).
    { rewrite L, V, W, Zmod_mod. assert (Q : (10 ^ k = IZR p)%R) by (unfold p; rewrite <- pow_IZR; reflexivity). rewrite Q.
      assert (Pp : (0 < IZR p)%R) by (apply (IZR_lt 0); exact P).
      pose proof (Z.div_mod n p ltac:(lia)) as X. apply (f_equal IZR) in X. rewrite plus_IZR, mult_IZR in X. rewrite X. field. lra. }
    rewrite E. apply reads_point; [|exact F|exact D].
    destruct S as [ -> |(c & s & -> & _)]; discriminate.
Qed.

Theorem fixed_decimal k (x : float32) : is_finite x = true -> decimal k x (fixed k x).
Proof.
  intros F. destruct x as [s|s| |s m e BB]; try discriminate F; cbn [fixed Bsign].
  - destruct (fixed_shape k 0 (if s then "-" else "")%string ltac:(lia)) as (a & b & C & L & S & R). exists a, b.
    rewrite Z.div_0_l, Z.mod_0_l in C by (apply Z.pow_nonzero; lia). split.
    + etransitivity; [exact C|]. destruct s; reflexivity.
    + split; [exact L|]. split; [exact S|]. cbn [B2R]. rewrite Rabs_R0, Rmult_0_l. change 0%R with (IZR 0).
      rewrite Zrnd_IZR by apply valid_rnd_N. exact R.
  - set (p := 10 ^ Z.of_nat k). assert (Q : (10 ^ k = IZR p)%R) by (unfold p; rewrite <- pow_IZR; reflexivity).
    set (n := if 0 <=? e then Z.pos m * 2 ^ e * p else nearest_even (Z.pos m * p) (2 ^ - e)).
    assert (E : n = ZnearestE (Rabs (B2R (B754_finite s m e BB)) * 10 ^ k)).
    { cbn [B2R]. rewrite <- F2R_Zabs, abs_cond_Zopp. cbn [Z.abs]. unfold F2R. cbn [Fnum Fexp]. rewrite Q. unfold n.
      destruct (Z.leb_spec 0 e) as [P|P].
      - rewrite <- IZR_Zpower by exact P. rewrite <- !mult_IZR, Zrnd_IZR by apply valid_rnd_N. reflexivity.
      - rewrite nearest_even_correct by (apply Z.pow_pos_nonneg; lia). f_equal.
        assert (X : bpow radix2 e = (/ IZR (2 ^ - e))%R).
        { change (2 ^ - e) with (Z.pow (radix_val radix2) (- e)). rewrite IZR_Zpower by lia. rewrite bpow_opp, Rinv_inv. reflexivity. }
        rewrite X, mult_IZR. unfold Rdiv. ring. }
    assert (N : 0 <= n).
    { unfold n. assert (P : 0 < p) by (apply Z.pow_pos_nonneg; lia). destruct (Z.leb_spec 0 e) as [L|L].
      - pose proof (Z.pow_nonneg 2 e ltac:(lia)). nia.
      - assert (B : 0 < 2 ^ - e) by (apply Z.pow_pos_nonneg; lia). unfold nearest_even.
        assert (0 <= Z.pos m * p / 2 ^ - e) by (apply Z.div_pos; nia).
        destruct (_ <? _); [|destruct (_ <? _); [|destruct (Z.even _)]]; lia. }
    destruct (fixed_shape k n (if s then "-" else "")%string N) as (a & b & C & L & S & R). exists a, b.
    split; [etransitivity; [exact C|]; destruct s; reflexivity|]. split; [exact L|]. split; [exact S|]. rewrite <- E. exact R.
Qed.

(** * Truth values *)

Lemma format_sentence a b c d : format "{}{} {}{}" [AText a; AText b; AText c; AText d] = Ok (a ++ b ++ " " ++ c ++ d)%string.
Proof. unfold format. cbn. rewrite ?app_empty. reflexivity. Qed.

Lemma format_truth f c : format "%{:.3f};{:.3f}%" [AFloat f; AFloat c] = Ok ("%" ++ fixed 3 f ++ ";" ++ fixed 3 c ++ "%")%string.
Proof. unfold format. cbn -[fixed]. rewrite ?app_empty. reflexivity. Qed.

Lemma format_tense a : format "{} " [AText a] = Ok (a ++ " ")%string.
Proof. unfold format. cbn. rewrite ?app_empty. reflexivity. Qed.

Theorem truth_shown names st s t w : punct s = Judgement \/ punct s = Goal -> truth_of s = Some t ->
  is_finite (Truth.fr ieee t : float32) = true -> is_finite (Truth.co ieee t : float32) = true ->
  interpret_sentence names false st s = Ok w ->
  exists before f c, w = (before ++ "%" ++ f ++ ";" ++ c ++ "%")%string /\
    decimal 3 (Truth.fr ieee t : float32) f /\ decimal 3 (Truth.co ieee t : float32) c.
Proof.
  intros P T F C E. unfold interpret_sentence in E. destruct (interpret names false (content s)) as [u| | |]; try discriminate E. cbn [bind] in E.
  assert (X : interpret_truth false s = Ok ("%" ++ fixed 3 (Truth.fr ieee t) ++ ";" ++ fixed 3 (Truth.co ieee t) ++ "%")%string).
  { unfold interpret_truth. rewrite T, format_truth. destruct P as [ -> | -> ]; reflexivity. }
  rewrite X in E. cbn [bind] in E.
  assert (Y : exists v, (if Evidence.is_eternal (stamp_of s) then Ok "" else format "{} " [AText (tense_repr (Evidence.tense_of cfg_temporal_duration st (stamp_of s)))]) = Ok v).
  { destruct (Evidence.is_eternal (stamp_of s)); [eexists; reflexivity|]. rewrite format_tense. eexists. reflexivity. }
  destruct Y as (v & Y). rewrite Y in E. cbn [bind] in E. rewrite format_sentence in E.
  assert (W : forall a b : string, Ok a = Ok b -> b = a) by (intros a b Q; congruence). apply W in E. rewrite E. clear W E.
  exists (u ++ punct_repr (punct s) ++ " " ++ v)%string, (fixed 3 (Truth.fr ieee t)), (fixed 3 (Truth.co ieee t)).
  split; [|split; apply fixed_decimal; assumption].
  apply chars_inj. rewrite !chars_app, <- !app_assoc. reflexivity.
Qed.
