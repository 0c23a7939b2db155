(* What Python shows of a Budget and of a Truth *)
From Coq Require Import ZArith Bool Reals Lra Lia String Ascii List.
From Flocq Require Import Core BinarySingleNaN.
From Verif Require Import Base Enums Term Float Truth NumeralSpec Actions Printer PrinterSpec PrinterFacts PrinterFacts2 PrinterFacts4.
From Verif Require Import Api Shown ShownSpec.
From Verif Require Evidence.
Import ListNotations.
Open Scope string_scope.
Open Scope list_scope.
Local Open Scope Z_scope.

Definition scaled (k : nat) (m : positive) (e : Z) : Z :=
  let p := 10 ^ Z.of_nat k in if 0 <=? e then Z.pos m * 2 ^ e * p else nearest_even (Z.pos m * p) (2 ^ - e).

Lemma scaled_nearest k prec emax s m e (BB : SpecFloat.bounded prec emax m e = true) :
  scaled k m e = ZnearestE (Rabs (B2R (B754_finite s m e BB)) * 10 ^ k).
Proof.
  set (p := 10 ^ Z.of_nat k). assert (Q : (10 ^ k = IZR p)%R) by (unfold p; rewrite <- pow_IZR; reflexivity).
  cbn [B2R]. rewrite <- F2R_Zabs, abs_cond_Zopp. cbn [Z.abs]. unfold F2R. cbn [Fnum Fexp]. rewrite Q. unfold scaled. fold p. cbv zeta.
  destruct (Z.leb_spec 0 e) as [P|P].
  - rewrite <- IZR_Zpower by exact P. rewrite <- !mult_IZR, Zrnd_IZR by apply valid_rnd_N. reflexivity.
  - rewrite nearest_even_correct by (apply Z.pow_pos_nonneg; lia). f_equal.
    assert (X : bpow radix2 e = (/ IZR (2 ^ - e))%R).
    { change (2 ^ - e) with (Z.pow (radix_val radix2) (- e)). rewrite IZR_Zpower by lia. rewrite bpow_opp, Rinv_inv. reflexivity. }
    rewrite X, mult_IZR. unfold Rdiv. ring.
Qed.

Lemma scaled_positive k m e : 0 <= scaled k m e.
Proof.
  unfold scaled. set (p := 10 ^ Z.of_nat k). assert (P : 0 < p) by (apply Z.pow_pos_nonneg; lia). cbv zeta. destruct (Z.leb_spec 0 e) as [L|L].
  - pose proof (Z.pow_nonneg 2 e ltac:(lia)). nia.
  - assert (B : 0 < 2 ^ - e) by (apply Z.pow_pos_nonneg; lia). unfold nearest_even.
    assert (0 <= Z.pos m * p / 2 ^ - e) by (apply Z.div_pos; nia).
    destruct (_ <? _); [|destruct (_ <? _); [|destruct (Z.even _)]]; lia.
Qed.

Theorem places_decimal k prec emax (x : binary_float prec emax) : is_finite x = true -> decimal k x (places k x).
Proof.
  intros F. destruct x as [s|s| |s m e BB]; try discriminate F; cbn [places Bsign].
  - destruct (fixed_shape k 0 (if s then "-" else "")%string ltac:(lia)) as (a & b & C & L & S & R). exists a, b.
    rewrite Z.div_0_l, Z.mod_0_l in C by (apply Z.pow_nonzero; lia). split.
    + etransitivity; [exact C|]. destruct s; reflexivity.
    + split; [exact L|]. split; [exact S|]. cbn [B2R]. rewrite Rabs_R0, Rmult_0_l. change 0%R with (IZR 0).
      rewrite Zrnd_IZR by apply valid_rnd_N. exact R.
  - pose proof (scaled_nearest k prec emax s m e BB) as E.
    destruct (fixed_shape k (scaled k m e) (if s then "-" else "")%string (scaled_positive k m e)) as (a & b & C & L & S & R). exists a, b.
    split; [etransitivity; [exact C|]; destruct s; reflexivity|]. split; [exact L|]. split; [exact S|]. rewrite <- E. exact R.
Qed.

Lemma places_two prec emax (x : binary_float prec emax) : two_places x (places 2 x).
Proof.
  pose proof (places_decimal 2 prec emax x) as P. destruct x as [s|s| |s m e BB]; try reflexivity; apply P; reflexivity.
Qed.

(** * Texts of objects *)

Theorem budget_shown ord fresh room short own st rest b : exists x y z,
  evaluate ord fresh room (library_text short own) st rest (Call "repr" [Literal (PyBudget b)]) =
    Ok (st, rest, Returned (PyStr ("<Budget: $" ++ x ++ ";" ++ y ++ ";" ++ z ++ "$>")%string)) /\
  two_places (priority b) x /\ two_places (durability b) y /\ two_places (Actions.quality b) z.
Proof. do 3 eexists. split; [reflexivity|]. repeat split; apply places_two. Qed.

Theorem truth_shown_two ord fresh room short own st rest t : exists x y,
  evaluate ord fresh room (library_text short own) st rest (Call "repr" [Literal (PyTruth t)]) =
    Ok (st, rest, Returned (PyStr ("<Truth: %" ++ x ++ ", " ++ y ++ "% (k=" ++ short (kk ieee t) ++ ")>")%string)) /\
  two_places (fr ieee t : float32) x /\ two_places (co ieee t : float32) y.
Proof. do 2 eexists. split; [reflexivity|]. split; apply places_two. Qed.

(** * Budgets of objects and of tasks *)

Lemma hundredths_text n : 0 <= n <= 100 -> (natural 10 (n / 10 ^ 2) ++ "." ++ padded 2 (n mod 10 ^ 2) "")%string = hundredths n.
Proof.
  intros B. assert (X : forallb (fun n => String.eqb (natural 10 (n / 10 ^ 2) ++ "." ++ padded 2 (n mod 10 ^ 2) "")%string (hundredths n))
    (map Z.of_nat (seq 0 101)) = true) by (vm_compute; reflexivity).
  rewrite forallb_forall in X. apply String.eqb_eq, X, in_map_iff. exists (Z.to_nat n). split; [lia|]. apply in_seq. lia.
Qed.

Lemma unit_places prec emax (x : binary_float prec emax) : in_unit x ->
  unit_text (places 2 x) (ZnearestE (B2R x * 100)).
Proof.
  intros [F B]. destruct x as [s|s| |s m e BB]; try discriminate F.
  - cbn [B2R places]. rewrite Rmult_0_l. change 0%R with (IZR 0). rewrite Zrnd_IZR by apply valid_rnd_N.
    split; [lia|]. destruct s; [right; split; reflexivity|left; reflexivity].
  - pose proof (scaled_nearest 2 prec emax s m e BB) as E. set (v := B2R (B754_finite s m e BB)) in *.
    rewrite Rabs_pos_eq in E by lra. replace (10 ^ 2)%R with 100%R in E by ring. rewrite <- E.
    assert (G : s = false).
    { destruct s; [|reflexivity]. exfalso. assert (v < 0)%R; [|lra]. unfold v. cbn [B2R]. apply F2R_lt_0. reflexivity. }
    assert (L : 0 <= scaled 2 m e <= 100).
    { split; [apply scaled_positive|]. rewrite E. apply Z.le_trans with (ZnearestE (IZR 100)); [apply Zrnd_le; [apply valid_rnd_N|lra]|].
      rewrite Zrnd_IZR by apply valid_rnd_N. lia. }
    split; [exact L|]. left. subst s. change (places 2 (B754_finite false m e BB)) with
      (natural 10 (scaled 2 m e / 10 ^ 2) ++ "." ++ padded 2 (scaled 2 m e mod 10 ^ 2) "")%string. apply hundredths_text, L.
Qed.

Lemma nearest_half r : (Rabs (IZR (ZnearestE r) - r) <= 1 / 2)%R.
Proof. pose proof (Znearest_half (fun x => negb (Z.even x)) r) as H. unfold Rabs in *. repeat destruct Rcase_abs; lra. Qed.

Lemma near_bound v h : near_two v h -> (Rabs (IZR h - v * 100) <= 551 / 1000)%R.
Proof.
  intros (n & B & D & N). assert (N1 : -5 <= 10 * h - n <= 5) by lia. destruct N1 as [N1 N2].
  apply IZR_le in N1, N2. rewrite minus_IZR, mult_IZR in N1, N2.
  unfold Rabs in *. repeat destruct Rcase_abs; lra.
Qed.

Lemma close_integers (a b : Z) (r : R) : (-2 < r < 2)%R -> IZR a = (IZR b + r)%R -> Z.abs (a - b) <= 1.
Proof.
  intros B E. assert (X : (IZR (a - b) = r)%R) by (rewrite minus_IZR; lra).
  assert (-2 < a - b) by (apply lt_IZR; lra). assert (a - b < 2) by (apply lt_IZR; lra). lia.
Qed.

Lemma same_integer (a b : Z) : (Rabs (IZR a - IZR b) < 1)%R -> a = b.
Proof.
  intros B. rewrite <- minus_IZR, <- abs_IZR in B. apply lt_IZR in B. lia.
Qed.

Lemma both prec emax (x : binary_float prec emax) s : in_unit x -> shows x s ->
  about (places 2 x) s /\ forall m, clearly x m -> unit_text (places 2 x) m /\ unit_text s m.
Proof.
  intros U (h & T & V). pose proof (unit_places _ _ x U) as P. destruct U as [F B].
  assert (N : near_two (B2R x) h) by (destruct x; try discriminate F; apply (proj2 (proj2 V)), B).
  pose proof (near_bound _ _ N) as X. pose proof (nearest_half (B2R x * 100)) as Y.
  set (z := ZnearestE (B2R x * 100)) in *. split.
  - exists z, h. split; [exact P|]. split; [exact T|]. apply (close_integers z h (IZR z - IZR h)); [|ring].
    unfold Rabs in *. repeat destruct Rcase_abs; lra.
  - intros m C. unfold clearly in C.
    assert (E1 : z = m) by (apply same_integer; unfold Rabs in *; repeat destruct Rcase_abs; lra).
    assert (E2 : h = m) by (apply same_integer; unfold Rabs in *; repeat destruct Rcase_abs; lra).
    rewrite E1 in P. rewrite E2 in T. split; assumption.
Qed.

Lemma text_assoc (a b c : string) : ((a ++ b) ++ c = a ++ b ++ c)%string.
Proof. induction a as [|x a IH]; [reflexivity|]. cbn. rewrite IH. reflexivity. Qed.

Theorem budgets_agree ord fresh room short own st rest t w : interpret_sentence (dictionary_of (Interning.tab (atoms st))) false (store st) (sentence_of t) = Ok w ->
  in_unit (priority (budget_of t)) -> in_unit (durability (budget_of t)) -> in_unit (Actions.quality (budget_of t)) ->
  exists a b c x y z,
  evaluate ord fresh room (library_text short own) st rest (Call "__repr__" [Literal (PyTask t); Literal PyNone]) =
    Ok (st, rest, Returned (PyStr ("<Task: $" ++ a ++ ";" ++ b ++ ";" ++ c ++ "$ " ++ w ++ ">")%string)) /\
  evaluate ord fresh room (library_text short own) st rest (Call "repr" [Literal (PyBudget (budget_of t))]) =
    Ok (st, rest, Returned (PyStr ("<Budget: $" ++ x ++ ";" ++ y ++ ";" ++ z ++ "$>")%string)) /\
  about x a /\ about y b /\ about z c /\
  (forall m, clearly (priority (budget_of t)) m -> unit_text x m /\ unit_text a m) /\
  (forall m, clearly (durability (budget_of t)) m -> unit_text y m /\ unit_text b m) /\
  (forall m, clearly (Actions.quality (budget_of t)) m -> unit_text z m /\ unit_text c m).
Proof.
  intros S P D Q. destruct (task_text _ _ _ _ S) as (a & b & c & E & A & B & C).
  pose proof (both _ _ _ _ P A) as [P1 P2]. pose proof (both _ _ _ _ D B) as [D1 D2]. pose proof (both _ _ _ _ Q C) as [Q1 Q2].
  exists a, b, c. do 3 eexists. split; [|split; [reflexivity|]].
  - cbn [evaluate bind]. unfold call_function. cbn [String.eqb Ascii.eqb Bool.eqb call_repr shown]. rewrite E. cbn [bind].
    rewrite !text_assoc. reflexivity.
  - exact (conj P1 (conj D1 (conj Q1 (conj P2 (conj D2 Q2))))).
Qed.
