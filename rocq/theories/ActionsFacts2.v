(* Budgets and truth values as written. *)
From Coq Require Import ZArith String Ascii List Bool Reals Lra Lia.
From Flocq Require Import Core BinarySingleNaN.
From Verif Require Import Base Enums Term Compound Maps Float FloatFacts Truth Numeral NumeralSpec NumeralFacts.
From Verif Require Import Parser Grammar Actions ActionsSpec AstFacts ActionsFacts.
From Verif Require Evidence.
Import ListNotations.
Open Scope string_scope.
Open Scope Z_scope.
Open Scope list_scope.

(* ---- the values of lexemes ---- *)

Lemma code_small c x : 0 <= x < 128 -> code c = x -> Z.of_nat (nat_of_ascii c) = x.
Proof.
  intros B. unfold code. cbv zeta. set (n := Z.of_nat (nat_of_ascii c)).
  pose proof (nat_ascii_bounded c) as H. intros E. destruct (n <? 128) eqn:L; [exact E|]. apply Z.ltb_ge in L. lia.
Qed.

Lemma in_one x c : in_ranges [(x, x)] (code c) = true -> code c = x.
Proof. unfold in_ranges. cbn [existsb fst snd]. rewrite orb_false_r. intros H. apply andb_true_iff in H. lia. Qed.

Lemma in_range x y c : in_ranges [(x, y)] (code c) = true -> x <= code c <= y.
Proof. unfold in_ranges. cbn [existsb fst snd]. rewrite orb_false_r. intros H. apply andb_true_iff in H. lia. Qed.

Lemma digit_code c : 48 <= code c <= 57 -> decimal_digit c.
Proof.
  intros H. unfold decimal_digit. rewrite (code_small c (code c)) by lia. exact H.
Qed.

Lemma chr_inv x w : matches (chr x) w -> exists c, w = [c] /\ code c = x.
Proof. intros M. inversion M; subst. exists c. split; [reflexivity|apply in_one; assumption]. Qed.

Lemma star_digits x y w : 48 <= x -> y <= 57 -> matches (Star (Range [(x, y)])) w -> Forall decimal_digit w.
Proof.
  intros X Y M. remember (Star (Range [(x, y)])) as r eqn:R. induction M; try discriminate R; [constructor|].
  injection R as ->. apply Forall_app. split; [|exact (IHM2 eq_refl)].
  inversion M1; subst. constructor; [|constructor]. apply digit_code.
  match goal with H : in_ranges _ _ = true |- _ => apply in_range in H end. lia.
Qed.

Lemma plus_digits x y w : 48 <= x -> y <= 57 -> matches (plus (Range [(x, y)])) w -> Forall decimal_digit w /\ w <> [].
Proof.
  intros X Y M. unfold plus in M. inversion M as [| | |? ? u v A B| | | |]; subst.
  inversion A as [|? c I| | | | | |]; subst. split.
  - constructor; [|exact (star_digits _ _ _ X Y B)]. apply digit_code. apply in_range in I. lia.
  - discriminate.
Qed.

Lemma code_char c d : code c = code d -> (nat_of_ascii d < 128)%nat -> c = d.
Proof.
  intros E L. assert (H : Z.of_nat (nat_of_ascii d) = code d).
  { unfold code. cbv zeta. replace (Z.of_nat (nat_of_ascii d) <? 128) with true; [reflexivity|]. symmetry. apply Z.ltb_lt. lia. }
  assert (G : Z.of_nat (nat_of_ascii c) = code d).
  { apply code_small; [lia|exact E]. }
  rewrite <- (ascii_nat_embedding c), <- (ascii_nat_embedding d). f_equal. lia.
Qed.

Lemma opt_zero w : matches (opt (chr 48)) w -> Forall decimal_digit w /\ number w = 0.
Proof.
  unfold opt. intros M. inversion M as [| | | |? ? ? A|? ? ? A| |]; subst.
  - inversion A; subst. split; [constructor|reflexivity].
  - apply chr_inv in A. destruct A as (c & -> & E).
    assert (c = "0"%char) as -> by (apply code_char; [exact E|vm_compute; lia]).
    split; [|reflexivity]. constructor; [|constructor]. apply digit_code. vm_compute. split; discriminate.
Qed.

Lemma cat_inv a b w : matches (Cat a b) w -> exists u v, w = u ++ v /\ matches a u /\ matches b v.
Proof. intros M. inversion M; subst. do 2 eexists. split; [reflexivity|]. split; eassumption. Qed.

Lemma point_inv w : matches (chr 46) w -> w = ["."%char].
Proof.
  intros M. apply chr_inv in M. destruct M as (c & -> & E).
  rewrite (code_char c "."%char); [reflexivity|exact E|vm_compute; lia].
Qed.

Lemma star_zero w : matches (Star (chr 48)) w -> Forall decimal_digit w /\ number w = 0.
Proof.
  intros M. split; [exact (star_digits 48 48 w ltac:(lia) ltac:(lia) M)|].
  unfold number. assert (G : fold_left (fun n c => 10 * n + (Z.of_nat (nat_of_ascii c) - 48)) w 0 = 0); [|exact G].
  remember (Star (chr 48)) as r eqn:R. induction M; try discriminate R; [reflexivity|].
  injection R as ->. apply chr_inv in M1. destruct M1 as (c & -> & E).
  cbn [app fold_left]. rewrite (code_small c 48) by (lia || exact E). exact (IHM2 eq_refl).
Qed.

Lemma number_bound b : Forall decimal_digit b -> number b < 10 ^ Z.of_nat (length b).
Proof.
  intros D. induction b as [|c b IH] using rev_ind; [reflexivity|].
  apply Forall_app in D. destruct D as [D E]. inversion E as [|? ? C _]; subst. specialize (IH D).
  unfold number in *. rewrite fold_left_app. cbn [fold_left]. rewrite app_length. cbn [length].
  rewrite Nat2Z.inj_add. change (Z.of_nat 1) with 1. rewrite Z.pow_add_r by lia. unfold decimal_digit in C. lia.
Qed.

Lemma power_ten (n : nat) : (10 ^ n)%R = IZR (10 ^ Z.of_nat n).
Proof. rewrite pow_IZR. rewrite <- Zpower_nat_Z. reflexivity. Qed.

Lemma fraction_bound b : Forall decimal_digit b -> (0 <= IZR (number b) / 10 ^ length b < 1)%R.
Proof.
  intros D. rewrite power_ten. pose proof (number_nonneg _ D) as L. pose proof (number_bound _ D) as U.
  pose proof (Z.pow_pos_nonneg 10 (Z.of_nat (length b)) ltac:(lia) ltac:(lia)) as P.
  apply IZR_le in L. apply IZR_lt in U, P. set (d := IZR (10 ^ Z.of_nat (length b))) in *. clearbody d.
  split.
  - apply Rmult_le_pos; [exact L|]. left. apply Rinv_0_lt_compat. exact P.
  - apply (Rmult_lt_reg_r d); [exact P|]. unfold Rdiv. rewrite Rmult_assoc, Rinv_l, Rmult_1_r, Rmult_1_l by lra. exact U.
Qed.

Lemma unit_value w : matches unit_number w -> exists v, reads w v /\ (0 <= v <= 1)%R.
Proof.
  unfold unit_number. intros M. inversion M as [| | | |? ? ? A|? ? ? A| |]; subst; clear M.
  - apply cat_inv in A. destruct A as (z & u & -> & Z0 & B). apply cat_inv in B. destruct B as (p & d & -> & P & D).
    apply point_inv in P. subst p. apply opt_zero in Z0. destruct Z0 as [ZD ZN].
    apply plus_digits in D; try lia. destruct D as [D N]. cbn [app].
    eexists. split; [apply reads_point|].
    + destruct d; [contradiction|]. destruct z; discriminate.
    + exact ZD.
    + exact D.
    + rewrite ZN. pose proof (fraction_bound _ D). lra.
  - inversion A as [| | | |? ? ? B|? ? ? B| |]; subst; clear A.
    + apply cat_inv in B. destruct B as (o & u & -> & O1 & C). apply cat_inv in C. destruct C as (p & d & -> & P & D).
      apply point_inv in P. subst p. apply chr_inv in O1. destruct O1 as (c & -> & E).
      assert (c = "1"%char) as -> by (apply code_char; [exact E|vm_compute; lia]).
      apply star_zero in D. destruct D as [D N].
      change (["1"%char] ++ ["."%char] ++ d) with (["1"%char] ++ "."%char :: d).
      eexists. split; [apply reads_point; [discriminate| |exact D]|].
      * constructor; [|constructor]. apply digit_code. vm_compute. split; discriminate.
      * rewrite N. unfold number. cbn [fold_left]. change (10 * 0 + (Z.of_nat (nat_of_ascii "1") - 48)) with 1.
        unfold Rdiv. rewrite Rmult_0_l. lra.
    + assert (Q : exists c, w = [c] /\ (code c = 49 \/ code c = 48)).
      { inversion B as [| | | |? ? ? C|? ? ? C| |]; subst; apply chr_inv in C; destruct C as (c & -> & E); exists c; auto. }
      destruct Q as (c & -> & E). eexists. split; [apply reads_whole; [discriminate|]|].
      * constructor; [|constructor]. apply digit_code. lia.
      * unfold number. cbn [fold_left].
        destruct E as [E|E]; rewrite (code_small c _ ltac:(split; [|reflexivity]; discriminate) E) || rewrite (code_small c (code c)) by lia;
          rewrite ?E; cbn; lra.
Qed.

Lemma open_value w : matches open_number w -> exists v, reads w v /\ (0 < v < 1)%R.
Proof.
  unfold open_number. intros A.
  apply cat_inv in A. destruct A as (z & u & -> & Z0 & B). apply cat_inv in B. destruct B as (p & d & -> & P & D).
  apply cat_inv in D. destruct D as (z' & u & -> & Z1 & D). apply cat_inv in D. destruct D as (g & h & -> & G & H).
  apply point_inv in P. subst p. apply opt_zero in Z0. destruct Z0 as [ZD ZN]. apply star_zero in Z1. destruct Z1 as [ZD' ZN'].
  assert (GN : 0 < number g).
  { unfold plus in G. apply cat_inv in G. destruct G as (c' & r & -> & C & R).
    inversion C as [|? c I| | | | | |]; subst. apply in_range in I. pose proof (star_digits 49 57 r ltac:(lia) ltac:(lia) R) as RD.
    change ([c] ++ r) with ([c] ++ r). unfold number. rewrite fold_left_app. cbn [fold_left]. rewrite fold_shift.
    pose proof (number_nonneg _ RD). rewrite (code_small c (code c)) by lia.
    pose proof (Z.pow_pos_nonneg 10 (Z.of_nat (length r)) ltac:(lia) ltac:(lia)). nia. }
  apply plus_digits in G; try lia. destruct G as [GD GE].
  apply star_digits in H; try lia.
  assert (D : Forall decimal_digit (z' ++ g ++ h)) by (apply Forall_app; split; [exact ZD'|apply Forall_app; split; assumption]).
  assert (N : 0 < number (z' ++ g ++ h)).
  { unfold number. rewrite fold_left_app. fold (number z'). rewrite ZN'. rewrite fold_left_app. fold (number g).
    rewrite fold_shift. pose proof (number_nonneg _ H).
    pose proof (Z.pow_pos_nonneg 10 (Z.of_nat (length h)) ltac:(lia) ltac:(lia)). nia. }
  cbn [app]. eexists. split; [apply reads_point; [|exact ZD|exact D]|].
  - destruct g; [contradiction|]. destruct z, z'; discriminate.
  - rewrite ZN. pose proof (fraction_bound _ D) as F. split; [|lra].
    rewrite Rplus_0_l. rewrite power_ten. apply Rmult_lt_0_compat; [apply IZR_lt; exact N|].
    apply Rinv_0_lt_compat, IZR_lt, Z.pow_pos_nonneg; lia.
Qed.

Lemma natural_value w : matches natural w -> exists n, reads w (IZR n) /\ 1 <= n.
Proof.
  unfold natural. intros M. apply cat_inv in M. destruct M as (g & h & -> & G & H).
  assert (GN : 0 < number g).
  { unfold plus in G. apply cat_inv in G. destruct G as (c' & r & -> & C & R).
    inversion C as [|? c I| | | | | |]; subst. apply in_range in I. pose proof (star_digits 49 57 r ltac:(lia) ltac:(lia) R) as RD.
    unfold number. rewrite fold_left_app. cbn [fold_left]. rewrite fold_shift.
    pose proof (number_nonneg _ RD). rewrite (code_small c (code c)) by lia.
    pose proof (Z.pow_pos_nonneg 10 (Z.of_nat (length r)) ltac:(lia) ltac:(lia)). nia. }
  apply plus_digits in G; try lia. destruct G as [GD GE]. apply star_digits in H; try lia.
  exists (number (g ++ h)). split; [apply reads_whole|].
  - destruct g; [contradiction|discriminate].
  - apply Forall_app. split; assumption.
  - unfold number. rewrite fold_left_app. fold (number g). rewrite fold_shift. pose proof (number_nonneg _ H).
    pose proof (Z.pow_pos_nonneg 10 (Z.of_nat (length h)) ltac:(lia) ltac:(lia)). nia.
Qed.

Lemma token_cases x e : 0 <= x < 59 -> token_name x = e -> e <> "" ->
  In (x, e) [(3, "string_raw"); (6, "string"); (29, "quality"); (30, "durability"); (31, "priority"); (34, "k_evidence");
             (35, "confidence"); (56, "frequency"); (57, "integer")].
Proof.
  intros B E N.
  assert (H : forallb (fun x => (token_name x =? "") || existsb (fun p => (fst p =? x)%Z && (snd p =? token_name x)%string)
    [(3, "string_raw"); (6, "string"); (29, "quality"); (30, "durability"); (31, "priority"); (34, "k_evidence");
             (35, "confidence"); (56, "frequency"); (57, "integer")])%string (map Z.of_nat (seq 0 59)) = true)
    by (vm_compute; reflexivity).
  rewrite forallb_forall in H. specialize (H x). rewrite E in H.
  assert (I : In x (map Z.of_nat (seq 0 59))).
  { apply in_map_iff. exists (Z.to_nat x). split; [lia|]. apply in_seq. lia. }
  specialize (H I). apply orb_true_iff in H. destruct H as [H|H].
  - apply String.eqb_eq in H. contradiction.
  - apply existsb_exists in H. destruct H as ([y f] & J & Q). cbn [fst snd] in Q. apply andb_true_iff in Q.
    destruct Q as [Q1 Q2]. apply Z.eqb_eq in Q1. apply String.eqb_eq in Q2. subst y f. exact J.
Qed.

Ltac token_is S x M :=
  let B := fresh in let E := fresh in
  destruct S as (x & B & E & M); apply token_cases in E; [|exact B|discriminate];
  cbn [In] in E;
  repeat match type of E with
         | _ \/ _ => destruct E as [E|E]; [first [discriminate E | injection E as <-]|]
         | _ = _ => first [discriminate E | injection E as <-]
         | False => contradiction
         end.

Lemma spelled_unit e tok : In e ["priority"; "quality"; "frequency"] -> spelled e tok ->
  exists v, reads (list_ascii_of_string tok) v /\ (0 <= v <= 1)%R.
Proof.
  intros I S. cbn [In] in I. destruct I as [<-|[<-|[<-|[]]]]; token_is S x M; exact (unit_value _ M).
Qed.

Lemma spelled_open e tok : In e ["durability"; "confidence"] -> spelled e tok ->
  exists v, reads (list_ascii_of_string tok) v /\ (0 < v < 1)%R.
Proof.
  intros I S. cbn [In] in I. destruct I as [<-|[<-|[]]]; token_is S x M; exact (open_value _ M).
Qed.

Lemma spelled_natural tok : spelled "k_evidence" tok ->
  exists n, reads (list_ascii_of_string tok) (IZR n) /\ 1 <= n.
Proof. intros S. token_is S x M. exact (natural_value _ M). Qed.

Definition numeral (e : string) : Prop :=
  In e ["priority"; "durability"; "quality"; "frequency"; "confidence"; "k_evidence"].

Lemma spelled_reads e tok : numeral e -> spelled e tok -> exists v, reads (list_ascii_of_string tok) v.
Proof.
  unfold numeral. intros I S. cbn [In] in I.
  destruct I as [<-|[<-|[<-|[<-|[<-|[<-|[]]]]]]].
  - destruct (spelled_unit "priority" tok ltac:(cbn; auto) S) as (v & R & _). exists v. exact R.
  - destruct (spelled_open "durability" tok ltac:(cbn; auto) S) as (v & R & _). exists v. exact R.
  - destruct (spelled_unit "quality" tok ltac:(cbn; auto) S) as (v & R & _). exists v. exact R.
  - destruct (spelled_unit "frequency" tok ltac:(cbn; auto) S) as (v & R & _). exists v. exact R.
  - destruct (spelled_open "confidence" tok ltac:(cbn; auto) S) as (v & R & _). exists v. exact R.
  - destruct (spelled_natural _ S) as (v & R & _). exists (IZR v). exact R.
Qed.

Lemma stod_keeps e tok y : numeral e -> spelled e tok -> stod tok = Ok y -> keeps tok (to32 y) /\ positive64 y.
Proof.
  intros N S E. destruct (spelled_reads _ _ N S) as (v & R). destruct (stod_reads _ _ _ R E) as (F & B & P).
  split; [|exact P]. exists v, y.
  split; [exact R|]. split; [exact F|]. split; [exact (proj2 P)|]. split; [exact B|reflexivity].
Qed.

(* ---- filled in or not ---- *)

Lemma unset_positive64 x : positive64 x -> unset64 x = false.
Proof.
  intros [N S]. unfold unset64. change (dlt ieee) with (@Bltb 53 1024). unfold Bltb.
  assert (M : B2SF minus_half = SpecFloat.S754_finite true 4503599627370496 (-53)) by (vm_compute; reflexivity).
  rewrite M. destruct x as [s|s| |s m e B]; cbn in N, S; try discriminate N; subst; reflexivity.
Qed.

Lemma unset_positive32 x : positive32 x -> unset32 x = false.
Proof. intros P. apply unset_positive64, to64_sign, P. Qed.

Lemma unset_minus : unset64 (to64 (to32 minus_one)) = true.
Proof. vm_compute. reflexivity. Qed.

Lemma unset_minus32 : unset32 (to32 minus_one) = true.
Proof. vm_compute. reflexivity. Qed.

Lemma same64 (x y : float64) : B2SF x = B2SF y -> x = y.
Proof. apply B2SF_inj. Qed.
Lemma same32 (x y : float32) : B2SF x = B2SF y -> x = y.
Proof. apply B2SF_inj. Qed.

(* ---- nodes by their label ---- *)

Definition entries (y : label) : list (string * list shape) :=
  map fst (filter (fun x => label_eqb (snd x) y) signatures).

Lemma label_eqb_refl y : label_eqb y y = true.
Proof. destruct y; reflexivity. Qed.

Lemma good_inv n y : good n -> label_of n = y ->
  exists ss, In (name_of n, ss) (entries y) /\
    match n with
    | Leaf e tok => Exists (member [LText]) ss /\ spelled e tok
    | Node _ kids => Exists (member (map label_of kids)) ss /\ Forall good kids
    end.
Proof.
  intros G L. destruct G as [e tok ss y' S E W|e kids ss y' S E F]; unfold label_of in L; cbn [name_of] in *; rewrite S in L; subst y'.
  - exists ss. split; [|split; assumption]. unfold entries. apply in_map_iff. exists (e, ss, y). split; [reflexivity|].
    apply filter_In. split; [exact (sig_in _ _ _ S)|apply label_eqb_refl].
  - exists ss. split; [|split; assumption]. unfold entries. apply in_map_iff. exists (e, ss, y). split; [reflexivity|].
    apply filter_In. split; [exact (sig_in _ _ _ S)|apply label_eqb_refl].
Qed.

(* Takes the Exists apart and gives the labels of the children. *)
Lemma member_fixed ls l : member ls (l, false) -> ls = l.
Proof. intros (n & -> & Z0). rewrite (Z0 eq_refl). cbn. apply app_nil_r. Qed.

Ltac members E :=
  repeat match type of E with
         | Exists _ (_ :: _) => let M := fresh "M" in
             inversion E as [? ? M|? ? M]; subst; clear E; [apply member_fixed in M|]; rename M into E
         | Exists _ [] => inversion E
         end.

Lemma only_leaf e tok y : label_of (Leaf e tok) = y -> sig e <> None -> exists ss, sig e = Some (ss, y).
Proof. unfold label_of. cbn [name_of]. destruct (sig e) as [[ss z]|]; [|congruence]. intros -> _. exists ss. reflexivity. Qed.

(* A node for a number is a leaf. *)
Lemma number_node y e : entries y = [(e, [([LText], false)])] -> y <> LText ->
  forall n, good n -> label_of n = y -> exists tok, n = Leaf e tok /\ spelled e tok.
Proof.
  intros H _ n G L. destruct (good_inv _ _ G L) as (ss & I & X). rewrite H in I. destruct I as [I|[]].
  injection I as Q <-. destruct n as [e' tok|e' kids]; cbn [name_of] in Q; subst e'.
  - exists tok. split; [reflexivity|exact (proj2 X)].
  - exfalso. destruct X as [X F]. members X. destruct kids as [|k [|]]; try discriminate X.
    cbn in X. injection X as X. inversion F as [|? ? GK _]; subst.
    destruct (good_inv _ _ GK X) as (ss & J & _). vm_compute in J. exact J.
Qed.

Definition priority_node := number_node LPriority "priority" eq_refl ltac:(discriminate).
Definition durability_node := number_node LDurability "durability" eq_refl ltac:(discriminate).
Definition quality_node := number_node LQuality "quality" eq_refl ltac:(discriminate).
Definition frequency_node := number_node LFrequency "frequency" eq_refl ltac:(discriminate).
Definition confidence_node := number_node LConfidence "confidence" eq_refl ltac:(discriminate).
Definition evidence_node := number_node LEvidence "k_evidence" eq_refl ltac:(discriminate).
