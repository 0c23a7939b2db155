(* Printed tasks are read back. *)
From Coq Require Import ZArith Bool Reals Lra Lia String Ascii List Permutation.
From Flocq Require Import Core BinarySingleNaN.
From Verif Require Import Base Enums Term Compound CompoundFacts Float FloatFacts Parser Actions ActionsSpec Printer PrinterSpec PrinterFacts PrinterFacts2 PrinterFacts4.
From Verif Require Import Forms FormFacts8 FormFacts9 Roundtrip RoundtripFacts RoundtripFacts2.
From Verif Require Interning Evidence Truth Grammar.
Import ListNotations.
Open Scope string_scope.
Open Scope list_scope.
Local Open Scope Z_scope.

(** * The text of a task *)

Lemma task_shown names st t w : interpret_sentence names false st (sentence_of t) = Ok w ->
  exists a b c, interpret_task names false st t = Ok ("$" ++ a ++ ";" ++ b ++ ";" ++ c ++ "$ " ++ w)%string /\
  a = fixed 2 (rounded (to32 (priority (budget_of t)))) /\ b = fixed 2 (rounded (to32 (durability (budget_of t)))) /\
  c = fixed 2 (rounded (quality (budget_of t))) /\
  shows (priority (budget_of t)) a /\ shows (durability (budget_of t)) b /\ shows (quality (budget_of t)) c.
Proof.
  intros E. destruct (shows_double (priority (budget_of t))) as [P [[x PC] _]].
  destruct (shows_double (durability (budget_of t))) as [D [[y DC] _]].
  destruct (shows_single (quality (budget_of t))) as [Q [_ [z QC]]].
  eexists _, _, _. split; [|split; [reflexivity|split; [reflexivity|split; [reflexivity|split; [exact P|split; [exact D|exact Q]]]]]].
  unfold interpret_task. revert PC DC QC.
  generalize (rounded (to32 (priority (budget_of t)))) (rounded (to32 (durability (budget_of t)))) (rounded (quality (budget_of t))).
  intros p d q -> -> ->. cbn [bind]. rewrite E. cbn [bind]. clear.
  unfold format.
  cbn -[fixed]. rewrite ?app_empty. reflexivity.
Qed.

Definition tense_shown (t : Evidence.tense) : option tense_form :=
  match t with
  | Evidence.Past => Some Past | Evidence.Present => Some Present | Evidence.Future => Some Future | Evidence.Eternal => None
  end.

Lemma tense_eternal st s : Evidence.is_eternal s = match Evidence.tense_of cfg_temporal_duration st s with Evidence.Eternal => true | _ => false end.
Proof.
  unfold Evidence.tense_of. destruct (Evidence.is_eternal s); [reflexivity|].
  destruct (_ <=? _); [reflexivity|]. destruct (_ <=? _); reflexivity.
Qed.

(* The text after the term *)
Lemma sentence_text names st s u : interpret names false (content s) = Ok u ->
  forall ts, match punct s with
  | Judgement | Goal => exists v, truth_of s = Some v /\ ts = [fixed 3 (Truth.fr ieee v); fixed 3 (Truth.co ieee v)]
  | _ => ts = []
  end ->
  exists w, interpret_sentence names false st s = Ok (u ++ w)%string /\
    laid (mark_sign (punct s) :: spell_tense (tense_shown (Evidence.tense_of cfg_temporal_duration st (stamp_of s))) ++ spell_values "%" ts) w.
Proof.
  intros E ts Ht.
  assert (T : exists tw, interpret_truth false s = Ok tw /\ laid (spell_values "%" ts) tw).
  { unfold interpret_truth.
    assert (X : forall v, ts = [fixed 3 (Truth.fr ieee v); fixed 3 (Truth.co ieee v)] -> exists tw,
      format "%{:.3f};{:.3f}%" [AFloat (Truth.fr ieee v); AFloat (Truth.co ieee v)] = Ok tw /\ laid (spell_values "%" ts) tw).
    { intros v ->. rewrite format_truth. eexists. split; [reflexivity|]. cbn [spell_values map interspersed app].
      apply (laid_app ["%"] _ "%" _ (laid_one _)). apply (laid_app [_] _ _ _ (laid_one _)).
      apply (laid_app [";"] _ ";" _ (laid_one _)). apply (laid_app [_] _ _ _ (laid_one _)). apply laid_one. }
    destruct (punct s).
    - destruct Ht as (v & -> & Ht). exact (X v Ht).
    - subst ts. exists "". split; [reflexivity|exact laid_nil].
    - destruct Ht as (v & -> & Ht). exact (X v Ht).
    - subst ts. exists "". split; [reflexivity|exact laid_nil]. }
  destruct T as (tw & T & Lt). unfold interpret_sentence. rewrite E. cbn [bind]. rewrite T. cbn [bind].
  rewrite (tense_eternal st). set (te := Evidence.tense_of cfg_temporal_duration st (stamp_of s)).
  assert (S : exists sw, (if match te with Evidence.Eternal => true | _ => false end then Ok "" else format "{} " [AText (tense_repr te)]) = Ok sw /\
    laid (spell_tense (tense_shown te)) sw).
  { destruct te; try (rewrite format_tense; eexists; split; [reflexivity|]; apply laid_space). exists "". split; [reflexivity|exact laid_nil]. }
  destruct S as (sw & -> & Ls). cbn [bind]. rewrite format_sentence. eexists. split; [reflexivity|].
  replace (punct_repr (punct s) ++ " " ++ sw ++ tw)%string with ((punct_repr (punct s) ++ " ") ++ (sw ++ tw))%string
    by (apply chars_inj; rewrite !chars_app, <- !app_assoc; reflexivity).
  replace (mark_sign (punct s)) with (punct_repr (punct s)) by (destruct (punct s); reflexivity).
  apply (laid_app [_] _ _ _ (laid_space _)). apply laid_app; assumption.
Qed.

(** * Reading it again *)

Local Open Scope R_scope.

Lemma kept_near x s v y : kept (Some s) x y -> NumeralSpec.reads (chars s) v -> 0 <= v <= 1 ->
  is_finite y = true /\ 0 <= B2R y <= 1 /\ Rabs (B2R y - v) <= 1 / 10000000.
Proof. intros K. exact (keeps_near s y v K). Qed.

Lemma near_add {prec emax prec' emax'} (x : binary_float prec emax) (y : binary_float prec' emax') v d e :
  Rabs (v - B2R x) <= d -> is_finite y = true -> Rabs (B2R y - v) <= e -> forall c, d + e <= c -> near_by x y c.
Proof.
  intros A F B c C. split; [exact F|]. replace (B2R y - B2R x) with ((B2R y - v) + (v - B2R x)) by ring.
  eapply Rle_trans; [apply Rabs_triang|]. lra.
Qed.

Lemma frac_unit n d : (0 <= n <= d)%Z -> (0 < d)%Z -> 0 <= IZR n / IZR d <= 1.
Proof.
  intros B D. assert (Dp : 0 < IZR d) by (apply (IZR_lt 0); exact D). destruct B as (B1 & B2). apply IZR_le in B1, B2. split.
  - apply Rmult_le_pos; [exact B1|]. apply Rlt_le, Rinv_0_lt_compat, Dp.
  - apply Rmult_le_reg_r with (IZR d); [exact Dp|]. unfold Rdiv. rewrite Rmult_assoc, Rinv_l by lra. lra.
Qed.

Theorem task_read_back ord fresh st tk (Ho : any_order ord) (Hf : careful fresh) : in_order (atoms st) (operations st) ->
  let t := content (sentence_of tk) in
  legible ord (atoms st) t -> left_to_right t -> (forall k i, t <> Var k i) ->
  (population (atoms st) + 2 * Z.of_nat (length (addresses t)) < 4294967295)%Z ->
  showable tk ->
  exists s, interpret_task (dictionary_of (Interning.tab (atoms st))) false (store st) tk = Ok s /\
    forall room, has_room room s -> exists st' tk',
      parse_task ord fresh room st [] s = Ok (st', [], Some (VTask tk'), false) /\ similar (store st) tk tk' /\
      in_order (atoms st') (operations st') /\ Interning.tab (atoms st') = Interning.tab (atoms st) /\
      (forall n a, handed_out (atoms st) n a -> handed_out (atoms st') n a) /\
      (Evidence.is_eternal (stamp_of (sentence_of tk)) = true ->
        interpret_task (dictionary_of (Interning.tab (atoms st'))) false (store st') tk' = Ok s).
Proof.
  intros O t G L V R [ST SP SD SQ]. destruct (legible_printed ord _ _ O t G) as (u & E & La).
  set (names := dictionary_of (Interning.tab (atoms st))) in *. set (f := form_of names t) in *.
  set (sn := sentence_of tk) in *. set (te := Evidence.tense_of cfg_temporal_duration (store st) (stamp_of sn)).
  (* the numbers of the truth value *)
  assert (TS : exists ts, (match punct sn with
    | Judgement | Goal => exists v, truth_of sn = Some v /\ ts = [fixed 3 (Truth.fr ieee v); fixed 3 (Truth.co ieee v)]
    | _ => ts = [] end) /\ Forms.numerals [Grammar.unit_number; Grammar.open_number; Grammar.natural] ts /\
    (ts <> [] -> punct sn = Judgement \/ punct sn = Goal) /\
    (forall v', valued (punct sn) ts v' -> match punct sn with
    | Judgement | Goal => exists v w', truth_of sn = Some v /\ v' = Some w' /\
        near_by (Truth.fr ieee v : float32) (Truth.fr ieee w' : float32) (501 / 1000000) /\
        near_by (Truth.co ieee v : float32) (Truth.co ieee w' : float32) (501 / 1000000) /\
        Truth.kk ieee w' = literal 1 1 /\
        fixed 3 (Truth.fr ieee w') = fixed 3 (Truth.fr ieee v) /\ fixed 3 (Truth.co ieee w') = fixed 3 (Truth.co ieee v)
    | _ => v' = None end)).
  { assert (X : punct sn = Judgement \/ punct sn = Goal -> exists ts,
      (exists v, truth_of sn = Some v /\ ts = [fixed 3 (Truth.fr ieee v); fixed 3 (Truth.co ieee v)]) /\
      Forms.numerals [Grammar.unit_number; Grammar.open_number; Grammar.natural] ts /\
      (forall v', (exists v, v' = Some v /\ kept (nth_error ts 0) (literal 1 1) (Truth.fr ieee v) /\
        kept (nth_error ts 1) (literal 9 10) (Truth.co ieee v) /\ kept (nth_error ts 2) (literal 1 1) (Truth.kk ieee v)) ->
        exists v w', truth_of sn = Some v /\ v' = Some w' /\
        near_by (Truth.fr ieee v : float32) (Truth.fr ieee w' : float32) (501 / 1000000) /\
        near_by (Truth.co ieee v : float32) (Truth.co ieee w' : float32) (501 / 1000000) /\
        Truth.kk ieee w' = literal 1 1 /\
        fixed 3 (Truth.fr ieee w') = fixed 3 (Truth.fr ieee v) /\ fixed 3 (Truth.co ieee w') = fixed 3 (Truth.co ieee v))).
    { intros J. destruct (ST J) as (v & Ev & UF & FC & BC).
      assert (UC : unit_value (Truth.co ieee v : float32)).
      { split; [exact FC|]. split; [|lra]. destruct (Truth.co ieee v : float32) as [s0|s0| |s0 m e BB]; try discriminate FC; cbn [B2R] in BC; [lra|].
        destruct s0; [|reflexivity]. exfalso. cbn [cond_Zopp] in BC. assert (F2R (Float radix2 (Z.neg m) e) < 0) by (apply F2R_lt_0; reflexivity).
        cbn [Z.opp] in BC. lra. }
      destruct (fixed_unit _ UF) as (n & Bn & Fn & Dn). destruct (fixed_unit _ UC) as (m & Bm & Fm & Dm).
      assert (Im : (0 < m < 1000)%Z).
      { apply Rabs_le_inv in Dm. split; [apply (lt_IZR 0)|apply (lt_IZR _ 1000)]; lra. }
      destruct (thousand_numeral n Bn) as (Hn & _ & Rn). destruct (thousand_numeral m Bm) as (_ & Hm & Rm). specialize (Hm Im).
      exists [thousand n; thousand m]. split; [exists v; split; [exact Ev|rewrite <- Fn, <- Fm; reflexivity]|].
      split; [split; [exact Hn|split; [exact Hm|exact I]]|].
      intros v' (w' & -> & K1 & K2 & K3). cbn [nth_error] in K1, K2, K3.
      exists v, w'. split; [exact Ev|]. split; [reflexivity|].
      destruct (kept_near _ _ _ _ K1 Rn (frac_unit n 1000 Bn ltac:(lia))) as (F1 & _ & D1).
      destruct (kept_near _ _ _ _ K2 Rm (frac_unit m 1000 Bm ltac:(lia))) as (F2 & _ & D2).
      split; [|split; [|split; [exact K3|split]]].
      - eapply near_add; [exact Dn|exact F1|exact D1|lra].
      - eapply near_add; [exact Dm|exact F2|exact D2|lra].
      - rewrite Fn. apply settles_three; [exact Bn| |exact D1]. exact (keeps_unsigned _ _ _ K1 Rn (frac_unit n 1000 Bn ltac:(lia))).
      - rewrite Fm. apply settles_three; [exact Bm| |exact D2]. exact (keeps_unsigned _ _ _ K2 Rm (frac_unit m 1000 Bm ltac:(lia))). }
    unfold valued. destruct (punct sn).
    - destruct (X (or_introl eq_refl)) as (ts & A & B & C). exists ts. split; [assumption|split; [assumption|split; [auto|assumption]]].
    - exists []. split; [reflexivity|split; [exact I|split; [intros H; contradiction|auto]]].
    - destruct (X (or_intror eq_refl)) as (ts & A & B & C). exists ts. split; [assumption|split; [assumption|split; [auto|assumption]]].
    - exists []. split; [reflexivity|split; [exact I|split; [intros H; contradiction|auto]]]. }
  destruct TS as (ts & T1 & T2 & T3 & T4).
  destruct (sentence_text names (store st) sn u E ts T1) as (w & Es & Lw). fold te in Lw.
  destruct (task_shown names (store st) tk _ Es) as (a & b & c & Et & Xa & Xb & Xc & Sa & Sb & Sc).
  (* the numbers of the budget *)
  assert (UD : unit_value (durability (budget_of tk))).
  { destruct SD as (FD & BD). split; [exact FD|]. split; [|lra].
    destruct (durability (budget_of tk)) as [s0|s0| |s0 m e BB]; try discriminate FD; cbn [B2R] in BD; [lra|].
    destruct s0; [|reflexivity]. exfalso. cbn [cond_Zopp] in BD. assert (F2R (Float radix2 (Z.neg m) e) < 0) by (apply F2R_lt_0; reflexivity).
    cbn [Z.opp] in BD. lra. }
  assert (Texts : a <> "-0.00" /\ b <> "-0.00" /\ c <> "-0.00" ->
    exists h1 h2 h3, (0 <= h1 <= 100)%Z /\ a = hundredths h1 /\ Rabs (IZR h1 / 100 - B2R (priority (budget_of tk))) <= 55002 / 10000000 /\
      (0 < h2 < 100)%Z /\ b = hundredths h2 /\ Rabs (IZR h2 / 100 - B2R (durability (budget_of tk))) <= 55002 / 10000000 /\
      (0 <= h3 <= 100)%Z /\ c = hundredths h3 /\ Rabs (IZR h3 / 100 - B2R (quality (budget_of tk))) <= 55002 / 10000000).
  { intros (Na & Nb & Nc). destruct (shows_near _ _ Sa SP Na) as (h1 & A1 & A2 & A3).
    destruct (shows_near _ _ Sb UD Nb) as (h2 & B1 & B2 & B3). destruct (shows_near _ _ Sc SQ Nc) as (h3 & C1 & C2 & C3).
    exists h1, h2, h3. repeat (split; [assumption|]). split; [|repeat (split; [assumption|]); assumption].
    destruct SD as (_ & BD). apply Rabs_le_inv in B3. split; [apply (lt_IZR 0)|apply (lt_IZR _ 100)]; lra. }
  exists ("$" ++ a ++ ";" ++ b ++ ";" ++ c ++ "$ " ++ u ++ w)%string. split; [exact Et|]. intros room Ro.
  assert (Signs : a <> "-0.00" /\ b <> "-0.00" /\ c <> "-0.00").
  { split; [|split]; subst a b c; apply rounded_unsigned; [| |exact (proj1 (proj2 SQ))]; apply to32_sign;
      first [exact (proj1 SP)|exact (proj1 (proj2 SP))|exact (proj2 (proj2 SP))|exact (proj1 UD)|exact (proj1 (proj2 UD))|exact (proj2 (proj2 UD))]. }
  destruct (Texts Signs) as (h1 & h2 & h3 & A1 & A2 & A3 & B1 & B2 & B3 & C1 & C2 & C3).
  destruct (hundredths_numeral h1 A1) as (Ha & _ & Ra). destruct (hundredths_numeral h2 ltac:(lia)) as (_ & Hb & Rb). specialize (Hb B1).
  destruct (hundredths_numeral h3 C1) as (Hc & _ & Rc). rewrite <- A2 in Ha, Ra. rewrite <- B2 in Hb, Rb. rewrite <- C2 in Hc, Rc.
  set (x := Written [a; b; c] f (punct sn) (tense_shown te) ts).
  assert (P : proper_task x).
  { constructor; cbn [x budget_part body mark tense_part truth_part].
    - split; [exact Ha|split; [exact Hb|split; [exact Hc|exact I]]].
    - apply (legible_proper ord _ _ O t G).
    - intros k n Ef. unfold f in Ef. destruct t; try discriminate Ef; [exact (V _ _ eq_refl)|].
      pose proof (form_assembly names c0 l) as A. rewrite Ef in A. discriminate A.
    - intros y Ey. destruct te; injection Ey as <- || discriminate Ey; exact I.
    - exact T2.
    - exact T3. }
  assert (Lx : laid (spell_task x) ("$" ++ a ++ ";" ++ b ++ ";" ++ c ++ "$ " ++ u ++ w)).
  { change (spell_task x) with (["$"; a; ";"; b; ";"; c; "$"] ++ (spelling f ++
      (mark_sign (punct sn) :: spell_tense (tense_shown te) ++ spell_values "%" ts))).
    apply (laid_app ["$"] (a :: _) "$" _ (laid_one _)). apply (laid_app [a] (";" :: _) _ _ (laid_one _)).
    apply (laid_app [";"] (b :: _) ";" _ (laid_one _)). apply (laid_app [b] (";" :: _) _ _ (laid_one _)).
    apply (laid_app [";"] (c :: _) ";" _ (laid_one _)). apply (laid_app [c] ("$" :: _) _ _ (laid_one _)).
    apply (laid_app ["$"] _ "$ " _ (laid_space _)). apply laid_app; assumption. }
  destruct (laid_spread _ _ Lx) as (pads & Lp & Sp). rewrite <- Sp in *.
  assert (Nb : forall k i, In i (numbers k t) -> by_occurrence f k (Printer.natural 10 i) i) by (intros k i; apply numbered_form; exact L).
  assert (M : mentions (body x) = length (addresses t)).
  { unfold mentions. cbn [body x]. unfold f. rewrite form_operators, form_words. cbn. lia. }
  destruct (task_read ord Ho fresh Hf room st x 0 pads Ro O P Lp) as [(st' & tk' & E' & S & O' & Later & _ & _ & _ & Same)|(E' & w' & ops' & O' & Later & S)].
  - rewrite M. exact R.
  - intros n I. cbn [body x] in I. unfold f in I. rewrite form_operators in I. destruct I.
  - exists st', tk'. split; [exact E'|]. destruct S as [Sy Sm Ss Sv Sg]. cbn [body mark tense_part truth_part budget_part x] in Sy, Sm, Ss, Sv, Sg.
    assert (Tab : Interning.tab (atoms st') = Interning.tab (atoms st)) by (apply Same; [apply form_operators|exact (legible_words ord _ _ O t G)]).
    assert (Cn : content (sentence_of tk') = t).
    { eapply meaning_unique; [exact O'|apply (task_body x P)|apply form_operators|exact Sy|].
      apply (legible_means ord _ _ O); assumption. }
    unfold stamped in Ss. destruct Ss as (_ & Ss).
    cbn [budgeted] in Sg. destruct Sg as (fp & fd & P1 & P2 & D1 & D2 & Q).
    assert (Sim : similar (store st) tk tk').
    { constructor.
    + exact Cn.
    + exact Sm.
    + rewrite (tense_eternal (store st) (stamp_of (sentence_of tk))). fold sn te.
      destruct te; cbn [tense_shown] in Ss; try (exact (proj1 Ss)); exact Ss.
    + fold sn te. destruct te; cbn [tense_shown occurs] in Ss; try (exact (proj2 Ss)); exact I.
    + fold sn. specialize (T4 _ Sv). destruct (punct sn); try exact T4; destruct T4 as (v & v' & B1' & B2' & B3' & B4' & B5' & _); exists v, v'; auto 10.
    + rewrite P1. destruct (keeps_near _ _ _ P2 Ra (frac_unit h1 100 A1 ltac:(lia))) as (F1 & _ & Q1).
      destruct (to64_at fp _ (conj F1 eq_refl)) as (F2 & Q2).
      eapply near_add; [exact A3|exact F2|rewrite Q2; exact Q1|lra].
    + rewrite D1. destruct (kept_near _ _ _ _ D2 Rb (frac_unit h2 100 ltac:(lia) ltac:(lia))) as (F1 & _ & Q1).
      destruct (to64_at fd _ (conj F1 eq_refl)) as (F2 & Q2).
      eapply near_add; [exact B3|exact F2|rewrite Q2; exact Q1|lra].
    + destruct (kept_near _ _ _ _ Q Rc (frac_unit h3 100 C1 ltac:(lia))) as (F1 & _ & Q1).
      eapply near_add; [exact C3|exact F1|exact Q1|lra]. }
    split; [exact Sim|]. split; [exact O'|]. split; [exact Tab|]. split; [exact Later|]. intros Et'. rewrite Tab. fold names.
    assert (Es' : interpret_sentence names false (store st') (sentence_of tk') = Ok (u ++ w)%string).
    { rewrite <- Es. unfold interpret_sentence. fold t. rewrite Cn. fold t. unfold sn at 1. fold t. rewrite E. cbn [bind].
      assert (Tr : interpret_truth false (sentence_of tk') = interpret_truth false sn).
      { unfold interpret_truth. rewrite Sm. specialize (T4 _ Sv).
        destruct (punct sn); try reflexivity; destruct T4 as (v & v' & B1' & B2' & _ & _ & _ & B6 & B7);
          rewrite B1', B2', !format_truth, B6, B7; reflexivity. }
      rewrite Tr, Sm. rewrite (similar_eternal _ _ _ Sim). fold sn in Et' |- *. rewrite Et'. reflexivity. }
    destruct (task_shown names (store st') tk' _ Es') as (a' & b' & c' & -> & Xa' & Xb' & Xc' & Sa' & Sb' & Sc').
    assert (U1 : unit_value fp) by (exact (keeps_unsigned _ _ _ P2 Ra (frac_unit h1 100 A1 ltac:(lia)))).
    assert (U2 : unit_value fd) by (exact (keeps_unsigned _ _ _ D2 Rb (frac_unit h2 100 ltac:(lia) ltac:(lia)))).
    assert (U3 : unit_value (quality (budget_of tk'))) by (exact (keeps_unsigned _ _ _ Q Rc (frac_unit h3 100 C1 ltac:(lia)))).
    assert (U1' : unit_value (priority (budget_of tk'))) by (rewrite P1; apply to64_unit, U1).
    assert (U2' : unit_value (durability (budget_of tk'))) by (rewrite D1; apply to64_unit, U2).
    destruct (keeps_near _ _ _ P2 Ra (frac_unit h1 100 A1 ltac:(lia))) as (G1 & _ & N1).
    destruct (keeps_near _ _ _ D2 Rb (frac_unit h2 100 ltac:(lia) ltac:(lia))) as (G2 & _ & N2).
    destruct (keeps_near _ _ _ Q Rc (frac_unit h3 100 C1 ltac:(lia))) as (_ & _ & N3).
    assert (a' = a /\ b' = b /\ c' = c) as (-> & -> & ->); [|rewrite Sp; reflexivity].
    assert (Signs' : a' <> "-0.00" /\ b' <> "-0.00" /\ c' <> "-0.00").
    { split; [|split]; subst a' b' c'; apply rounded_unsigned; [| |exact (proj1 (proj2 U3))]; apply to32_sign;
        first [exact (proj1 U1')|exact (proj1 (proj2 U1'))|exact (proj2 (proj2 U1'))|exact (proj1 U2')|exact (proj1 (proj2 U2'))|exact (proj2 (proj2 U2'))]. }
    destruct Signs' as (Na & Nb' & Nc). rewrite A2, B2, C2. split; [|split].
    + eapply settles_two; [exact A1|exact Sa'|exact U1'|exact Na|]. rewrite P1, (proj2 (to64_at fp _ (conj G1 eq_refl))). exact N1.
    + eapply settles_two; [lia|exact Sb'|exact U2'|exact Nb'|]. rewrite D1, (proj2 (to64_at fd _ (conj G2 eq_refl))). exact N2.
    + eapply settles_two; [exact C1|exact Sc'|exact U3|exact Nc|exact N3].
  - exfalso. cbn [body x] in S. revert S. apply (legible_unstuck ord _ _ O _ w' ops'); try assumption. apply occurrence_unique.
Qed.

Local Close Scope R_scope.

Corollary interval_back ord fresh st n room p (Ho : any_order ord) (Hf : careful fresh) : in_order (atoms st) (operations st) ->
  0 <= n <= 2147483647 -> population (atoms st) < 4294967295 ->
  exists s, interpret (dictionary_of (Interning.tab (atoms st))) false (Itv n) = Ok s /\
    (has_room room (s ++ mark_sign p) -> exists st' tk,
      parse_task ord fresh room st [] (s ++ mark_sign p)%string = Ok (st', [], Some (VTask tk), false) /\
      content (sentence_of tk) = Itv n /\ punct (sentence_of tk) = p).
Proof.
  intros O B P. destruct (read_back ord fresh st (Itv n) Ho Hf O) as (s & E & H).
  - constructor. exact B.
  - intros k before i after X. destruct before; discriminate X.
  - discriminate.
  - cbn. lia.
  - exists s. split; [exact E|]. intros R. destruct (H room p R) as (st' & tk & A & C & D & _). exists st', tk. repeat split; assumption.
Qed.

Corollary text_settles ord fresh st tk (Ho : any_order ord) (Hf : careful fresh) : in_order (atoms st) (operations st) ->
  legible ord (atoms st) (content (sentence_of tk)) -> left_to_right (content (sentence_of tk)) ->
  (forall k i, content (sentence_of tk) <> Var k i) ->
  population (atoms st) + 2 * Z.of_nat (length (addresses (content (sentence_of tk)))) < 4294967295 ->
  showable tk -> Evidence.is_eternal (stamp_of (sentence_of tk)) = true ->
  exists s, interpret_task (dictionary_of (Interning.tab (atoms st))) false (store st) tk = Ok s /\
    forall room, has_room room s -> exists st' tk',
      parse_task ord fresh room st [] s = Ok (st', [], Some (VTask tk'), false) /\
      interpret_task (dictionary_of (Interning.tab (atoms st'))) false (store st') tk' = Ok s /\
      Interning.tab (atoms st') = Interning.tab (atoms st).
Proof.
  intros O G L V P S Et. destruct (task_read_back ord fresh st tk Ho Hf O G L V P S) as (s & E & H).
  exists s. split; [exact E|]. intros room R. destruct (H room R) as (st' & tk' & A & _ & _ & T & _ & Q).
  exists st', tk'. auto.
Qed.

Corollary task_similar ord fresh st tk (Ho : any_order ord) (Hf : careful fresh) : in_order (atoms st) (operations st) ->
  legible ord (atoms st) (content (sentence_of tk)) -> left_to_right (content (sentence_of tk)) ->
  (forall k i, content (sentence_of tk) <> Var k i) ->
  population (atoms st) + 2 * Z.of_nat (length (addresses (content (sentence_of tk)))) < 4294967295 ->
  showable tk ->
  exists s, interpret_task (dictionary_of (Interning.tab (atoms st))) false (store st) tk = Ok s /\
    forall room, has_room room s -> exists st' tk',
      parse_task ord fresh room st [] s = Ok (st', [], Some (VTask tk'), false) /\ similar (store st) tk tk' /\
      in_order (atoms st') (operations st') /\ Interning.tab (atoms st') = Interning.tab (atoms st) /\
      (forall n a, handed_out (atoms st) n a -> handed_out (atoms st') n a).
Proof.
  intros O G L V P S. destruct (task_read_back ord fresh st tk Ho Hf O G L V P S) as (s & E & H).
  exists s. split; [exact E|]. intros room R. destruct (H room R) as (st' & tk' & A & B & C & T & D & _).
  exists st', tk'. auto.
Qed.
