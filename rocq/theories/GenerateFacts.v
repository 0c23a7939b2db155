(* What the generator writes. *)
From Coq Require Import ZArith String Ascii List Bool Lia Permutation.
From Verif Require Import Base NumeralSpec Numeral NumeralFacts Printer PrinterSpec PrinterFacts Enums Term Tables Actions.
From Verif Require Import Dispatch DispatchSpec DispatchFacts Generate GenerateSpec.
From Verif Require Interning.
Import ListNotations.
Open Scope string_scope.
Open Scope list_scope.
Local Open Scope Z_scope.

(* ---- texts ---- *)

Lemma string_app_assoc s t u : ((s ++ t) ++ u)%string = (s ++ t ++ u)%string.
Proof. induction s as [|c s IH]; [reflexivity|]. cbn. rewrite IH. reflexivity. Qed.

Lemma length_app s t : String.length (s ++ t)%string = (String.length s + String.length t)%nat.
Proof. induction s as [|c s IH]; [reflexivity|]. cbn. rewrite IH. reflexivity. Qed.

Lemma substring_whole s n : (String.length s <= n)%nat -> substring 0 n s = s.
Proof.
  revert n. induction s as [|c s IH]; intros [|n] H; cbn in *; try reflexivity; try lia. rewrite IH by lia. reflexivity.
Qed.

Lemma format_whole f args s : vprint f None args = Ok s -> string_format f args = Ok s.
Proof.
  intros H. unfold string_format, snprintf. rewrite H. cbn [bind]. rewrite Nat.add_sub.
  rewrite !substring_whole; [reflexivity| |]; rewrite ?substring_whole; lia.
Qed.

(* ---- widths written and read ---- *)

Lemma vprint_char c f args s : c <> "%"%char -> vprint f None args = Ok s -> vprint (String c f) None args = Ok (String c s).
Proof. intros N H. cbn [vprint]. rewrite (proj2 (Ascii.eqb_neq c "%") N), H. reflexivity. Qed.

Lemma digit_special c : decimal_digit c -> (c =? "%")%char = false /\ (c =? "s")%char = false /\ (c =? "d")%char = false.
Proof.
  unfold decimal_digit. intros D. repeat split; apply Ascii.eqb_neq; intros ->; cbn in D; lia.
Qed.

Lemma vprint_width l : Forall decimal_digit (chars l) -> forall f w args,
  vprint (l ++ f)%string (Some (Some w)) args =
  vprint f (Some (Some (fold_left (fun n c => 10 * n + (Z.of_nat (nat_of_ascii c) - 48)) (chars l) w))) args.
Proof.
  induction l as [|c l IH]; intros D f w args; [reflexivity|]. cbn [list_ascii_of_string] in D. apply Forall_cons_iff in D. destruct D as [D1 D2].
  destruct (digit_special c D1) as (E1 & E2 & E3). cbn [append vprint list_ascii_of_string fold_left].
  rewrite E1, E2, E3, (digit_value c D1). apply IH. exact D2.
Qed.

Lemma vprint_number n s : numeral n s -> 0 < n -> forall f args,
  vprint (String "%" (s ++ f)) None args = vprint f (Some (Some n)) args.
Proof.
  intros (D & V & L) P f args. destruct L as [->|(c & l & -> & N)]; [exfalso; cbn in V; lia|].
  cbn [list_ascii_of_string] in D, V. apply Forall_cons_iff in D. destruct D as [D1 D2].
  destruct (digit_special c D1) as (E1 & E2 & E3). cbn [vprint append].
  change (("%" =? "%")%char) with true. cbv iota. rewrite E1, E2, E3, (digit_value c D1).
  assert (Z0 : Z.of_nat (nat_of_ascii c) - 48 =? 0 = false).
  { apply Z.eqb_neq. intros Q. apply N. rewrite <- (ascii_nat_embedding c). replace (nat_of_ascii c) with 48%nat by lia. reflexivity. }
  rewrite Z0, vprint_width by exact D2. do 3 f_equal. rewrite <- V. unfold number. cbn [fold_left].
  f_equal; lia.
Qed.

(* ---- the format of a registration ---- *)

Definition format_text (a b : string) : string := (tab ++ "regist(%" ++ a ++ "s, %" ++ b ++ "s );")%string.

Lemma vprint_d n f args r : vprint f None args = Ok r ->
  vprint (String "%" (String "d" f)) None (Num n :: args) = Ok (integer 10 n ++ r)%string.
Proof. intros H. cbn [vprint]. change (("%" =? "%")%char) with true. cbn [Ascii.eqb Bool.eqb]. rewrite H. reflexivity. Qed.

Lemma vprint_percent f args r : vprint f None args = Ok r ->
  vprint (String "%" (String "%" f)) None args = Ok (String "%" r).
Proof. intros H. cbn [vprint]. rewrite H. reflexivity. Qed.

Lemma integer_natural n : 0 <= n -> integer 10 n = natural 10 n.
Proof. intros H. unfold integer. replace (n <? 0) with false by (symmetry; apply Z.ltb_ge; lia). reflexivity. Qed.

Lemma line_format_is w : line_format w =
  Ok (format_text (natural 10 (Z.of_nat w + 3)) (natural 10 (Z.of_nat w + 1))).
Proof.
  unfold line_format. apply format_whole. unfold tab, format_text. cbn [append].
  repeat (apply vprint_char; [discriminate|]). apply vprint_percent.
  rewrite <- (integer_natural (Z.of_nat w + 3)), <- (integer_natural (Z.of_nat w + 1)) by lia.
  apply (vprint_d _ (String "s" (String "," (String " " "%%%ds );")))). 
  repeat (apply vprint_char; [discriminate|]). apply vprint_percent. apply (vprint_d _ "s );"). reflexivity.
Qed.

Lemma vprint_s w f s args r : vprint f None args = Ok r ->
  vprint (String "s" f) (Some (Some w)) (Str s :: args) = Ok (padded_to (Some w) s ++ r)%string.
Proof. intros H. cbn [vprint]. cbn [Ascii.eqb Bool.eqb]. rewrite H. reflexivity. Qed.

Lemma line_is w e : string_format (format_text (natural 10 (Z.of_nat w + 3)) (natural 10 (Z.of_nat w + 1)))
    [Str (quote ++ e ++ quote)%string; Str e] =
  Ok (tab ++ "regist(" ++ padded_to (Some (Z.of_nat w + 3)) (quote ++ e ++ quote) ++ ", " ++
      padded_to (Some (Z.of_nat w + 1)) e ++ " );")%string.
Proof.
  apply format_whole. unfold format_text, tab. cbn [append].
  repeat (apply vprint_char; [discriminate|]).
  rewrite (vprint_number (Z.of_nat w + 3)) by (try apply natural_numeral; lia). apply vprint_s.
  repeat (apply vprint_char; [discriminate|]).
  rewrite (vprint_number (Z.of_nat w + 1)) by (try apply natural_numeral; lia). apply vprint_s. reflexivity.
Qed.

Lemma blanks_blank n : Forall (eq " "%char) (chars (blanks n)) /\ String.length (blanks n) = n.
Proof. induction n as [|n [IH1 IH2]]; [split; constructor|]. cbn. split; [constructor; auto|lia]. Qed.

Lemma padded_aligned w s : 0 <= w -> right_aligned (Z.to_nat w) s (padded_to (Some w) s).
Proof.
  intros H. cbn [padded_to]. destruct (blanks_blank (Z.to_nat w - String.length s)) as [B1 B2]. split.
  - eexists. split; [reflexivity|exact B1].
  - rewrite length_app, B2. lia.
Qed.

Lemma registrations_are w es : exists regs,
  registrations (format_text (natural 10 (Z.of_nat w + 3)) (natural 10 (Z.of_nat w + 1))) es = Ok (as_lines regs) /\
  Forall2 (registration_line w) es regs.
Proof.
  induction es as [|e es (regs & IH & F)]; [exists []; split; [reflexivity|constructor]|].
  cbn [registrations]. rewrite line_is, IH. cbn [bind].
  eexists (_ :: regs). split; [|constructor; [|exact F]].
  - f_equal. cbn [as_lines fold_right]. unfold nl. cbn [append]. reflexivity.
  - eexists _, _. split; [|split; [|unfold tab; cbn [append]; reflexivity]].
    + replace (w + 3)%nat with (Z.to_nat (Z.of_nat w + 3)) by lia. apply padded_aligned. lia.
    + replace (w + 1)%nat with (Z.to_nat (Z.of_nat w + 1)) by lia. apply padded_aligned. lia.
Qed.

(* ---- the longest name ---- *)

Lemma longest_from es : forall m, (m <= longest es m)%nat /\ (forall e, In e es -> (String.length e <= longest es m)%nat) /\
  (longest es m = m \/ exists e, In e es /\ String.length e = longest es m).
Proof.
  induction es as [|x es IH]; intros m; [split; [cbn; lia|split; [intros e []|left; reflexivity]]|]. cbn [longest].
  destruct (m <? String.length x)%nat eqn:E.
  - apply Nat.ltb_lt in E. destruct (IH (String.length x)) as (A & B & C). split; [lia|]. split.
    + intros e [->|I]; [exact A|exact (B e I)].
    + right. destruct C as [C|(e & I & C)]; [exists x; split; [left; reflexivity|congruence]|exists e; split; [right; exact I|exact C]].
  - apply Nat.ltb_ge in E. destruct (IH m) as (A & B & C). split; [exact A|]. split.
    + intros e [->|I]; [lia|exact (B e I)].
    + destruct C as [C|(e & I & C)]; [left; exact C|right; exists e; split; [right; exact I|exact C]].
Qed.

Lemma longest_is es : longest_of es (longest es 0).
Proof. destruct (longest_from es 0) as (_ & A & B). split; [exact A|exact B]. Qed.

(* ---- the whole text ---- *)

Lemma as_lines_app a b : as_lines (a ++ b) = (as_lines a ++ as_lines b)%string.
Proof. induction a as [|s a IH]; [reflexivity|]. cbn [app as_lines fold_right]. fold (as_lines (a ++ b)). fold (as_lines a). rewrite IH.
  rewrite string_app_assoc. reflexivity. Qed.

Lemma prototypes_are es : together (map prototype es) = as_lines (map prototype_line es).
Proof.
  induction es as [|e es IH]; [reflexivity|]. cbn [map together fold_right as_lines]. fold (together (map prototype es)).
  fold (as_lines (map prototype_line es)). rewrite IH. unfold prototype, prototype_line, tab, nl.
  cbn [append]. rewrite !string_app_assoc. reflexivity.
Qed.

Lemma definitions_are es : together (map definition es) = as_lines (flat_map definition_lines es).
Proof.
  induction es as [|e es IH]; [reflexivity|]. cbn [map together fold_right flat_map]. fold (together (map definition es)).
  rewrite IH, as_lines_app. f_equal. unfold definition, definition_lines, as_lines, tab, nl. cbn [append fold_right].
  rewrite !string_app_assoc. reflexivity.
Qed.

Lemma elsewhere_filter empty l : elsewhere empty l (map snd (filter (fun p => negb (fst p =? empty)) l)).
Proof.
  induction l as [|[a s] l IH]; [constructor|]. cbn [filter fst]. destruct (a =? empty) eqn:E; cbn [negb map snd].
  - apply Z.eqb_eq in E. subst a. constructor. exact IH.
  - constructor; [apply Z.eqb_neq; exact E|exact IH].
Qed.

Lemma elsewhere_only empty l es : elsewhere empty l es -> es = map snd (filter (fun p => negb (fst p =? empty)) l).
Proof.
  induction 1 as [|s l es H IH|a s l es N H IH]; cbn [filter fst]; [reflexivity| |].
  - rewrite Z.eqb_refl. exact IH.
  - rewrite (proj2 (Z.eqb_neq _ _) N). cbn [negb map snd]. rewrite IH. reflexivity.
Qed.

Theorem generated empty prods syms : exists es regs w a b c,
  elsewhere empty (prods ++ syms) es /\ longest_of es w /\ Forall2 (registration_line w) es regs /\
  numeral (Z.of_nat (List.length prods)) a /\ numeral (Z.of_nat (List.length syms)) b /\ numeral (Z.of_nat (List.length es)) c /\
  generate empty prods syms = Ok (Out
    (as_lines [a; b; ("valid count: " ++ c)%string])
    (as_lines (["/*prototypes*/"] ++ map prototype_line es ++ [""; ""; "/*definitions*/"] ++
               flat_map definition_lines es ++ [""; ""; "/*register*/"] ++ regs ++ [""; ""]))).
Proof.
  unfold generate. exists (emits empty prods syms). set (es := emits empty prods syms). rewrite line_format_is. cbn [bind].
  destruct (registrations_are (longest es 0) es) as (regs & -> & F). cbn [bind].
  exists regs, (longest es 0). eexists _, _, _.
  split; [apply elsewhere_filter|]. split; [apply longest_is|]. split; [exact F|].
  split; [apply natural_numeral; lia|]. split; [apply natural_numeral; lia|]. split; [apply natural_numeral; lia|].
  rewrite prototypes_are, definitions_are. rewrite !as_lines_app. reflexivity.
Qed.

(* ---- alignment ---- *)

Lemma aligned_length w es regs : longest_of es w -> Forall2 (registration_line w) es regs ->
  Forall (fun l => String.length l = 2 * w + 17)%nat regs.
Proof.
  intros [B _] F. revert B. induction F as [|e l es regs (x & y & (_ & X) & (_ & Y) & ->) F IH]; intros B; constructor.
  - specialize (B e (or_introl eq_refl)). cbn [String.length]. rewrite !length_app. cbn [String.length].
    rewrite X, Y. cbn [String.length]. rewrite length_app. cbn [String.length]. lia.
  - apply IH. intros e' I. apply B. right. exact I.
Qed.

(* ---- the tables of the grammar ---- *)

Lemma placed_in {A} (name : A -> string) at_ l a s : In (a, s) (placed name at_ l) ->
  exists i x, nth_error l i = Some x /\ a = at_ i /\ s = name x.
Proof.
  unfold placed. intros H. apply In_nth_error in H. destruct H as [i H]. exists i.
  assert (G : forall k, nth_error (combine (map at_ (seq k (List.length l))) (map name l)) i = Some (a, s) ->
    exists x, nth_error l i = Some x /\ a = at_ (k + i)%nat /\ s = name x).
  { clear H. revert i. induction l as [|y l IH]; intros i k H; [destruct i; discriminate H|]. destruct i as [|i].
    - cbn in H. injection H as <- <-. exists y. rewrite Nat.add_0_r. auto.
    - cbn [List.length seq map combine nth_error] in H. destruct (IH i (S k) H) as (x & N & E & E'). exists x.
      rewrite Nat.add_succ_r. auto. }
  destruct (G 0%nat H) as (x & N & E & E'). exists x. auto.
Qed.

Lemma placed_length {A} (name : A -> string) at_ l : List.length (placed name at_ l) = List.length l /\ map snd (placed name at_ l) = map name l.
Proof.
  unfold placed. generalize 0%nat. induction l as [|x l IH]; intros k; [split; reflexivity|]. cbn [List.length seq map combine snd].
  destruct (IH (S k)) as [A1 A2]. split; [cbn; rewrite A1; reflexivity|rewrite A2; reflexivity].
Qed.

Lemma filter_by_name empty (l : list (Z * string)) :
  (forall a s, In (a, s) l -> (a = empty <-> s = "")) ->
  map snd (filter (fun p => negb (fst p =? empty)) l) = filter (fun s => negb (s =? "")%string) (map snd l).
Proof.
  induction l as [|[a s] l IH]; intros H; [reflexivity|]. cbn [filter map fst snd].
  rewrite <- (IH (fun a' s' I => H a' s' (or_intror I))). specialize (H a s (or_introl eq_refl)).
  destruct (a =? empty) eqn:E, (s =? "")%string eqn:F; cbn [negb]; try reflexivity; exfalso.
  - apply Z.eqb_eq in E. apply H in E. apply String.eqb_neq in F. exact (F E).
  - apply String.eqb_eq in F. apply H in F. apply Z.eqb_neq in E. exact (E F).
Qed.

Section Tables.
Variable ord : list (option connector * list term) -> list (option connector * list term).
Variable fresh : Interning.world -> Z.
Notation names := (map fst (methods ord fresh)).

Lemma generated_names_are pl : legal names pl -> merged names pl ->
  emits (pl InGenerator) (production_entries pl) (symbol_entries pl) =
  filter (fun s => negb (s =? "")%string) (map (fun r => fst (fst r)) productions ++ map fst symbols).
Proof.
  intros L M. unfold emits. rewrite filter_by_name.
  - rewrite map_app. unfold production_entries, symbol_entries. rewrite !(proj2 (placed_length _ _ _)). reflexivity.
  - assert (G : forall t s, says names t = Some s -> (pl t = pl InGenerator <-> s = "")).
    { intros t s E. split.
      - intros Q. exact (L t InGenerator s "" E eq_refl Q).
      - intros ->. exact (M t InGenerator "" E eq_refl). }
    intros a s I. apply in_app_iff in I. destruct I as [I|I]; apply placed_in in I; destruct I as (i & x & N & -> & ->); apply G; cbn [says]; rewrite N; reflexivity.
Qed.

Fixpoint take_out (s : string) (l : list string) : option (list string) :=
  match l with
  | [] => None
  | t :: l' => if (s =? t)%string then Some l' else option_map (cons t) (take_out s l')
  end.

Fixpoint same_names (l r : list string) : bool :=
  match l with
  | [] => match r with [] => true | _ => false end
  | s :: l' => match take_out s r with Some r' => same_names l' r' | None => false end
  end.

Lemma take_out_perm s l : forall r, take_out s l = Some r -> Permutation (s :: r) l.
Proof.
  induction l as [|t l IH]; intros r H; [discriminate H|]. cbn in H. destruct (s =? t)%string eqn:E.
  - apply String.eqb_eq in E. injection H as <-. subst t. apply Permutation_refl.
  - destruct (take_out s l) as [r'|]; [|discriminate H]. injection H as <-.
    apply (Permutation_trans (perm_swap t s r')). apply perm_skip. apply IH. reflexivity.
Qed.

Lemma same_names_perm l : forall r, same_names l r = true -> Permutation l r.
Proof.
  induction l as [|s l IH]; intros r H; cbn in H.
  - destruct r; [constructor|discriminate H].
  - destruct (take_out s r) as [r'|] eqn:E; [|discriminate H].
    apply (Permutation_trans (perm_skip s (IH r' H))). exact (take_out_perm s r r' E).
Qed.

Lemma names_same : same_names (filter (fun s => negb (s =? "")%string) (map (fun r => fst (fst r)) productions ++ map fst symbols)) names = true.
Proof. vm_compute. reflexivity. Qed.

Lemma elsewhere_emits empty p q es : elsewhere empty (p ++ q) es -> es = emits empty p q.
Proof. intros H. exact (elsewhere_only _ _ _ H). Qed.

Lemma put_together (es x f n : list string) : es = x -> x = f -> Permutation f n -> NoDup n -> NoDup es /\ Permutation es n.
Proof. intros -> -> P N. split; [exact (Permutation_NoDup (Permutation_sym P) N)|exact P]. Qed.

Theorem generated_for_grammar pl es : legal names pl -> merged names pl ->
  elsewhere (pl InGenerator) (production_entries pl ++ symbol_entries pl) es ->
  NoDup es /\ Permutation es names.
Proof.
  intros L M E.
  exact (put_together es _ _ _ (elsewhere_emits _ _ _ _ E) (generated_names_are pl L M) (same_names_perm _ _ names_same) (names_once ord fresh)).
Qed.
End Tables.

Lemma kept_all empty (l : list (Z * string)) es : (forall a s, In (a, s) l -> a <> empty) -> elsewhere empty l es -> es = map snd l.
Proof.
  intros H E. induction E as [|s l es E IH|a s l es N E IH]; [reflexivity| |].
  - destruct (H empty s (or_introl eq_refl) eq_refl).
  - cbn [map snd]. rewrite <- IH; [reflexivity|]. intros a' s' I. exact (H a' s' (or_intror I)).
Qed.

Lemma names_of_entries pl : map snd (production_entries pl ++ symbol_entries pl) =
  map (fun r => fst (fst r)) productions ++ map fst symbols.
Proof. rewrite map_app. unfold production_entries, symbol_entries. rewrite !(proj2 (placed_length _ _ _)). reflexivity. Qed.

Lemma empty_count : count_occ string_dec (map (fun r => fst (fst r)) productions ++ map fst symbols) "" = 430%nat.
Proof. vm_compute. reflexivity. Qed.

Lemma none_empty pl : separate pl -> forall a s, In (a, s) (production_entries pl ++ symbol_entries pl) -> a <> pl InGenerator.
Proof.
  intros S a s I X. apply in_app_iff in I. destruct I as [I|I]; apply placed_in in I; destruct I as (i & x & N & -> & _); apply S in X; discriminate X.
Qed.

Lemma count_by (es x y : list string) n : es = x -> x = y -> count_occ string_dec y "" = n -> count_occ string_dec es "" = n.
Proof. intros -> ->. exact (fun H => H). Qed.

Theorem empty_names pl es : separate pl ->
  elsewhere (pl InGenerator) (production_entries pl ++ symbol_entries pl) es -> count_occ string_dec es "" = 430%nat.
Proof.
  intros S E. exact (count_by _ _ _ _ (kept_all _ _ _ (none_empty pl S) E) (names_of_entries pl) empty_count).
Qed.

(* ---- a small example ---- *)

Definition two_rules : list (Z * string) := [(64, "task"); (0, ""); (128, "goal")].

Lemma two_rules_text : generate 0 two_rules [(192, "string")] = Ok (Out
  (as_lines ["3"; "1"; "valid count: 3"])
  (as_lines (["/*prototypes*/"; prototype_line "task"; prototype_line "goal"; prototype_line "string"; ""; ""; "/*definitions*/"] ++
    definition_lines "task" ++ definition_lines "goal" ++ definition_lines "string" ++ [""; ""; "/*register*/";
    (tab ++ "regist(   " ++ quote ++ "task" ++ quote ++ ",    task );")%string;
    (tab ++ "regist(   " ++ quote ++ "goal" ++ quote ++ ",    goal );")%string;
    (tab ++ "regist( " ++ quote ++ "string" ++ quote ++ ",  string );")%string; ""; ""]))).
Proof. vm_compute. reflexivity. Qed.

Lemma pooled_entries ord fresh : exists es,
  elsewhere (pooled (map fst (methods ord fresh)) InGenerator)
    (production_entries (pooled (map fst (methods ord fresh))) ++ symbol_entries (pooled (map fst (methods ord fresh)))) es.
Proof. eexists. apply elsewhere_filter. Qed.

Theorem empty_ever : exists pl, forall ord fresh, legal (map fst (methods ord fresh)) pl /\
  forall es, elsewhere (pl InGenerator) (production_entries pl ++ symbol_entries pl) es ->
  count_occ string_dec es "" = 430%nat.
Proof.
  exists apart. intros ord fresh. split; [exact (separate_legal ord fresh apart apart_separate)|].
  intros es. exact (empty_names apart es apart_separate).
Qed.
