(* Numerals, format strings, and the text of terms. *)
From Coq Require Import ZArith String Ascii List Bool Lia.
From Verif Require Import Base Enums Term TermFacts Float NumeralSpec Actions Printer PrinterSpec.
From Verif Require Interning.
Import ListNotations.
Open Scope string_scope.
Open Scope list_scope.
Local Open Scope Z_scope.

Notation chars := list_ascii_of_string.

Lemma chars_app s t : chars (s ++ t)%string = chars s ++ chars t.
Proof. induction s as [|c s IH]; [reflexivity|]. cbn. rewrite IH. reflexivity. Qed.

Lemma chars_inj s t : chars s = chars t -> s = t.
Proof. intros H. rewrite <- (string_of_list_ascii_of_string s), <- (string_of_list_ascii_of_string t), H. reflexivity. Qed.

Lemma app_empty s : (s ++ "")%string = s.
Proof. induction s as [|c s IH]; [reflexivity|]. cbn. rewrite IH. reflexivity. Qed.

(* ---- numerals ---- *)

Lemma number_snoc l c : number (l ++ [c]) = 10 * number l + (Z.of_nat (nat_of_ascii c) - 48).
Proof. unfold number. rewrite fold_left_app. reflexivity. Qed.

Lemma digit_char_code d : 0 <= d < 10 -> Z.of_nat (nat_of_ascii (digit_char d)) = 48 + d.
Proof.
  intros B. unfold digit_char. replace (d <? 10) with true by (symmetry; apply Z.ltb_lt; lia).
  rewrite nat_ascii_embedding by lia. lia.
Qed.

Lemma put_digits_spec fuel : forall n s, 0 <= n < 2 ^ Z.of_nat fuel -> (0 < fuel)%nat ->
  exists l, chars (put_digits fuel 10 n s) = l ++ chars s /\ Forall decimal_digit l /\ number l = n /\
    (l = ["0"%char] \/ exists c l', l = c :: l' /\ c <> "0"%char).
Proof.
  induction fuel as [|fuel IH]; intros n s B P; [lia|]. cbn [put_digits].
  rewrite Nat2Z.inj_succ, Z.pow_succ_r in B by lia.
  assert (M : 0 <= n mod 10 < 10) by (apply Z.mod_pos_bound; lia).
  pose proof (Z.div_mod n 10 ltac:(lia)) as DM.
  assert (D : decimal_digit (digit_char (n mod 10))) by (unfold decimal_digit; rewrite digit_char_code by lia; lia).
  destruct (n / 10 =? 0) eqn:E.
  - apply Z.eqb_eq in E. exists [digit_char (n mod 10)]. split; [reflexivity|]. split; [constructor; [exact D|constructor]|].
    split; [unfold number; cbn [fold_left]; rewrite digit_char_code; lia|].
    destruct (Z.eq_dec (n mod 10) 0) as [Z0|Z0].
    + left. rewrite Z0. reflexivity.
    + right. eexists _, []. split; [reflexivity|]. intros Q.
      assert (C : Z.of_nat (nat_of_ascii (digit_char (n mod 10))) = 48) by (rewrite Q; reflexivity).
      rewrite digit_char_code in C; lia.
  - apply Z.eqb_neq in E.
    assert (F : (0 < fuel)%nat).
    { destruct fuel; [|lia]. cbn in B. exfalso. apply E. apply Z.div_small. lia. }
    destruct (IH (n / 10) (String (digit_char (n mod 10)) s)) as (l & L1 & L2 & L3 & L4).
    { split; [apply Z.div_pos; lia|]. apply Z.div_lt_upper_bound; lia. }
    { exact F. }
    exists (l ++ [digit_char (n mod 10)]). split; [rewrite L1; cbn; rewrite <- app_assoc; reflexivity|].
    split; [apply Forall_app; split; [exact L2|constructor; [exact D|constructor]]|].
    split; [rewrite number_snoc, L3, digit_char_code by lia; lia|]. right.
    destruct L4 as [->|(c & l' & -> & N)]; [exfalso; apply E; rewrite <- L3; reflexivity|].
    exists c, (l' ++ [digit_char (n mod 10)]). split; [reflexivity|exact N].
Qed.

Lemma natural_numeral n : 0 <= n -> numeral n (natural 10 n).
Proof.
  intros B. unfold natural.
  destruct (put_digits_spec (S (Z.to_nat (Z.log2 n))) n "") as (l & L1 & L2 & L3 & L4); [|lia|].
  - split; [lia|]. rewrite Nat2Z.inj_succ, Z2Nat.id by apply Z.log2_nonneg.
    destruct (Z.eq_dec n 0) as [->|N]; [reflexivity|]. apply Z.log2_spec. lia.
  - cbn [chars] in L1. rewrite app_nil_r in L1. unfold numeral. rewrite L1. split; [exact L2|]. split; [exact L3|].
    destruct L4 as [->|(c & l' & -> & N)].
    + left. apply chars_inj. exact L1.
    + right. exists c, (string_of_list_ascii l'). split; [|exact N]. apply chars_inj. rewrite L1. cbn.
      rewrite list_ascii_of_string_of_list_ascii. reflexivity.
Qed.

Lemma number_bounds l : Forall decimal_digit l -> 0 <= number l.
Proof.
  induction l as [|c l IH] using rev_ind; intros F; [cbn; lia|]. rewrite number_snoc.
  apply Forall_app in F. destruct F as [F1 F2]. apply Forall_inv in F2. unfold decimal_digit in F2.
  specialize (IH F1). lia.
Qed.

Lemma integer_numeral n : 0 <= n -> integer 10 n = natural 10 n.
Proof. intros B. unfold integer. replace (n <? 0) with false by (symmetry; apply Z.ltb_ge; lia). reflexivity. Qed.

Lemma integer_negative n : n < 0 -> integer 10 n = ("-" ++ natural 10 (- n))%string.
Proof. intros B. unfold integer. replace (n <? 0) with true by (symmetry; apply Z.ltb_lt; lia). reflexivity. Qed.

(* ---- format strings ---- *)

Lemma format_statement a b c :
  format "<{} {} {}>" [AText a; AText b; AText c] = Ok ("<" ++ a ++ " " ++ b ++ " " ++ c ++ ">")%string.
Proof. reflexivity. Qed.

Lemma format_interval n : format "{:+d}" [AInt n] = Ok (if n <? 0 then integer 10 n else ("+" ++ integer 10 n)%string).
Proof.
  unfold format. cbn. destruct (n <? 0); [rewrite app_empty; reflexivity|]. cbn. rewrite app_empty. reflexivity.
Qed.

(* ---- the text of a term ---- *)

Lemma term_deep (P : term -> Prop) :
  (forall op a, P (Atom op a)) -> (forall k i, P (Var k i)) -> (forall n, P (Itv n)) ->
  (forall c s p, P s -> match s with Comp _ l => Forall P l | _ => True end -> P p -> P (Stmt c s p)) ->
  (forall c l, Forall P l -> P (Comp c l)) -> forall t, P t.
Proof.
  intros A V N S C t. enough (H : P t /\ match t with Comp _ l => Forall P l | _ => True end) by exact (proj1 H).
  induction t as [op a|k i|n|c s p IHs IHp|c l IHl] using term_ind'.
  - split; [apply A|exact I].
  - split; [apply V|exact I].
  - split; [apply N|exact I].
  - split; [|exact I]. destruct IHs, IHp. apply S; assumption.
  - assert (F : Forall P l) by (eapply Forall_impl; [|exact IHl]; intros t H; exact (proj1 H)). split; [apply C|]; exact F.
Qed.

Section Names.
Variable names : Z -> option string.

Definition texts (l : list term) : res (list string) :=
  (fix go l := match l with
               | [] => Ok []
               | t :: l' => bind (interpret names false t) (fun s => bind (go l') (fun v => Ok (s :: v)))
               end) l.

Lemma append_texts l : append_strs false (interpret names false) l = bind (texts l) (fun v => Ok (joined v)).
Proof.
  induction l as [|t l IH]; [reflexivity|]. destruct l as [|u l].
  - cbn [append_strs texts]. destruct (interpret names false t); reflexivity.
  - cbn [append_strs]. cbn [append_strs] in IH. rewrite IH. change (texts (t :: u :: l)) with
      (bind (interpret names false t) (fun s => bind (texts (u :: l)) (fun v => Ok (s :: v)))).
    destruct (interpret names false t) as [s| | |]; try reflexivity. cbn [bind].
    destruct (texts (u :: l)) as [v| | |] eqn:E; try reflexivity. cbn [bind].
    destruct v as [|w v]; [|reflexivity]. exfalso. cbn [texts] in E.
    destruct (interpret names false u); try discriminate E. cbn [bind] in E.
    destruct ((fix go l := match l with
               | [] => Ok []
               | t :: l' => bind (interpret names false t) (fun s => bind (go l') (fun v => Ok (s :: v)))
               end) l); discriminate E.
Qed.

Lemma interpret_statement c s p : names (key (Stmt c s p)) = None -> is_operation p = false ->
  interpret names false (Stmt c s p) = bind (interpret names false s) (fun u => bind (interpret names false p) (fun v =>
    Ok ("<" ++ u ++ " " ++ cop_repr c ++ " " ++ v ++ ">")%string)).
Proof.
  unfold key. cbn [interpret is_operation]. generalize (names (Interning.int32 (thash (Stmt c s p)))). intros o -> O.
  rewrite O. cbn [negb]. destruct (interpret names false s) as [u| | |]; [|reflexivity..].
  cbn [bind]. destruct (interpret names false p) as [v| | |]; [|reflexivity..]. cbn [bind]. apply format_statement.
Qed.

Lemma interpret_operation c s p : names (key (Stmt c s p)) = None -> is_operation p = true ->
  interpret names false (Stmt c s p) = bind (interpret names false p) (fun u =>
    match s with
    | Comp _ l => bind (texts l) (fun v => Ok ("(" ++ u ++ ", " ++ joined v ++ ")")%string)
    | _ => UB
    end).
Proof.
  unfold key. cbn [interpret is_operation]. generalize (names (Interning.int32 (thash (Stmt c s p)))). intros o -> O.
  rewrite O. cbn [negb]. destruct (interpret names false p); try reflexivity. cbn [bind].
  destruct s; try reflexivity. rewrite append_texts. destruct (texts l); reflexivity.
Qed.

Lemma interpret_compound c l : names (key (Comp c l)) = None -> l <> [] ->
  interpret names false (Comp c l) = bind (texts l) (fun v => Ok (between c (joined v))).
Proof.
  unfold key. cbn [interpret]. generalize (names (Interning.int32 (thash (Comp c l)))). intros o -> L.
  destruct l as [|t l]; [contradiction|]. rewrite append_texts. destruct (texts (t :: l)); try reflexivity.
  destruct c; reflexivity.
Qed.

Lemma interpret_atom op a s : names (key (Atom op a)) = Some s -> interpret names false (Atom op a) = Ok s.
Proof. unfold key. cbn [interpret]. generalize (names (Interning.int32 (thash (Atom op a)))). intros o ->. reflexivity. Qed.

Lemma interpret_empty c : names (key (Comp c [])) = None -> interpret names false (Comp c []) = UB.
Proof. unfold key. cbn [interpret]. generalize (names (Interning.int32 (thash (Comp c [])))). intros o ->. reflexivity. Qed.

Lemma interpret_interval n : interpret names false (Itv n) =
  Ok (if n <? 0 then integer 10 n else ("+" ++ integer 10 n)%string).
Proof. cbn [interpret]. rewrite format_interval. reflexivity. Qed.

Lemma texts_written l : Forall (fun t => forall s, clear names t -> interpret names false t = Ok s -> written names t s) l ->
  Forall (clear names) l -> forall v, texts l = Ok v -> all_written names l v.
Proof.
  induction 1 as [|t l H _ IH]; intros C v E.
  - injection E as <-. constructor.
  - cbn [texts] in E. destruct (interpret names false t) as [s| | |] eqn:T; try discriminate E. cbn [bind] in E.
    change ((fix go l := match l with
               | [] => Ok []
               | t :: l' => bind (interpret names false t) (fun s => bind (go l') (fun v => Ok (s :: v)))
               end) l) with (texts l) in E.
    destruct (texts l) as [w| | |]; try discriminate E. cbn [bind] in E. injection E as <-.
    constructor; [apply H; [exact (Forall_inv C)|reflexivity]|]. exact (IH (Forall_inv_tail C) _ eq_refl).
Qed.

Definition writes (t : term) : Prop := forall s, clear names t -> interpret names false t = Ok s -> written names t s.

Lemma interpret_written t : writes t.
Proof.
  induction t as [op a|k i|n|c s p IHs IHl IHp|c l IHl] using term_deep; intros w C E.
  - inversion C as [op' a' u N| | | | |]; subst. rewrite (interpret_atom _ _ _ N) in E. injection E as <-.
    constructor. exact N.
  - cbn [interpret] in E. injection E as <-. destruct (Z.ltb_spec i 0) as [L|L].
    + rewrite integer_negative by exact L. apply T_below; [exact L|]. apply natural_numeral. lia.
    + rewrite integer_numeral by exact L. apply T_variable; [exact L|]. apply natural_numeral. exact L.
  - rewrite interpret_interval in E. injection E as <-. destruct (Z.ltb_spec n 0) as [L|L].
    + rewrite integer_negative by exact L. apply T_negative; [exact L|]. apply natural_numeral. lia.
    + rewrite integer_numeral by exact L. apply T_positive; [exact L|]. apply natural_numeral. exact L.
  - inversion C as [| | |c' s' p' N O CS CP|c' d l p' N O CP CL|]; subst.
    + rewrite interpret_statement in E by assumption. destruct (interpret names false s) as [u| | |] eqn:ES; try discriminate E.
      destruct (interpret names false p) as [v| | |] eqn:EP; try discriminate E. injection E as <-.
      apply T_statement; [exact O|exact (IHs _ CS ES)|exact (IHp _ CP EP)].
    + rewrite interpret_operation in E by assumption. destruct (interpret names false p) as [u| | |] eqn:EP; try discriminate E.
      cbn [bind] in E. destruct (texts l) as [v| | |] eqn:T; try discriminate E. cbn [bind] in E. injection E as <-.
      apply T_operation; [exact O|exact (IHp _ CP EP)|]. exact (texts_written _ IHl CL _ T).
  - inversion C as [| | | | |c' l' N CL]; subst. destruct l as [|t l].
    + rewrite interpret_empty in E by exact N. discriminate E.
    + rewrite interpret_compound in E by (try discriminate; assumption).
      destruct (texts (t :: l)) as [v| | |] eqn:T; try discriminate E. cbn [bind] in E. injection E as <-.
      apply T_compound; [discriminate|]. exact (texts_written _ IHl CL _ T).
Qed.

(* ---- named terms ---- *)

Lemma named_clear t : named names t -> clear names t.
Proof.
  induction t as [op a|k i|n|c s p IHs IHl IHp|c l IHl] using term_deep; intros N; inversion N; subst.
  - apply C_atom with s. assumption.
  - apply C_atom with ("^" ++ s)%string. assumption.
  - constructor.
  - constructor.
  - constructor; auto.
  - apply C_call; [assumption|reflexivity|eapply C_atom; eassumption|]. rewrite Forall_forall in *. auto.
  - constructor; [assumption|]. rewrite Forall_forall in *. auto.
Qed.

Lemma all_texts l : Forall (fun t => named names t -> exists s, interpret names false t = Ok s) l ->
  Forall (named names) l -> exists v, texts l = Ok v.
Proof.
  intros IHl NL. induction l as [|t l IH]; [eexists; reflexivity|].
  destruct (Forall_inv IHl (Forall_inv NL)) as [s ES].
  destruct (IH (Forall_inv_tail IHl) (Forall_inv_tail NL)) as [v EV].
  exists (s :: v). change (texts (t :: l)) with
    (bind (interpret names false t) (fun s => bind (texts l) (fun v => Ok (s :: v)))). rewrite ES, EV. reflexivity.
Qed.

Lemma named_prints t : named names t -> exists s, interpret names false t = Ok s.
Proof.
  induction t as [op a|k i|n|c s p IHs IHl IHp|c l IHl] using term_deep; intros N.
  - inversion N; subst; (eexists; apply interpret_atom; eassumption).
  - eexists. reflexivity.
  - eexists. apply interpret_interval.
  - inversion N as [| | | |c' s' p' NK O NS NP|a l w NK NA W L NL|]; subst.
    + rewrite interpret_statement by assumption. destruct (IHs NS) as [u ->]. destruct (IHp NP) as [v ->]. eexists. reflexivity.
    + rewrite interpret_operation by (try reflexivity; assumption). rewrite (interpret_atom _ _ _ NA).
      destruct (all_texts l IHl NL) as [v ->]. eexists. reflexivity.
  - inversion N as [| | | | | |c' l' NK L NL]; subst. rewrite interpret_compound by assumption.
    destruct (all_texts l IHl NL) as [v ->]. eexists. reflexivity.
Qed.

(* ---- different terms, different texts ---- *)

(* A text that ends a term. *)
Definition ends_term (r : list ascii) : Prop :=
  match r with [] => True | c :: _ => In c (chars " ,>)}]") end.

Lemma split_class (P : ascii -> Prop) l : forall r l' r', Forall P l -> Forall P l' ->
  match r with [] => True | c :: _ => ~ P c end -> match r' with [] => True | c :: _ => ~ P c end ->
  l ++ r = l' ++ r' -> l = l' /\ r = r'.
Proof.
  induction l as [|c l IH]; intros r l' r' F F' R R' E.
  - destruct l' as [|c' l']; [split; [reflexivity|exact E]|]. exfalso. cbn in E. subst r. cbn in R. exact (R (Forall_inv F')).
  - destruct l' as [|c' l'].
    + exfalso. cbn in E. subst r'. exact (R' (Forall_inv F)).
    + injection E as -> E. destruct (IH _ _ _ (Forall_inv_tail F) (Forall_inv_tail F') R R' E) as [-> ->]. split; reflexivity.
Qed.

Lemma plain_stop c : In c (chars " ,>)}]") -> ~ plain_char c.
Proof. intros I (_ & N). apply N. cbn in I |- *. intuition. Qed.

Lemma digit_stop c : In c (chars " ,>)}]") -> ~ decimal_digit c.
Proof. intros I D. cbn in I. unfold decimal_digit in D. repeat (destruct I as [<-|I]; [cbn in D; lia|]). exact I. Qed.

Lemma stop_class (P : ascii -> Prop) r : (forall c, In c (chars " ,>)}]") -> ~ P c) -> ends_term r ->
  match r with [] => True | c :: _ => ~ P c end.
Proof. destruct r; intros H E; [exact I|exact (H _ E)]. Qed.

(* The first characters of texts. *)
Definition front (t : term) (c : ascii) : Prop :=
  match t with
  | Atom false _ => plain_char c
  | Atom true _ => c = "^"%char
  | Var k _ => chars (vk_repr k) = [c]
  | Itv n => c = if n <? 0 then "-"%char else "+"%char
  | Stmt _ _ (Atom true _) => c = "("%char
  | Stmt _ _ _ => c = "<"%char
  | Comp ExtensionalSet _ => c = "{"%char
  | Comp IntensionalSet _ => c = "["%char
  | Comp _ _ => c = "("%char
  end.

Lemma numeral_chars n s : numeral n s -> Forall decimal_digit (chars s) /\ number (chars s) = n.
Proof. intros (A & B & _). exact (conj A B). Qed.

Lemma numeral_front n s : numeral n s -> exists c l, chars s = c :: l /\ decimal_digit c.
Proof.
  intros (A & _ & B). destruct s as [|c s]; [destruct B as [B|(c & s' & B & _)]; discriminate B|].
  exists c, (chars s). split; [reflexivity|]. exact (Forall_inv A).
Qed.

Lemma written_front t s : named names t -> written names t s -> exists c l, chars s = c :: l /\ front t c.
Proof.
  intros N W. inversion W; subst; cbn [front].
  - inversion N as [a' s' L P|a' s' L P| | | | |]; subst; rewrite L in H; injection H as <-.
    + destruct P as [E F]. destruct s' as [|c s']; [contradiction E; reflexivity|].
      exists c, (chars s'). split; [reflexivity|exact (Forall_inv F)].
    + exists "^"%char, (chars s'). split; reflexivity.
  - exists (match k with Independent => "$" | Dependent => "#" | Query => "?" end)%char, (chars s0). destruct k; split; reflexivity.
  - exists (match k with Independent => "$" | Dependent => "#" | Query => "?" end)%char, ("-"%char :: chars s0). destruct k; split; reflexivity.
  - exists "+"%char, (chars s0). split; [reflexivity|]. replace (n <? 0) with false by (symmetry; apply Z.ltb_ge; lia). reflexivity.
  - exists "-"%char, (chars s0). split; [reflexivity|]. replace (n <? 0) with true by (symmetry; apply Z.ltb_lt; lia). reflexivity.
  - eexists _, _. split; [reflexivity|]. destruct p as [[]| | | |]; try reflexivity. discriminate H.
  - inversion N; subst; [congruence|]. eexists _, _. split; reflexivity.
  - destruct c; eexists _, _; (split; [reflexivity|]); reflexivity.
Qed.

Lemma plain_not c : In c (chars "-+<$#?^{[(") -> ~ plain_char c.
Proof. intros I (_ & N). apply N. cbn in I |- *. intuition. Qed.

(* Terms of the same sort *)
Definition alike (t u : term) : Prop :=
  match t, u with
  | Atom op _, Atom op' _ => op = op'
  | Var k _, Var k' _ => k = k'
  | Itv n, Itv n' => (n <? 0) = (n' <? 0)
  | Stmt _ _ (Atom true _), Stmt _ _ (Atom true _) => True
  | Stmt _ _ (Atom true _), Comp c _ | Comp c _, Stmt _ _ (Atom true _) => c <> ExtensionalSet /\ c <> IntensionalSet
  | Stmt _ _ (Atom true _), _ | _, Stmt _ _ (Atom true _) => False
  | Stmt _ _ _, Stmt _ _ _ => True
  | Comp ExtensionalSet _, Comp c _ => c = ExtensionalSet
  | Comp IntensionalSet _, Comp c _ => c = IntensionalSet
  | Comp _ _, Comp c _ => c <> ExtensionalSet /\ c <> IntensionalSet
  | _, _ => False
  end.

Ltac not_plain := match goal with H : plain_char ?c |- _ => exfalso; revert H; apply plain_not; cbn; tauto end.

Lemma single (x y : ascii) : [x] = [y] -> y = x.
Proof. intros E. injection E as ->. reflexivity. Qed.

Lemma front_alike t u c : front t c -> front u c -> alike t u.
Proof.
  intros F G. destruct t as [[] a|k i|n|co s p|cn l], u as [[] a'|k' i'|n'|co' s' p'|cn' l'];
    try destruct p as [[]| | | |]; try destruct p' as [[]| | | |];
    repeat match goal with H : front (Itv ?n) _ |- _ => cbn [front] in H; destruct (n <? 0) eqn:?
                         | H : front (Var ?k _) _ |- _ => destruct k; cbn in H; apply single in H
                         | H : front (Comp ?k _) _ |- _ => destruct k; cbn in H end;
    cbn [front] in *; subst; try discriminate; try not_plain; cbn [alike]; try reflexivity; try congruence;
    try (split; discriminate); exact I.
Qed.

Definition separated (t : term) : Prop :=
  forall u s s' r r', named names t -> named names u -> distinct names t u -> written names t s -> written names u s' ->
  ends_term r -> ends_term r' -> chars s ++ r = chars s' ++ r' -> t = u /\ r = r'.

Definition closing (c : ascii) : Prop := In c (chars ")}]>").

Lemma closing_ends c r : closing c -> ends_term (c :: r).
Proof. unfold closing, ends_term. cbn. intuition. Qed.

Lemma closing_comma c : closing c -> c <> ","%char.
Proof. unfold closing. cbn. intros I ->. repeat (destruct I as [I|I]; [discriminate I|]). exact I. Qed.

Lemma comma_ends r : ends_term (","%char :: r).
Proof. right. left. reflexivity. Qed.
Lemma space_ends r : ends_term (" "%char :: r).
Proof. left. reflexivity. Qed.
Lemma angle_ends r : ends_term (">"%char :: r).
Proof. right. right. left. reflexivity. Qed.

Lemma joined_more s s' v : joined (s :: s' :: v) = (s ++ ", " ++ joined (s' :: v))%string.
Proof. reflexivity. Qed.

Lemma all_separated l : Forall separated l -> forall l' v v' c c' r r', l <> [] -> l' <> [] ->
  Forall (named names) l -> Forall (named names) l' ->
  (forall op a b, In a (concat (map addresses l)) -> In b (concat (map addresses l')) ->
    names (key (Atom op a)) = names (key (Atom op b)) -> a = b) ->
  all_written names l v -> all_written names l' v' -> closing c -> closing c' ->
  chars (joined v) ++ c :: r = chars (joined v') ++ c' :: r' -> l = l' /\ c :: r = c' :: r'.
Proof.
  induction 1 as [|t l S F IH]; intros l' v v' c c' r r' L L' N N' D W W' K K' E; [contradiction|].
  destruct l' as [|t' l']; [contradiction|].
  inversion W as [|? ? s w W1 W2]; subst. inversion W' as [|? ? s' w' W1' W2']; subst.
  assert (DT : distinct names t t').
  { intros op a b A B. apply D; cbn; apply in_app_iff; left; assumption. }
  inversion W2 as [|u l1 s1 w1 U1 U2]; subst; inversion W2' as [|u' l1' s1' w1' U1' U2']; subst.
  - cbn [joined] in E.
    destruct (S t' s s' _ _ (Forall_inv N) (Forall_inv N') DT W1 W1' (closing_ends _ _ K) (closing_ends _ _ K') E) as [-> R].
    split; [reflexivity|exact R].
  - exfalso. rewrite joined_more, !chars_app in E. rewrite <- !app_assoc in E. cbn [chars app] in E.
    destruct (S t' s s' _ _ (Forall_inv N) (Forall_inv N') DT W1 W1' (closing_ends _ _ K) (comma_ends _) E) as [_ R].
    cbn in R. injection R as R _. exact (closing_comma _ K R).
  - exfalso. rewrite joined_more, !chars_app in E. rewrite <- !app_assoc in E. cbn [chars app] in E.
    destruct (S t' s s' _ _ (Forall_inv N) (Forall_inv N') DT W1 W1' (comma_ends _) (closing_ends _ _ K') E) as [_ R].
    cbn in R. injection R as R _. exact (closing_comma _ K' (eq_sym R)).
  - rewrite !joined_more, !chars_app, <- !app_assoc in E. cbn [chars app] in E.
    destruct (S t' s s' _ _ (Forall_inv N) (Forall_inv N') DT W1 W1' (comma_ends _) (comma_ends _) E) as [-> R].
    injection R as R.
    destruct (IH (u' :: l1') _ _ _ _ _ _ ltac:(discriminate) ltac:(discriminate) (Forall_inv_tail N) (Forall_inv_tail N')
                (fun op a b A B => D op a b (proj2 (in_app_iff _ _ _) (or_intror A)) (proj2 (in_app_iff _ _ _) (or_intror B)))
                W2 W2' K K' R) as [-> R'].
    split; [reflexivity|exact R'].
Qed.

Lemma cop_inj c c' : chars (cop_repr c) = chars (cop_repr c') -> c = c'.
Proof. destruct c, c'; intros E; try reflexivity; discriminate E. Qed.
Lemma cop_no_space c : Forall (fun x => x <> " "%char) (chars (cop_repr c)).
Proof. destruct c; cbn; repeat (constructor; [discriminate|]); constructor. Qed.
Lemma con_inj c c' : chars (con_repr c) = chars (con_repr c') -> c = c'.
Proof. destruct c, c'; intros E; try reflexivity; discriminate E. Qed.
Lemma con_no_comma c : Forall (fun x => x <> ","%char) (chars (con_repr c)).
Proof. destruct c; cbn; repeat (constructor; [discriminate|]); constructor. Qed.

Lemma between_parenthesis c m : c <> ExtensionalSet -> c <> IntensionalSet ->
  chars (between c m) = "("%char :: chars (con_repr c) ++ ","%char :: " "%char :: chars m ++ [")"%char].
Proof.
  intros A B. assert (E : between c m = ("(" ++ con_repr c ++ ", " ++ m ++ ")")%string) by (destruct c; try reflexivity; contradiction).
  rewrite E, !chars_app. reflexivity.
Qed.

Lemma same_numeral n s n' s' r r' : numeral n s -> numeral n' s' -> ends_term r -> ends_term r' ->
  chars s ++ r = chars s' ++ r' -> n = n' /\ r = r'.
Proof.
  intros A B R R' E. apply numeral_chars in A, B. destruct A as [A1 A2], B as [B1 B2].
  destruct (split_class decimal_digit _ _ _ _ A1 B1 (stop_class _ _ digit_stop R) (stop_class _ _ digit_stop R') E) as [X ->].
  split; [congruence|reflexivity].
Qed.

Lemma numeral_minus n s r l : numeral n s -> chars s ++ r <> "-"%char :: l.
Proof.
  intros N E. destruct (numeral_front _ _ N) as (c & l' & F & D). rewrite F in E. injection E as -> _.
  unfold decimal_digit in D. cbn in D. lia.
Qed.

Definition parenthesised (c : connector) : Prop := c <> ExtensionalSet /\ c <> IntensionalSet.

Lemma con_front c l r : chars (con_repr c) ++ l <> "^"%char :: r.
Proof. destruct c; discriminate. Qed.

(* A call and a compound *)
Lemma call_compound s l r c m r' : parenthesised c ->
  chars ("(" ++ ("^" ++ s) ++ ", " ++ l ++ ")")%string ++ r <> chars (between c m) ++ r'.
Proof.
  intros [A B] E. rewrite between_parenthesis in E by assumption. rewrite !chars_app in E. cbn in E. injection E as E.
  symmetry in E. rewrite <- app_assoc in E. exact (con_front _ _ _ E).
Qed.

Lemma all_terms_separated t : separated t.
Proof.
  induction t as [op a|k i|n|c s p IHs IHl IHp|c l IHl] using term_deep; intros t' w w' r r' N N' D W W' R R' E;
    destruct (written_front _ _ N W) as (h & m & FH & F); destruct (written_front _ _ N' W') as (h' & m' & FH' & F');
    (assert (AL : alike _ t') by (apply front_alike with h; [exact F|]; rewrite FH, FH' in E; injection E as -> _; exact F'));
    clear h m FH F h' m' FH' F'.
  - destruct t' as [op' a'|k' i'|n'|c' s' [[]| | | |]|c' l']; try contradiction AL.
    cbn [alike] in AL. subst op'. inversion W as [? ? ? L| | | | | | |]; subst. inversion W' as [? ? ? L'| | | | | | |]; subst.
    assert (X : chars w = chars w' /\ r = r').
    { inversion N as [? v M P|? v M P| | | | |]; subst; inversion N' as [? v' M' P'|? v' M' P'| | | | |]; subst;
        rewrite L in M; rewrite L' in M'; injection M as ->; injection M' as ->.
      - exact (split_class plain_char _ _ _ _ (proj2 P) (proj2 P') (stop_class _ _ plain_stop R) (stop_class _ _ plain_stop R') E).
      - cbn in E. injection E as E.
        destruct (split_class plain_char _ _ _ _ (proj2 P) (proj2 P') (stop_class _ _ plain_stop R) (stop_class _ _ plain_stop R') E) as [X Y].
        split; [cbn; f_equal; exact X|exact Y]. }
    destruct X as [X ->]. apply chars_inj in X. subst w'. split; [|reflexivity]. f_equal.
    apply (D op); cbn; [left; reflexivity|left; reflexivity|congruence].
  - destruct t' as [op' a'|k' i'|n'|c' s' [[]| | | |]|c' l']; try contradiction AL. cbn [alike] in AL. subst k'.
    inversion W as [|? ? u ? U|? ? u ? U| | | | |]; subst; inversion W' as [|? ? u' ? U'|? ? u' ? U'| | | | |]; subst;
      rewrite !chars_app, <- !app_assoc in E; apply app_inv_head in E.
    + destruct (same_numeral _ _ _ _ _ _ U U' R R' E) as [-> ->]. split; reflexivity.
    + exfalso. exact (numeral_minus _ _ _ _ U E).
    + exfalso. exact (numeral_minus _ _ _ _ U' (eq_sym E)).
    + cbn in E. injection E as E. destruct (same_numeral _ _ _ _ _ _ U U' R R' E) as [X ->]. split; [f_equal; lia|reflexivity].
  - destruct t' as [op' a'|k' i'|n'|c' s' [[]| | | |]|c' l']; try contradiction AL.
    inversion W as [| | |? u ? U|? u ? U| | |]; subst; inversion W' as [| | |? u' ? U'|? u' ? U'| | |]; subst;
      cbn in E; injection E as E.
    + destruct (same_numeral _ _ _ _ _ _ U U' R R' E) as [-> ->]. split; reflexivity.
    + discriminate.
    + discriminate.
    + destruct (same_numeral _ _ _ _ _ _ U U' R R' E) as [X ->]. split; [f_equal; lia|reflexivity].
  - inversion N as [| | | |? ? ? NK O NS NP|a l x NK NA PX L NL|]; subst.
    + assert (NC : match p with Atom true _ => False | _ => True end) by (destruct p as [[]| | | |]; try exact I; discriminate O).
      destruct t' as [op' a'|k' i'|n'|c' s' p'|c' l'];
        try (destruct p as [[]| | | |]; contradiction).
      assert (NC' : match p' with Atom true _ => False | _ => True end) by (destruct p as [[]| | | |], p' as [[]| | | |]; try contradiction; exact I).
      clear AL NC.
      inversion N' as [| | | |? ? ? NK' O' NS' NP'| |]; subst; [|contradiction NC']. clear NC'.
      inversion W as [| | | | |? ? ? u v ? U V|? ? ? ? ? ? X|]; subst; [|congruence].
      inversion W' as [| | | | |? ? ? u' v' ? U' V'|? ? ? ? ? ? X|]; subst; [|congruence].
      rewrite !chars_app, <- !app_assoc in E. cbn in E. injection E as E.
      assert (DS : distinct names s s') by (intros op a b A B; apply D; cbn; apply in_app_iff; left; assumption).
      assert (DP : distinct names p p') by (intros op a b A B; apply D; cbn; apply in_app_iff; right; assumption).
      destruct (IHs s' u u' _ _ NS NS' DS U U' (space_ends _) (space_ends _) E) as [-> E1]. injection E1 as E1.
      destruct (split_class _ _ (" "%char :: chars v ++ ">"%char :: r) _ (" "%char :: chars v' ++ ">"%char :: r')
                  (cop_no_space c) (cop_no_space c') ltac:(intros Z; contradiction) ltac:(intros Z; contradiction) E1) as [E2 E3].
      apply cop_inj in E2. subst c'. injection E3 as E3.
      destruct (IHp p' v v' _ _ NP NP' DP V V' (angle_ends _) (angle_ends _) E3) as [-> E4].
      injection E4 as ->. split; reflexivity.
    + inversion W as [| | | | |? ? ? u v X|? ? ? ? u v ? U V|]; subst; [discriminate|].
      inversion U as [? ? ? UN| | | | | | |]; subst. rewrite NA in UN. injection UN as <-.
      destruct t' as [op' a'|k' i'|n'|c' s' p'|c' l']; try contradiction AL.
      * assert (X : exists a', p' = Atom true a') by (destruct p' as [[] a'| | | |]; try contradiction AL; exists a'; reflexivity).
        destruct X as [a' ->].
        inversion N' as [| | | |? ? ? NK' O'|? l' x' NK' NA' PX' L' NL'|]; subst; [discriminate|].
        inversion W' as [| | | | |? ? ? u' v' X|? ? ? ? u' v' ? U' V'|]; subst; [discriminate|].
        inversion U' as [? ? ? UN'| | | | | | |]; subst. rewrite NA' in UN'. injection UN' as <-.
        rewrite !chars_app, <- !app_assoc in E. cbn in E. injection E as E.
        destruct (split_class plain_char _ (","%char :: " "%char :: chars (joined v) ++ ")"%char :: r) _
                    (","%char :: " "%char :: chars (joined v') ++ ")"%char :: r') (proj2 PX) (proj2 PX')
                    ltac:(apply plain_stop; cbn; tauto) ltac:(apply plain_stop; cbn; tauto) E) as [X Y].
        apply chars_inj in X. subst x'. injection Y as Y.
        assert (DA : a = a').
        { apply (D true); [cbn; apply in_app_iff; right; left; reflexivity|cbn; apply in_app_iff; right; left; reflexivity|congruence]. }
        subst a'.
        destruct (all_separated l IHl l' v v' ")"%char ")"%char r r' L L' NL NL'
                    (fun op b b' A B => D op b b' (proj2 (in_app_iff _ _ _) (or_introl A)) (proj2 (in_app_iff _ _ _) (or_introl B)))
                    V V' ltac:(unfold closing; cbn; tauto) ltac:(unfold closing; cbn; tauto) Y) as [-> E5].
        injection E5 as ->. split; reflexivity.
      * exfalso. inversion W' as [| | | | | | |? ? v' ? V']; subst. exact (call_compound _ _ _ _ _ _ AL E).
  - inversion N as [| | | | | |? ? NK L NL]; subst. inversion W as [| | | | | | |? ? v ? V]; subst.
    destruct t' as [op' a'|k' i'|n'|c' s' p'|c' l']; try (destruct c; contradiction AL).
    + exfalso. assert (X : parenthesised c /\ exists a', p' = Atom true a').
      { unfold parenthesised. destruct p' as [[] a'| | | |]; try (destruct c; contradiction AL).
        split; [|exists a'; reflexivity]. destruct c; exact AL. }
      destruct X as [PC [a' ->]].
      inversion N' as [| | | |? ? ? NK' O'|? l' x' NK' NA' PX' L' NL'|]; subst; [discriminate|].
      inversion W' as [| | | | |? ? ? u' v' X|? ? ? ? u' v' ? U' V'|]; subst; [discriminate|].
      inversion U' as [? ? ? UN'| | | | | | |]; subst. rewrite NA' in UN'. injection UN' as <-.
      exact (call_compound _ _ _ _ _ _ PC (eq_sym E)).
    + inversion N' as [| | | | | |? ? NK' L' NL']; subst.
      inversion W' as [| | | | | | |? ? v' ? V']; subst.
      cbn [addresses] in D.
      assert (X : c = c' /\ exists x, closing x /\ chars (joined v) ++ x :: r = chars (joined v') ++ x :: r').
      { destruct (match c with ExtensionalSet => true | IntensionalSet => true | _ => false end) eqn:SC.
        - destruct c; try discriminate SC; cbn [alike] in AL; subst c'; split; try reflexivity;
            unfold between in E; rewrite !chars_app, <- !app_assoc in E; cbn in E; injection E as E; eexists; (split; [|exact E]); unfold closing; cbn; tauto.
        - assert (CS : c <> ExtensionalSet /\ c <> IntensionalSet) by (destruct c; split; discriminate).
          assert (CS' : c' <> ExtensionalSet /\ c' <> IntensionalSet) by (destruct c; try discriminate SC; exact AL).
          rewrite !between_parenthesis in E by tauto. cbn [app] in E. injection E as E.
          rewrite <- !app_assoc in E. cbn [app] in E.
          destruct (split_class _ _ (","%char :: " "%char :: (chars (joined v) ++ [")"%char]) ++ r) _ (","%char :: " "%char :: (chars (joined v') ++ [")"%char]) ++ r')
                      (con_no_comma c) (con_no_comma c') ltac:(intros Z; contradiction) ltac:(intros Z; contradiction) E) as [E2 E3].
          apply con_inj in E2. split; [exact E2|]. injection E3 as E3. rewrite <- !app_assoc in E3. exists ")"%char.
          split; [unfold closing; cbn; tauto|exact E3]. }
      destruct X as [-> (x & K & EX)].
      destruct (all_separated l IHl l' v v' x x r r' L L' NL NL' D V V' K K EX) as [-> E5].
      injection E5 as ->. split; reflexivity.
Qed.

Lemma different_texts t u s : named names t -> named names u -> distinct names t u ->
  interpret names false t = Ok s -> interpret names false u = Ok s -> t = u.
Proof.
  intros N N' D E E'.
  destruct (all_terms_separated t u s s [] [] N N' D (interpret_written _ _ (named_clear _ N) E)
              (interpret_written _ _ (named_clear _ N') E') I I eq_refl) as [X _].
  exact X.
Qed.

Lemma calls_differ l l' a a' w :
  let t := Stmt Inheritance (Comp Product l) (Atom true a) in
  let t' := Stmt Inheritance (Comp Product l') (Atom true a') in
  named names t -> named names t' -> distinct names t t' ->
  (exists s, interpret names false t = Ok s) /\
  (interpret names false t = Ok w -> interpret names false t' = Ok w -> l = l' /\ a = a').
Proof.
  intros t t' N N' D. split; [exact (named_prints t N)|]. intros E E'.
  pose proof (different_texts t t' w N N' D E E') as X. injection X as -> ->. split; reflexivity.
Qed.
End Names.
