(* Printed terms are written Narsese, and mean what they were printed from. *)
From Coq Require Import ZArith String Ascii List Bool Lia Permutation.
From Verif Require Import Base Enums Term TermFacts Maps Compound CompoundFacts NumeralSpec Parser ParserSpec Actions ActionsSpec ActionsFacts4 PrinterSpec Printer PrinterFacts.
From Verif Require Import Forms FormFacts2 FormFacts5 FormFacts6 FormFacts8 FormFacts9 Roundtrip.
From Verif Require Interning.
Import ListNotations.
Open Scope string_scope.
Open Scope list_scope.
Local Open Scope Z_scope.

(** * Layout *)

Definition laid (ws : list string) (s : string) : Prop :=
  exists pads, length pads = length ws /\ ParserSpec.padded (map chars ws) pads = chars s.

Lemma laid_nil : laid [] "".
Proof. exists []. split; reflexivity. Qed.

Lemma padded_app ws : forall ws' pads pads', length pads = length ws ->
  ParserSpec.padded (ws ++ ws') (pads ++ pads') = ParserSpec.padded ws pads ++ ParserSpec.padded ws' pads'.
Proof.
  induction ws as [|w ws IH]; intros ws' [|n pads] pads' L; try discriminate L; [reflexivity|].
  cbn [app ParserSpec.padded]. rewrite IH by (injection L as L; exact L). rewrite !app_assoc. reflexivity.
Qed.

Lemma laid_app ws ws' s s' : laid ws s -> laid ws' s' -> laid (ws ++ ws') (s ++ s').
Proof.
  intros (p & L & E) (p' & L' & E'). exists (p ++ p'). split; [rewrite !app_length; congruence|].
  rewrite map_app, padded_app by (rewrite map_length; exact L). rewrite E, E', chars_app. reflexivity.
Qed.

Lemma laid_one x : laid [x] x.
Proof. exists [O]. split; [reflexivity|]. cbn. rewrite !app_nil_r. reflexivity. Qed.

Lemma laid_space x : laid [x] (x ++ " ").
Proof. exists [1%nat]. split; [reflexivity|]. cbn [map ParserSpec.padded]. rewrite chars_app, app_nil_r. reflexivity. Qed.

Lemma laid_last ws s : ws <> [] -> laid ws s -> laid ws (s ++ " ").
Proof.
  intros N (p & L & E). destruct (exists_last N) as (ws0 & x & ->). rewrite app_length in L. cbn [length] in L.
  assert (Np : p <> []) by (intros ->; cbn in L; lia). destruct (exists_last Np) as (p0 & n & ->).
  rewrite app_length in L. cbn [length] in L.
  exists (p0 ++ [S n]). split; [rewrite !app_length; cbn [length]; lia|].
  rewrite map_app, padded_app in * by (rewrite map_length; lia). cbn [map ParserSpec.padded] in *.
  rewrite chars_app, <- E, !app_nil_r. rewrite <- !app_assoc. do 2 f_equal. cbn [chars]. unfold spaces.
  change (S n) with (1 + n)%nat. rewrite Nat.add_comm, repeat_app. reflexivity.
Qed.

Lemma laid_spread ws s : laid ws s -> exists pads, length pads = length ws /\ spread 0 ws pads = s.
Proof.
  intros (p & L & E). exists p. split; [exact L|]. unfold spread. rewrite E. cbn [spaces repeat app].
  apply string_of_list_ascii_of_string.
Qed.

(** * The form of a term *)

Section Form.
Variable names : Z -> option string.

Fixpoint form_of (t : term) : form :=
  match t with
  | Atom _ _ => Word (match names (key t) with Some s => s | None => "" end)
  | Var k i => Placeholder k (natural 10 i)
  | Itv n => Interval (natural 10 n)
  | Stmt c s p => Relation true c (form_of s) (form_of p)
  | Comp c l => if con_eqb c ExtensionalSet || con_eqb c IntensionalSet then Braces c (map form_of l) else Prefixed c (map form_of l)
  end.

Lemma form_compound c l : form_of (Comp c l) = Braces c (map form_of l) /\ set_connector c \/
  form_of (Comp c l) = Prefixed c (map form_of l) /\ ~ set_connector c.
Proof.
  unfold set_connector. destruct c; cbn; try (left; split; [reflexivity|auto; fail]); right; (split; [reflexivity|intros [H|H]; discriminate H]).
Qed.

Lemma form_assembly c l : assembly (form_of (Comp c l)) = Some (c, map form_of l).
Proof. destruct c; reflexivity. Qed.

Lemma form_variables k t : variables k (form_of t) = map (natural 10) (numbers k t).
Proof.
  induction t as [op a|k' i|n|c s p Is Ip|c l I] using term_ind'; try reflexivity.
  - cbn. destruct (vk_eqb k' k); reflexivity.
  - cbn. rewrite Is, Ip, map_app. reflexivity.
  - assert (E : concat (map (variables k) (map form_of l)) = map (natural 10) (concat (map (numbers k) l))).
    { induction I as [|t l H _ IH]; [reflexivity|]. cbn [map concat]. rewrite H, IH, map_app. reflexivity. }
    destruct (form_compound c l) as [(Fo & _)|(Fo & _)]; rewrite Fo; exact E.
Qed.

Lemma form_operators t : operators (form_of t) = [].
Proof.
  induction t as [op a|k' i|n|c s p Is Ip|c l I] using term_ind'; try reflexivity.
  - cbn. rewrite Is, Ip. reflexivity.
  - assert (E : concat (map operators (map form_of l)) = []).
    { induction I as [|t l H _ IH]; [reflexivity|]. cbn [map concat]. rewrite H, IH. reflexivity. }
    destruct (form_compound c l) as [(Fo & _)|(Fo & _)]; rewrite Fo; exact E.
Qed.

Lemma form_words t : length (words (form_of t)) = length (addresses t).
Proof.
  induction t as [op a|k' i|n|c s p Is Ip|c l I] using term_ind'; try reflexivity.
  - cbn. rewrite !app_length. congruence.
  - assert (E : length (concat (map words (map form_of l))) = length (concat (map addresses l))).
    { induction I as [|t l H _ IH]; [reflexivity|]. cbn [map concat]. rewrite !app_length. congruence. }
    destruct (form_compound c l) as [(Fo & _)|(Fo & _)]; rewrite Fo; exact E.
Qed.
End Form.

Lemma natural_inj n m : 0 <= n -> 0 <= m -> natural 10 n = natural 10 m -> n = m.
Proof.
  intros N M E. destruct (natural_numeral n N) as (_ & A & _). destruct (natural_numeral m M) as (_ & B & _). congruence.
Qed.

Lemma natural_digits n : 0 <= n -> natural 10 n <> "" /\ Forall decimal_digit (chars (natural 10 n)).
Proof.
  intros N. destruct (natural_numeral n N) as (A & _ & B). split; [|exact A].
  destruct B as [->|(c & s & -> & _)]; discriminate.
Qed.

Lemma digits_plain s : s <> "" -> Forall decimal_digit (chars s) -> PrinterSpec.plain s.
Proof.
  intros N F. split; [exact N|]. eapply Forall_impl; [|exact F]. intros c (A & B). unfold plain_char.
  split; [unfold decimal_digit in *; lia|].
  intros I. cbn in I. repeat (destruct I as [<-|I]; [cbn in A, B; lia|]). exact I.
Qed.

Lemma natural_whole n : 0 <= n -> whole (chars (natural 10 n)) n.
Proof.
  intros N. destruct (natural_digits n N) as (A & B). destruct (natural_numeral n N) as (_ & C & _).
  rewrite <- C at 2. apply whole_plain; [|exact B]. destruct (natural 10 n); [contradiction|discriminate].
Qed.

(** * Numbering *)

Lemma numbered_left (f : Z -> string) (l : list Z) :
  (forall i j, 0 <= i -> 0 <= j -> f i = f j -> i = j) ->
  (forall before i after, l = before ++ i :: after -> 0 <= i /\ forall j, 0 <= j < i -> In j before) ->
  exists m, firsts (map f l) = map (fun j => f (Z.of_nat j)) (seq 0 m) /\ forall i, In i l <-> 0 <= i < Z.of_nat m.
Proof.
  intros J. induction l as [|i l IH] using rev_ind; intros C.
  - exists O. split; [reflexivity|]. intros i. split; [intros []|cbn; lia].
  - destruct IH as (m & E & I).
    { intros b j a ->. specialize (C b j (a ++ [i])). rewrite <- app_assoc in C. exact (C eq_refl). }
    destruct (C l i [] eq_refl) as (P & B).
    assert (L : i <= Z.of_nat m).
    { destruct (Z_le_gt_dec i (Z.of_nat m)) as [H|H]; [exact H|]. exfalso.
      specialize (B (Z.of_nat m) ltac:(lia)). apply I in B. lia. }
    rewrite map_app. unfold firsts in *. rewrite fold_left_app, E. cbn [map fold_left].
    destruct (existsb (String.eqb (f i)) (map (fun j => f (Z.of_nat j)) (seq 0 m))) eqn:X.
    + exists m. split; [reflexivity|]. intros j. rewrite in_app_iff, I. cbn [In]. split; [|lia]. intros [H|[<-|[]]]; [lia|].
      apply existsb_exists in X as (s & S & Q). apply in_map_iff in S as (n & <- & S). apply in_seq in S.
      apply String.eqb_eq in Q. apply J in Q; lia.
    + exists (S m). assert (i = Z.of_nat m).
      { destruct (Z.eq_dec i (Z.of_nat m)) as [H|H]; [exact H|]. exfalso. rewrite <- not_true_iff_false in X. apply X.
        apply existsb_exists. exists (f i). split; [|apply String.eqb_refl]. apply in_map_iff. exists (Z.to_nat i).
        rewrite Z2Nat.id by lia. split; [reflexivity|]. apply in_seq. lia. }
      subst i. split; [rewrite seq_S, map_app; reflexivity|]. intros j. rewrite in_app_iff, I. cbn [In]. lia.
Qed.

Lemma numbered_form names t k i : left_to_right t -> In i (numbers k t) -> by_occurrence (form_of names t) k (natural 10 i) i.
Proof.
  intros L I. unfold by_occurrence. rewrite form_variables.
  destruct (numbered_left (natural 10) (numbers k t) natural_inj (L k)) as (m & E & A).
  apply A in I. exists (Z.to_nat i). split; [lia|]. rewrite E.
  rewrite (map_nth_error _ (Z.to_nat i) (seq 0 m) (d := Z.to_nat i)); [rewrite Z2Nat.id by lia; reflexivity|].
  rewrite nth_error_nth' with (d := O) by (rewrite seq_length; lia). rewrite seq_nth by lia. reflexivity.
Qed.

(** * Legible terms *)

Section Legible.
Variable ord : list (option connector * list term) -> list (option connector * list term).
Variable w : Interning.world.
Variable ops : list Z.
Hypothesis Order : in_order w ops.

Local Notation names := (dictionary_of (Interning.tab w)).
Local Notation legible := (legible ord w).

Lemma legible_deep (P : term -> Prop) :
  (forall a s, handed_out w s a -> PrinterSpec.plain s -> P (Atom false a)) ->
  (forall k i, 0 <= i -> P (Var k i)) ->
  (forall n, 0 <= n <= 2147483647 -> P (Itv n)) ->
  (forall c s p, names (key (Stmt c s p)) = None -> ~ wraps_subject c -> ~ wraps_predicate c ->
    legible s -> legible p -> P s -> P p -> P (Stmt c s p)) ->
  (forall c l, names (key (Comp c l)) = None -> arity c (length l) -> compound ord true c l = Ok (Comp c l) ->
    Forall legible l -> Forall P l -> P (Comp c l)) ->
  forall t, legible t -> P t.
Proof.
  intros HA HV HI HS HC. induction t as [op a|k i|n|c s p Is Ip|c l I] using term_ind'; intros G; inversion G; subst.
  - eapply HA; eassumption.
  - apply HV; assumption.
  - apply HI; assumption.
  - apply HS; auto.
  - apply HC; try assumption. clear - I H4. induction H4 as [|t l A _ IH]; [constructor|].
    inversion I; subst. constructor; auto.
Qed.

Lemma plain_unlike s : PrinterSpec.plain s -> ~ operator_name s.
Proof. intros P. apply word_plain_name. left. exact P. Qed.

Lemma name_known a s : handed_out w s a -> PrinterSpec.plain s -> names (key (Atom false a)) = Some s.
Proof using Order.
  intros H P. destruct (order_handles _ _ Order s a (plain_unlike s P) H) as (E & _).
  destruct (order_names _ _ Order s _ (plain_unlike s P) E) as (_ & _ & _ & _ & _ & D & _). exact D.
Qed.

Lemma legible_operation t : legible t -> is_operation t = false.
Proof. intros G. revert t G. refine (legible_deep _ _ _ _ _ _); try reflexivity. intros c s p _ _ _ _ _ _ H. exact H. Qed.

Lemma legible_proper t : legible t -> proper (form_of names t).
Proof using Order.
  intros G. revert t G. refine (legible_deep _ _ _ _ _ _); [intros a s H P|intros k i H|intros n H|intros c s p _ _ _ _ _ Is Ip|intros c l _ A _ _ I].
  - cbn [form_of]. rewrite (name_known a s H P). constructor. left. exact P.
  - constructor. left. destruct (natural_digits i H). apply digits_plain; assumption.
  - eapply F_interval; [apply natural_whole; lia|lia].
  - constructor; assumption.
  - assert (F : Forall proper (map (form_of names) l)).
    { rewrite Forall_forall in *. intros f J. apply in_map_iff in J as (t & <- & J). apply I, J. }
    assert (N : (1 <= length l)%nat) by (destruct c; cbn in A; lia || contradiction).
    assert (N' : map (form_of names) l <> []) by (destruct l; [cbn in N; lia|discriminate]).
    destruct (form_compound names c l) as [(Fo & S)|(Fo & S)]; rewrite Fo.
    + apply F_braces; assumption.
    + assert (T : forall x y, map (form_of names) l = [x; y] -> operand x /\ operand y).
      { intros x y Q. rewrite Q in F. inversion F as [|? ? F1 F2]; subst. inversion F2; subst. split; constructor; assumption. }
      destruct c; cbn [arity] in A;
        first [ exfalso; exact A
              | exfalso; apply S; unfold set_connector; auto; fail
              | apply F_product; [unfold image; auto; fail|assumption|assumption]
              | apply F_listing; [unfold listing; cbn; auto 10; fail|rewrite map_length; exact A|assumption]
              | destruct l as [|x [|y [|z l]]]; cbn [length] in A; try lia; cbn [map] in *;
                first [ apply F_negation; inversion F; assumption
                      | destruct (T _ _ eq_refl); apply F_difference; [unfold difference; auto; fail|assumption|assumption] ] ].
Qed.

(* What is printed *)

Lemma commas_laid l : Forall (fun t => exists s, interpret names false t = Ok s /\ laid (spelling (form_of names t)) s) l -> l <> [] ->
  exists v, texts names l = Ok v /\ laid (interspersed "," (map spelling (map (form_of names) l))) (joined v).
Proof.
  induction 1 as [|t l (s & E & L) F IH]; intros N; [contradiction|].
  destruct l as [|u l].
  - exists [s]. split; [|exact L]. cbn [texts]. rewrite E. reflexivity.
  - destruct IH as (v & E' & L'); [discriminate|]. exists (s :: v). split.
    + change (texts names (t :: u :: l)) with (bind (interpret names false t) (fun s => bind (texts names (u :: l)) (fun v => Ok (s :: v)))).
      rewrite E, E'. reflexivity.
    + destruct v as [|s' v]; [exfalso|].
      { cbn [texts] in E'. destruct (interpret names false u); try discriminate E'. cbn [bind] in E'.
        destruct ((fix go l := match l with
               | [] => Ok []
               | t :: l' => bind (interpret names false t) (fun s => bind (go l') (fun v => Ok (s :: v)))
               end) l); discriminate E'. }
      rewrite joined_more. cbn [map interspersed] in *. apply (laid_app _ _ _ _ L).
      apply (laid_app [","] _ ", " _ (laid_space ",") L').
Qed.

Lemma spelling_some t : legible t -> spelling (form_of names t) <> [].
Proof.
  intros G. revert t G. refine (legible_deep _ _ _ _ _ _); [intros a s H P|intros k i H|intros n H|intros c s p _ _ _ _ _ Is Ip|intros c l _ A _ _ I]; try discriminate.
  destruct (form_compound names c l) as [(Fo & S)|(Fo & S)]; rewrite Fo; discriminate.
Qed.

Lemma legible_printed t : legible t -> exists s, interpret names false t = Ok s /\ laid (spelling (form_of names t)) s.
Proof using Order.
  intros G. revert t G. refine (legible_deep _ _ _ _ _ _); [intros a s H P|intros k i H|intros n H|intros c s p K _ _ Gs Gp (u & Eu & Lu) (v & Ev & Lv)|intros c l K A _ F I].
  - exists s. split; [apply interpret_atom, name_known; assumption|]. cbn [form_of spelling]. rewrite (name_known a s H P). apply laid_one.
  - exists (vk_repr k ++ natural 10 i)%string. split; [cbn [interpret]; rewrite integer_numeral by exact H; reflexivity|].
    cbn [form_of spelling]. replace (variable_sign k) with (vk_repr k) by (destruct k; reflexivity).
    apply (laid_app [_] [_] _ _ (laid_one _) (laid_one _)).
  - exists ("+" ++ natural 10 n)%string. split.
    + rewrite interpret_interval. replace (n <? 0) with false by (symmetry; apply Z.ltb_ge; lia).
      rewrite integer_numeral by lia. reflexivity.
    + apply (laid_app ["+"] [_] _ _ (laid_one _) (laid_one _)).
  - rewrite interpret_statement, Eu, Ev by (assumption || apply legible_operation; assumption). cbn [bind]. eexists. split; [reflexivity|].
    cbn [form_of spelling]. apply (laid_app ["<"] _ "<" _ (laid_one _)).
    replace (u ++ " " ++ cop_repr c ++ " " ++ v ++ ">")%string with ((u ++ " ") ++ (cop_repr c ++ " ") ++ (v ++ ">"))%string
      by (apply chars_inj; rewrite !chars_app, <- !app_assoc; reflexivity).
    apply laid_app; [apply laid_last; [apply spelling_some; assumption|exact Lu]|].
    replace (copula_sign c) with (cop_repr c) by (destruct c; reflexivity).
    apply (laid_app [_] _ _ _ (laid_space _)). apply laid_app; [exact Lv|apply laid_one].
  - assert (N : l <> []) by (intros ->; destruct c; cbn in A; lia || contradiction).
    destruct (commas_laid l I N) as (v & E & L). rewrite interpret_compound, E by assumption. cbn [bind]. eexists. split; [reflexivity|].
    destruct (form_compound names c l) as [(Fo & [-> | ->])|(Fo & S)]; rewrite Fo; cbn [spelling between sign closing].
    + apply (laid_app ["{"] _ "{" _ (laid_one _)). apply laid_app; [exact L|apply laid_one].
    + apply (laid_app ["["] _ "[" _ (laid_one _)). apply laid_app; [exact L|apply laid_one].
    + replace (between c (joined v)) with ("(" ++ (sign c ++ (", " ++ (joined v ++ ")"))))%string.
      * apply (laid_app ["("] _ "(" _ (laid_one _)). apply (laid_app [sign c] _ _ _ (laid_one _)).
        apply (laid_app [","] _ ", " _ (laid_space _)). apply laid_app; [exact L|apply laid_one].
      * destruct c; try reflexivity; exfalso; apply S; unfold set_connector; auto.
Qed.

(* What it means *)

Lemma legible_means (numbered : vkind -> string -> Z -> Prop) w' t : legible t -> (forall n a, handed_out w n a -> handed_out w' n a) ->
  (forall k i, In i (numbers k t) -> numbered k (natural 10 i) i) -> means ord (handed_out w') numbered (form_of names t) t.
Proof using Order.
  intros G Later. revert t G. refine (legible_deep _ _ _ _ _ _); [intros a s H P|intros k i H|intros n H|intros c s p _ Ws Wp _ _ Is Ip|intros c l _ A C _ I]; intros N.
  - cbn [form_of]. rewrite (name_known a s H P). constructor. apply Later, H.
  - constructor. apply N. cbn. replace (vk_eqb k k) with true by (destruct k; reflexivity). left. reflexivity.
  - constructor. apply natural_whole. lia.
  - cbn [form_of]. econstructor; [apply Is|apply Ip|constructor; assumption]; intros k i J; apply N; cbn [numbers]; apply in_or_app; auto.
  - eapply M_compound; [apply form_assembly| |exact C]. clear A C. cbn [numbers] in N. induction I as [|t l H _ IH]; [constructor|].
    cbn [map concat] in N. constructor; [apply H|apply IH]; intros k i J; apply N, in_or_app; auto.
Qed.

Lemma inside_component g f c l : inside g f -> assembly f = Some (c, l) -> g = f \/ exists f', In f' l /\ inside g f'.
Proof.
  intros X As. inversion X as [| | | | |? c' l' f' As' J Y]; subst; try discriminate As; [left; reflexivity|].
  right. rewrite As in As'. injection As' as <- <-. exists f'. split; assumption.
Qed.

Lemma inside_legible g t : legible t -> inside g (form_of names t) ->
  exists u, g = form_of names u /\ legible u /\ (forall k i, In i (numbers k u) -> In i (numbers k t)) /\
    (forall s, In s (words g) -> In s (words (form_of names t))).
Proof.
  intros G. revert t G. refine (legible_deep _ _ _ _ _ _); [intros a s H P|intros k i H|intros n H|intros c s p K Ws Wp Gs Gp Is Ip|intros c l K A C F I]; intros X.
  - inversion X as [| | | | |? ? ? ? As]; subst; [|discriminate As].
    exists (Atom false a). repeat split; auto. econstructor; eassumption.
  - inversion X as [| | | | |? ? ? ? As]; subst; [|discriminate As].
    exists (Var k i). repeat split; auto. constructor. exact H.
  - inversion X as [| | | | |? ? ? ? As]; subst; [|discriminate As].
    exists (Itv n). repeat split; auto. constructor. exact H.
  - inversion X as [|x c' a b Y|x c' a b Y| | |? ? ? ? As]; subst; [| | |discriminate As].
    + exists (Stmt c s p). repeat split; auto. constructor; assumption.
    + destruct (Is Y) as (u & E & Gu & Nu & Wu). exists u. repeat split; auto; intros; cbn [numbers form_of words]; apply in_or_app; auto.
    + destruct (Ip Y) as (u & E & Gu & Nu & Wu). exists u. repeat split; auto; intros; cbn [numbers form_of words]; apply in_or_app; auto.
  - assert (Self : legible (Comp c l)) by (constructor; assumption).
    assert (Wo : words (form_of names (Comp c l)) = concat (map words (map (form_of names) l)))
      by (destruct (form_compound names c l) as [(Fo & _)|(Fo & _)]; rewrite Fo; reflexivity).
    destruct (inside_component _ _ _ _ X (form_assembly names c l)) as [->|(f & J & Y)].
    + exists (Comp c l). repeat split; auto.
    + apply in_map_iff in J as (t & <- & J). rewrite Forall_forall in I.
      destruct (I t J Y) as (u & E & Gu & Nu & Wu). exists u. repeat split; auto.
      * intros k i M. cbn [numbers]. apply in_concat. exists (numbers k t). split; [apply in_map; exact J|auto].
      * intros s M. rewrite Wo. apply in_concat. exists (words (form_of names t)). split; [do 2 apply in_map; exact J|auto].
Qed.

Lemma legible_unstuck (numbered : vkind -> string -> Z -> Prop) w' ops' t : legible t -> in_order w' ops' -> (forall n a, handed_out w n a -> handed_out w' n a) ->
  (forall k s i j, numbered k s i -> numbered k s j -> i = j) ->
  (forall k i, In i (numbers k t) -> numbered k (natural 10 i) i) -> ~ stuck ord (handed_out w') numbered (form_of names t).
Proof using Order.
  intros G O Later Nu N S.
  assert (U : forall u v v', legible u -> means ord (handed_out w') numbered (form_of names u) v ->
    means ord (handed_out w') numbered (form_of names u) v' -> v = v').
  { intros u v v' Gu. apply means_unique; [exact Nu| |apply form_operators]. intros s a b I. apply (order_unique w' ops' s a b O).
    apply word_plain_name. exact (proj1 (words_words _ (or_introl (legible_proper u Gu))) s I). }
  destruct S as [g c l ts Is As M C|x c a b s Is Ws M C|x c a b p Is Wp M C].
  - destruct (inside_legible _ _ G Is) as (u & -> & Gu & Nn & _).
    inversion Gu; subst; try discriminate As.
    rewrite form_assembly in As. injection As as <- <-.
    assert (ts = l0); [|subst; congruence].
    assert (Z0 : forall k i, In i (concat (map (numbers k) l0)) -> In i (numbers k t)) by (intros k i; apply (Nn k i)).
    clear - H2 M U Later Z0 N Order. revert ts M. induction H2 as [|v l G _ IH]; intros ts M; inversion M; subst; [reflexivity|]. cbn [map concat] in Z0. f_equal.
    + eapply U; [exact G|eassumption|]. apply legible_means; [exact G|exact Later|]. intros k i J. apply N, Z0, in_or_app. left. exact J.
    + apply IH; [|assumption]. intros k i J. apply Z0, in_or_app. right. exact J.
  - destruct (inside_legible _ _ G Is) as (u & E & Gu & _). inversion Gu; subst; try discriminate E.
    + injection E as -> -> -> ->. contradiction.
    + exfalso. pose proof (form_assembly names c0 l) as A. rewrite <- E in A. discriminate A.
  - destruct (inside_legible _ _ G Is) as (u & E & Gu & _). inversion Gu; subst; try discriminate E.
    + injection E as -> -> -> ->. contradiction.
    + exfalso. pose proof (form_assembly names c0 l) as A. rewrite <- E in A. discriminate A.
Qed.
Lemma legible_words t : legible t -> forall n, In n (words (form_of names t)) -> Interning.check_by_name (Interning.tab w) n = true.
Proof using Order.
  intros G. revert t G. refine (legible_deep _ _ _ _ _ _); [intros a s H P|intros k i H|intros n H|intros c s p _ _ _ _ _ Is Ip|intros c l _ A _ _ I]; intros q Q; try contradiction.
  - cbn [form_of words] in Q. rewrite (name_known a s H P) in Q. destruct Q as [<-|[]].
    destruct (order_handles _ _ Order s a (plain_unlike s P) H) as (E & _). unfold Interning.check_by_name, has. rewrite E. reflexivity.
  - cbn [form_of words] in Q. apply in_app_or in Q as [Q|Q]; auto.
  - assert (Q' : In q (concat (map words (map (form_of names) l)))).
    { destruct (form_compound names c l) as [(Fo & _)|(Fo & _)]; rewrite Fo in Q; exact Q. }
    clear Q A. induction I as [|t l H _ IH]; [contradiction|]. cbn [map concat] in Q'. apply in_app_or in Q' as [Q|Q]; auto.
Qed.
End Legible.

(** * There and back *)

Theorem read_back ord fresh st t (Ho : any_order ord) (Hf : careful fresh) : in_order (atoms st) (operations st) ->
  legible ord (atoms st) t -> left_to_right t -> (forall k i, t <> Var k i) ->
  population (atoms st) + 2 * Z.of_nat (length (addresses t)) < 4294967295 ->
  exists s, interpret (dictionary_of (Interning.tab (atoms st))) false t = Ok s /\
    forall room p, has_room room (s ++ mark_sign p) -> exists st' tk,
      parse_task ord fresh room st [] (s ++ mark_sign p) = Ok (st', [], Some (VTask tk), false) /\
      content (sentence_of tk) = t /\ punct (sentence_of tk) = p /\
      in_order (atoms st') (operations st') /\ Interning.tab (atoms st') = Interning.tab (atoms st) /\
      (forall n a, handed_out (atoms st) n a -> handed_out (atoms st') n a).
Proof.
  intros O G L V R. destruct (legible_printed ord _ _ O t G) as (s & E & La). exists s. split; [exact E|]. intros room p Ro.
  set (f := form_of (dictionary_of (Interning.tab (atoms st))) t) in *.
  set (x := Written [] f p None []).
  assert (P : proper_task x).
  { constructor; cbn; auto.
    - apply (legible_proper ord _ _ O t G).
    - intros k n Ef. unfold f in Ef. destruct t; try discriminate Ef; [exact (V _ _ eq_refl)|].
      pose proof (form_assembly (dictionary_of (Interning.tab (atoms st))) c l) as A. rewrite Ef in A. discriminate A.
    - discriminate.
    - intros []. reflexivity. }
  assert (Lx : laid (spell_task x) (s ++ mark_sign p)).
  { change (spell_task x) with (spelling f ++ [mark_sign p]).
    apply laid_app; [exact La|apply laid_one]. }
  destruct (laid_spread _ _ Lx) as (pads & Lp & Sp). rewrite <- Sp in *.
  assert (Nb : forall k i, In i (numbers k t) -> by_occurrence f k (natural 10 i) i) by (intros k i; apply numbered_form; exact L).
  assert (M : mentions (body x) = length (addresses t)).
  { unfold mentions. cbn [body x]. unfold f. rewrite form_operators, form_words. cbn. lia. }
  destruct (task_read ord Ho fresh Hf room st x 0 pads Ro O P Lp) as [(st' & tk & E' & S & O' & Later & _ & _ & _ & Same)|(E' & w' & ops' & O' & Later & S)].
  - rewrite M. exact R.
  - intros n I. cbn [body x] in I. unfold f in I. rewrite form_operators in I. destruct I.
  - exists st', tk. split; [exact E'|]. destruct S as [Sc Sm _ _ _]. cbn [body mark x] in Sc, Sm.
    split; [|split; [exact Sm|split; [exact O'|split; [|exact Later]]]].
    2: { apply Same; [apply form_operators|]. exact (legible_words ord _ _ O t G). }
    eapply meaning_unique; [exact O'|apply (task_body x P)|apply form_operators|exact Sc|].
    apply (legible_means ord _ _ O); assumption.
  - exfalso. cbn [body x] in S. revert S. apply (legible_unstuck ord _ _ O _ w' ops'); try assumption. apply occurrence_unique.
Qed.
