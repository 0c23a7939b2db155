(* Lemmas on coloured texts *)
From Coq Require Import ZArith Bool Lia String Ascii List.
From Verif Require Import Base Enums Term TermFacts Numeral Printer PrinterSpec PrinterFacts.
From Verif Require Interning.
Import ListNotations.
Open Scope string_scope.
Open Scope list_scope.
Local Open Scope Z_scope.

(* ---- format strings without fields ---- *)

Definition tameb (s : string) : bool := forallb (fun c => negb (Ascii.eqb c "{" || Ascii.eqb c "}" || Ascii.eqb c "027")) (list_ascii_of_string s).
Lemma tameb_ok s : tameb s = true -> tame s.
Proof.
  unfold tameb, tame. rewrite forallb_forall, Forall_forall. intros H c I. specialize (H c I). intros J. cbn in J.
  repeat (destruct J as [<-|J]; [discriminate H|]). exact J.
Qed.

Lemma tame_cases c : tame_char c -> Ascii.eqb c "{" = false /\ Ascii.eqb c "}" = false /\ Ascii.eqb c "027" = false.
Proof.
  unfold tame_char. intros H. repeat split; apply Ascii.eqb_neq; intros ->; apply H; cbn; tauto.
Qed.

Definition braceless (s : string) : bool := forallb (fun c => negb (Ascii.eqb c "{" || Ascii.eqb c "}")) (list_ascii_of_string s).

Lemma formatting_braceless s : forall auto used args r, braceless s = true ->
  formatting InText auto used (s ++ r)%string args = bind (formatting InText auto used r args) (fun t => Ok (s ++ t)%string).
Proof.
  induction s as [|c s IH]; intros auto used args r T; cbn [append formatting].
  - destruct (formatting InText auto used r args); reflexivity.
  - cbn in T. apply andb_prop in T. destruct T as [A B]. apply negb_true_iff, orb_false_elim in A. destruct A as [A A'].
    rewrite A, A'. rewrite IH by exact B. destruct (formatting InText auto used r args); reflexivity.
Qed.

Lemma tame_braceless s : tame s -> braceless s = true.
Proof.
  unfold tame, braceless. rewrite Forall_forall, forallb_forall. intros H c I.
  destruct (tame_cases c (H c I)) as (A & B & _). rewrite A, B. reflexivity.
Qed.

Lemma format_tame s args : tame s -> format s args = Ok s.
Proof.
  intros T. unfold format. pose proof (formatting_braceless s (Some O) false args "" (tame_braceless s T)) as F.
  rewrite app_empty in F. rewrite F. cbn. rewrite app_empty. reflexivity.
Qed.

(* ---- escape sequences ---- *)

Lemma string_app_assoc a b c : (a ++ (b ++ c) = (a ++ b) ++ c)%string.
Proof. induction a as [|x a IH]; cbn; [reflexivity|]. f_equal. exact IH. Qed.

Definition whole (s s' : string) : Prop := forall r, bare false (s ++ r)%string = (s' ++ bare false r)%string.

Lemma whole_app a b a' b' : whole a a' -> whole b b' -> whole (a ++ b) (a' ++ b').
Proof. intros A B r. rewrite <- !string_app_assoc, A, B. rewrite string_app_assoc. reflexivity. Qed.

Lemma whole_tame s : tame s -> whole s s.
Proof.
  induction s as [|c s IH]; intros T r; cbn; [reflexivity|].
  destruct (tame_cases c (Forall_inv T)) as (_ & _ & C). rewrite C. f_equal. apply IH. exact (Forall_inv_tail T).
Qed.

Lemma whole_bare s s' : whole s s' -> bare false s = s'.
Proof. intros H. specialize (H ""). rewrite !app_empty in H. exact H. Qed.

Definition invisible (c : colour) : Prop := whole (escape "38" c) "".

Lemma whole_reset : whole reset_colour "".
Proof. intros r. reflexivity. Qed.

Lemma invisible_all : invisible color_term /\ invisible color_angle /\ invisible color_parenthesis /\
  invisible color_seperator /\ invisible color_copula /\ invisible color_connector /\ invisible color_number /\
  invisible color_operation.
Proof. repeat split; intros r; reflexivity. Qed.

Lemma fg_whole c s t args : invisible c -> format s args = Ok t -> forall u, whole t u ->
  exists s', fg c s args = Ok s' /\ whole s' u.
Proof.
  intros I F u W. exists (escape "38" c ++ t ++ reset_colour)%string. unfold fg, styled. rewrite F. cbn [bind]. split; [reflexivity|].
  pose proof (whole_app _ _ _ _ I (whole_app _ _ _ _ W whole_reset)) as H. cbn [append] in H. rewrite app_empty in H. exact H.
Qed.

Lemma fg_tame c s : invisible c -> tame s -> exists s', fg c s [] = Ok s' /\ whole s' s.
Proof. intros I T. exact (fg_whole c s s [] I (format_tame s [] T) s (whole_tame s T)). Qed.

(* The format string made of braces, and what it does to a text *)
Lemma fg_braces u : exists s', bind (fg color_term "{{}}" []) (fun f => format f [AText u]) = Ok s' /\
  forall v, whole u v -> whole s' v.
Proof.
  assert (F : fg color_term "{{}}" [] = Ok (escape "38" color_term ++ "{}" ++ reset_colour)%string) by reflexivity.
  rewrite F. cbn [bind]. exists (escape "38" color_term ++ u ++ reset_colour)%string. split.
  - unfold format. rewrite formatting_braceless by (vm_compute; reflexivity).
    reflexivity.
  - intros v W. pose proof (whole_app _ _ _ _ (proj1 invisible_all) (whole_app _ _ _ _ W whole_reset)) as H.
    cbn [append] in H. rewrite app_empty in H. exact H.
Qed.

(* ---- digits ---- *)

Lemma tame_app a b : tame a -> tame b -> tame (a ++ b).
Proof. unfold tame. intros A B. rewrite chars_app. apply Forall_app. split; assumption. Qed.

Lemma digit_tame n : 0 <= n < 16 -> tame (String (digit_char n) "").
Proof.
  intros B. apply tameb_ok.
  assert (G : forallb (fun n => tameb (String (digit_char n) "")) (map Z.of_nat (seq 0 16)) = true) by (vm_compute; reflexivity).
  rewrite forallb_forall in G. apply G. apply in_map_iff. exists (Z.to_nat n). split; [lia|apply in_seq; lia].
Qed.

Lemma put_digits_tame base fuel : 0 < base <= 16 -> forall n s, tame s -> tame (put_digits fuel base n s).
Proof.
  intros B. induction fuel as [|fuel IH]; intros n s T; cbn [put_digits]; [exact T|].
  assert (T' : tame (String (digit_char (n mod base)) s)).
  { constructor; [|exact T]. apply (Forall_inv (digit_tame (n mod base) ltac:(pose proof (Z.mod_pos_bound n base); lia))). }
  destruct (n / base =? 0); [exact T'|]. apply IH. exact T'.
Qed.

Lemma integer_tame base n : 0 < base <= 16 -> tame (integer base n).
Proof.
  intros B. unfold integer, natural. destruct (n <? 0).
  - apply tame_app; [apply tameb_ok; reflexivity|]. apply put_digits_tame; [exact B|constructor].
  - apply put_digits_tame; [exact B|constructor].
Qed.

Lemma con_tame c : c <> ExtensionalSet -> tame (con_repr c).
Proof. intros N. destruct c; try contradiction; apply tameb_ok; reflexivity. Qed.

(* ---- terms ---- *)

Definition agree (r r' : res string) : Prop :=
  match r, r' with
  | Ok s, Ok s' => whole s' s
  | UB, UB => True
  | _, _ => False
  end.

Lemma agree_fg c s : invisible c -> tame s -> agree (Ok s) (fg c s []).
Proof. intros I T. destruct (fg_tame c s I T) as (s' & -> & W). exact W. Qed.

Lemma bind_agree r r' f f' : agree r r' -> (forall s s', whole s' s -> agree (f s) (f' s')) -> agree (bind r f) (bind r' f').
Proof. intros A H. destruct r, r'; try contradiction A; [apply H; exact A|exact I]. Qed.

Section Names.
Variable names : Z -> option string.
Hypothesis names_tame : forall k s, names k = Some s -> tame s.

Lemma append_agree l : Forall (fun t => agree (interpret names false t) (interpret names true t)) l ->
  agree (append_strs false (interpret names false) l) (append_strs true (interpret names true) l).
Proof.
  induction 1 as [|t l A F IH]; [intros r; reflexivity|]. destruct l as [|u l]; [exact A|].
  change (append_strs false (interpret names false) (t :: u :: l)) with
    (bind (interpret names false t) (fun a => bind (Ok ", ") (fun sep =>
       bind (append_strs false (interpret names false) (u :: l)) (fun b => Ok (a ++ sep ++ b)%string)))).
  change (append_strs true (interpret names true) (t :: u :: l)) with
    (bind (interpret names true t) (fun a => bind (fg color_seperator ", " []) (fun sep =>
       bind (append_strs true (interpret names true) (u :: l)) (fun b => Ok (a ++ sep ++ b)%string)))).
  apply bind_agree; [exact A|]. intros a a' WA. apply bind_agree.
  - apply agree_fg; [apply invisible_all|apply tameb_ok; reflexivity].
  - intros b b' WB. apply bind_agree; [exact IH|]. intros c c' WC. cbn [agree].
    apply whole_app; [exact WA|]. apply whole_app; assumption.
Qed.

Lemma unknown_agree op a : agree (interpret_unknown false op a) (interpret_unknown true op a).
Proof.
  assert (F : exists s, format (if op then "^0x{:x}" else "0x{:x}") [AInt a] = Ok s /\ tame s).
  { destruct op; cbn -[integer]; rewrite app_empty; eexists; (split; [reflexivity|]).
    - apply (tame_app "^0x" (integer 16 a)); [apply tameb_ok; reflexivity|apply integer_tame; lia].
    - apply (tame_app "0x" (integer 16 a)); [apply tameb_ok; reflexivity|apply integer_tame; lia]. }
  destruct F as (s & F & T). unfold interpret_unknown. rewrite F. cbn [bind]. apply agree_fg; [|exact T].
  destruct op; apply invisible_all.
Qed.

Lemma format_five a b c d e : format "{}{} {} {}{}" [AText a; AText b; AText c; AText d; AText e] =
  Ok (a ++ b ++ " " ++ c ++ " " ++ d ++ e)%string.
Proof. unfold format. cbn. rewrite app_empty. reflexivity. Qed.

Lemma colours_agree t : tame_copulas t -> agree (interpret names false t) (interpret names true t).
Proof.
  pose proof invisible_all as (I1 & I2 & I3 & I4 & I5 & I6 & I7 & I8).
  induction t as [op a|k i|n|c s p IHs IHl IHp|c l IHl] using term_deep; intros M.
  - cbn [interpret]. generalize (names_tame (Interning.int32 (thash (Atom op a)))).
    destruct (names (Interning.int32 (thash (Atom op a)))) as [s|]; intros T; [|apply unknown_agree].
    apply agree_fg; [destruct op; assumption|]. apply T. reflexivity.
  - cbn [interpret]. apply agree_fg; [exact I1|]. apply tame_app; [destruct k; apply tameb_ok; reflexivity|]. apply integer_tame. lia.
  - cbn [interpret]. rewrite format_interval. cbn [bind]. apply agree_fg; [exact I7|].
    destruct (n <? 0); [apply integer_tame; lia|]. apply tame_app; [apply tameb_ok; reflexivity|apply integer_tame; lia].
  - inversion M as [| | |? ? ? TC MS MP|]; subst.
    cbn [interpret is_operation]. generalize (names_tame (Interning.int32 (thash (Stmt c s p)))).
    destruct (names (Interning.int32 (thash (Stmt c s p)))) as [w|]; intros T; [apply whole_tame; apply T; reflexivity|]. clear T.
    destruct (is_operation p); cbn [negb].
    + apply bind_agree; [apply IHp, MP|]. intros u u' WU. destruct s as [| | | |d l]; try exact I.
      inversion MS as [| | | |? ? ML]; subst.
      destruct (fg_tame color_parenthesis "(" I3 (tameb_ok "(" eq_refl)) as (a & EA & WA).
      destruct (fg_tame color_seperator ", " I4 (tameb_ok ", " eq_refl)) as (b & EB & WB).
      destruct (fg_tame color_parenthesis ")" I3 (tameb_ok ")" eq_refl)) as (z & EZ & WZ).
      rewrite EA. cbn [bind]. rewrite EB. cbn [bind].
      apply bind_agree.
      * apply append_agree. rewrite Forall_forall in *. intros t H. apply IHl; [exact H|]. apply ML. exact H.
      * intros m m' WM. rewrite EZ. cbn [bind agree].
        apply (whole_app _ _ "(" _ WA). apply whole_app; [exact WU|]. apply (whole_app _ _ ", " _ WB). apply whole_app; assumption.
    + apply bind_agree; [apply IHs, MS|]. intros u u' WU. apply bind_agree; [apply IHp, MP|]. intros v v' WV.
      rewrite format_statement.
      destruct (fg_tame color_angle "<" I2 (tameb_ok "<" eq_refl)) as (a & EA & WA).
      destruct (fg_braces u') as (b & EB & WB). destruct (fg_tame color_copula (cop_repr c) I5 TC) as (m & EM & WM).
      destruct (fg_braces v') as (b' & EB' & WB'). destruct (fg_tame color_angle ">" I2 (tameb_ok ">" eq_refl)) as (z & EZ & WZ).
      rewrite EA. cbn [bind]. rewrite EB. cbn [bind]. rewrite EM. cbn [bind]. rewrite EB'. cbn [bind]. rewrite EZ. cbn [bind].
      rewrite format_five. cbn [agree].
      apply (whole_app _ _ "<" _ WA). apply (whole_app _ _ _ _ (WB _ WU)).
      apply (whole_app " " _ " " _ (whole_tame " " (tameb_ok " " eq_refl))). apply (whole_app _ _ _ _ WM).
      apply (whole_app " " _ " " _ (whole_tame " " (tameb_ok " " eq_refl))). apply (whole_app _ _ _ _ (WB' _ WV)). exact WZ.
  - inversion M as [| | | |? ? ML]; subst.
    cbn [interpret]. generalize (names_tame (Interning.int32 (thash (Comp c l)))).
    destruct (names (Interning.int32 (thash (Comp c l)))) as [w|]; intros T; [apply whole_tame; apply T; reflexivity|]. clear T.
    destruct l as [|t0 l0]; [exact I|]. set (l := t0 :: l0) in *.
    apply bind_agree.
    { apply append_agree. rewrite Forall_forall in *. intros t H. apply IHl; [exact H|]. apply ML. exact H. }
    intros m m' WM.
    destruct (fg_tame color_parenthesis "(" I3 (tameb_ok "(" eq_refl)) as (a & EA & WA).
    destruct (fg_tame color_seperator ", " I4 (tameb_ok ", " eq_refl)) as (b & EB & WB).
    destruct (fg_tame color_parenthesis ")" I3 (tameb_ok ")" eq_refl)) as (z & EZ & WZ).
    assert (G : c <> ExtensionalSet -> agree (Ok ("(" ++ con_repr c ++ ", " ++ m ++ ")")%string)
      (bind (fg color_parenthesis "(" []) (fun a =>
       bind (fg color_connector (con_repr c) []) (fun b =>
       bind (fg color_seperator ", " []) (fun sep =>
       bind (fg color_parenthesis ")" []) (fun z => Ok (a ++ b ++ sep ++ m' ++ z)%string)))))).
    { intros N. destruct (fg_tame color_connector (con_repr c) I6 (con_tame c N)) as (k & EK & WK).
      rewrite EA. cbn [bind]. rewrite EK. cbn [bind]. rewrite EB. cbn [bind]. rewrite EZ. cbn [bind agree].
      apply (whole_app _ _ "(" _ WA). apply (whole_app _ _ _ _ WK). apply (whole_app _ _ ", " _ WB). apply whole_app; assumption. }
    destruct c; try (apply G; discriminate).
    + destruct (fg_tame color_parenthesis "[" I3 (tameb_ok "[" eq_refl)) as (o & EO & WO).
      destruct (fg_tame color_parenthesis "]" I3 (tameb_ok "]" eq_refl)) as (o' & EO' & WO').
      rewrite EO. cbn [bind]. rewrite EO'. cbn [bind agree]. apply (whole_app _ _ "[" _ WO). apply whole_app; assumption.
    + assert (BO : whole "{" "{" /\ whole "}" "}") by (split; intros r; reflexivity).
      destruct (fg_whole color_parenthesis "{{" "{" [] I3 eq_refl "{" (proj1 BO)) as (o & EO & WO).
      destruct (fg_whole color_parenthesis "}}" "}" [] I3 eq_refl "}" (proj2 BO)) as (o' & EO' & WO').
      rewrite EO. cbn [bind]. rewrite EO'. cbn [bind agree]. apply (whole_app _ _ "{" _ WO). apply whole_app; assumption.
Qed.

Lemma coloured_text t : tame_copulas t -> same_but_colours (interpret names false t) (interpret names true t).
Proof.
  intros M. pose proof (colours_agree t M) as A. unfold agree in A. unfold same_but_colours.
  destruct (interpret names false t), (interpret names true t); try contradiction A; [|exact I]. apply whole_bare. exact A.
Qed.
End Names.
