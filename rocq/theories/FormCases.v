(* A task that meets the conditions on written Narsese, and an allocator that
   is careful. *)
From Coq Require Import ZArith String Ascii List Bool Lia Reals Lra Permutation.
From Flocq Require Import Core.
From Verif Require Import Base Enums Term Maps Compound NumeralSpec Parser ParserSpec Actions ActionsSpec ActionsCases PrinterSpec.
From Verif Require Import Forms FormFacts5.
From Verif Require Grammar.
From Verif Require Import Interning InterningSpec.
Import ListNotations.
Open Scope string_scope.
Open Scope list_scope.
Open Scope Z_scope.

(** * A careful allocator *)

Fixpoint first_free (fuel : nat) (k : Z) (taken : list Z) : Z :=
  match fuel with
  | O => k
  | S fuel => if existsb (Z.eqb k) taken then first_free fuel (k + 1) taken else k
  end.

Lemma first_free_range fuel taken : forall k, k <= first_free fuel k taken <= k + Z.of_nat fuel.
Proof.
  induction fuel as [|fuel IH]; intros k; cbn [first_free]; [lia|].
  destruct (existsb (Z.eqb k) taken); [|lia]. specialize (IH (k + 1)). lia.
Qed.

Lemma first_free_below fuel taken : forall k i, k <= i < first_free fuel k taken -> In i taken.
Proof.
  induction fuel as [|fuel IH]; intros k i H; cbn [first_free] in H; [lia|].
  destruct (existsb (Z.eqb k) taken) eqn:E; [|lia]. destruct (Z.eq_dec i k) as [ -> |D].
  - apply existsb_exists in E as (y & I & Q). apply Z.eqb_eq in Q. subst y. exact I.
  - apply (IH (k + 1)). lia.
Qed.

Lemma first_free_stop fuel taken : forall k, first_free fuel k taken < k + Z.of_nat fuel -> ~ In (first_free fuel k taken) taken.
Proof.
  induction fuel as [|fuel IH]; intros k H; cbn [first_free] in *; [lia|].
  destruct (existsb (Z.eqb k) taken) eqn:E; [apply IH; lia|].
  intros I. rewrite <- not_true_iff_false in E. apply E, existsb_exists. exists k. split; [exact I|apply Z.eqb_refl].
Qed.

Lemma first_free_bound taken k : first_free (S (length taken)) k taken < k + Z.of_nat (S (length taken)).
Proof.
  set (n := S (length taken)). pose proof (first_free_range n taken k) as R.
  destruct (Z.eq_dec (first_free n k taken) (k + Z.of_nat n)) as [E|D]; [exfalso|lia].
  set (all := map (fun i => k + Z.of_nat i) (seq 0 n)).
  assert (I : incl all taken).
  { intros i H. apply in_map_iff in H as (j & <- & J). apply in_seq in J. apply (first_free_below n taken k). lia. }
  assert (N : NoDup all).
  { apply FinFun.Injective_map_NoDup; [|apply seq_NoDup]. intros a b H. lia. }
  pose proof (NoDup_incl_length N I) as L. unfold all in L. rewrite map_length, seq_length in L. unfold n in L. lia.
Qed.

Definition residues (w : world) : list Z :=
  map (fun e => snd e mod 4294967296) (held w) ++ map (fun h => hat h mod 4294967296) (handles w).

Definition careful_fresh (w : world) : Z := first_free (S (length (residues w))) 1 (residues w).

Lemma careful_fresh_careful : careful careful_fresh.
Proof.
  intros w P a L E. apply (first_free_stop _ (residues w) 1 (first_free_bound (residues w) 1)).
  fold (careful_fresh w).
  assert (Q : careful_fresh w mod 4294967296 = careful_fresh w).
  { apply Z.mod_small. pose proof (first_free_range (S (length (residues w))) (residues w) 1) as R.
    pose proof (first_free_bound (residues w) 1) as B. fold (careful_fresh w) in R, B.
    assert (X : Z.of_nat (length (residues w)) = population w).
    { unfold residues, population. rewrite app_length, !map_length. lia. }
    lia. }
  rewrite <- Q at 1. rewrite E. unfold residues. apply in_or_app. destruct L as [L|L]; [left|right].
  - apply in_map_iff in L as (e & <- & I). apply in_map_iff. exists e. split; [reflexivity|exact I].
  - apply in_map_iff in L as (e & <- & I). apply in_map_iff. exists e. split; [reflexivity|exact I].
Qed.

(** * A task *)

Definition example_body : form :=
  Relation true PredictiveImplication
    (Joined SequentialEvents [Word "a"; Braces ExtensionalSet [Word "b"; Placeholder Independent "x"]; Interval "3"])
    (Invocation "go" [Placeholder Independent "x"; Word "a"; Prefixed ExtensionalDifference [Word "c"; Bare Product [Word "d"; Word """e f"""]]]).

Definition example_task : task_form := Written ["0.5"; "0.25"] example_body Judgement (Some Present) ["0.75"].

Lemma held_point r s a b : list_ascii_of_string s = a ++ "."%char :: b -> a ++ b <> [] ->
  Forall decimal_digit a -> Forall decimal_digit b -> (1 / 1000 <= IZR (number a) + IZR (number b) / 10 ^ length b <= 1)%R ->
  Grammar.matches r (list_ascii_of_string s) -> held_numeral r s.
Proof.
  intros E N A B R M. split; [exact M|]. rewrite E. eexists. split; [apply reads_point; assumption|]. right.
  assert (X : (bpow radix2 (-1022) <= / 1024)%R).
  { change (/ 1024)%R with (bpow radix2 (-10)). apply bpow_le. lia. }
  assert (Y : (1 < bpow radix2 1023)%R).
  { change 1%R with (bpow radix2 0). apply bpow_lt. lia. }
  lra.
Qed.

Ltac digits := repeat (apply Forall_cons; [unfold decimal_digit; cbn; lia|]); apply Forall_nil.

Lemma zero_point d1 rest : Grammar.in_ranges [(48, 57)] (Parser.code d1) = true ->
  Grammar.matches (Grammar.Star Grammar.digits) rest ->
  Grammar.matches Grammar.unit_number ("0"%char :: "."%char :: d1 :: rest).
Proof.
  intros D R. apply Grammar.M_left. apply (Grammar.M_cat _ _ ["0"%char]); [apply Grammar.M_right, Grammar.M_range; reflexivity|].
  apply (Grammar.M_cat _ _ ["."%char]); [apply Grammar.M_range; reflexivity|].
  apply (Grammar.M_cat _ _ [d1]); [apply Grammar.M_range; exact D|exact R].
Qed.

Lemma example_proper : proper_task example_task.
Proof.
  constructor; cbn [example_task budget_part body tense_part truth_part mark].
  - split; [|split; [|exact I]].
    + apply (held_point _ _ ["0"%char] ["5"%char]); [reflexivity|discriminate|digits|digits| |].
      * cbn [number length]. vm_compute number. simpl. lra.
      * apply zero_point; [reflexivity|constructor].
    + apply (held_point _ _ ["0"%char] ["2"%char; "5"%char]); [reflexivity|discriminate|digits|digits| |].
      * vm_compute number. simpl. lra.
      * apply (Grammar.M_cat _ _ ["0"%char]); [apply Grammar.M_right, Grammar.M_range; reflexivity|].
        apply (Grammar.M_cat _ _ ["."%char]); [apply Grammar.M_range; reflexivity|].
        apply (Grammar.M_cat _ _ []); [constructor|]. apply (Grammar.M_cat _ _ ["2"%char]); [|].
        -- apply (Grammar.M_cat _ _ ["2"%char]); [apply Grammar.M_range; reflexivity|constructor].
        -- apply (Grammar.M_more _ ["5"%char]); [apply Grammar.M_range; reflexivity|constructor].
  - assert (W : forall c, In c ["a"; "b"; "c"; "d"; "x"; "go"] -> word c).
    { intros c I. left. cbn in I. repeat (destruct I as [ <- |I]; [split; [discriminate|]; repeat (apply Forall_cons; [split; [cbn; lia|cbn; intuition discriminate]|]); apply Forall_nil|]). contradiction. }
    assert (E : word """e f""").
    { right. exists "e f". split; [reflexivity|]. repeat (apply Forall_cons; [split; [cbn; lia|split; discriminate]|]); apply Forall_nil. }
    apply F_relation; [apply F_infix|apply F_invocation].
    + left. cbn. auto 10.
    + cbn. lia.
    + apply Forall_cons; [apply F_word, W; cbn; auto 10|]. apply Forall_cons; [apply F_braces|].
      * left. reflexivity.
      * discriminate.
      * apply Forall_cons; [apply F_word, W; cbn; auto 10|]. apply Forall_cons; [apply F_variable, W; cbn; auto 10|apply Forall_nil].
      * apply Forall_cons; [|apply Forall_nil]. apply (F_interval _ 3); [|lia]. apply (whole_plain ["3"%char]); [discriminate|digits].
    + apply W. cbn. auto 10.
    + apply Forall_cons; [apply F_variable, W; cbn; auto 10|]. apply Forall_cons; [apply F_word, W; cbn; auto 10|].
      apply Forall_cons; [|apply Forall_nil]. apply F_difference; [left; reflexivity|apply F_plain, F_word, W; cbn; auto 10|].
      apply F_bare; [right; reflexivity|cbn; lia|]. apply Forall_cons; [apply F_word, W; cbn; auto 10|]. apply Forall_cons; [apply F_word, E|apply Forall_nil].
  - discriminate.
  - intros t Q. injection Q as <-. exact I.
  - split; [|exact I]. apply (held_point _ _ ["0"%char] ["7"%char; "5"%char]); [reflexivity|discriminate|digits|digits| |].
    + vm_compute number. simpl. lra.
    + apply zero_point; [reflexivity|]. apply (Grammar.M_more _ ["5"%char]); [apply Grammar.M_range; reflexivity|constructor].
  - auto.
Qed.

Lemma blank_order : in_order (atoms blank_state) (operations blank_state).
Proof.
  constructor; cbn.
  - intros n k _ H. discriminate H.
  - intros n a _ H. destruct H.
  - intros n a _ H. destruct H.
  - intros p a H. discriminate H.
  - lia.
Qed.

Definition example_pads : list nat := map (fun i => Nat.modulo i 2) (seq 0 (length (spell_task example_task))).

Lemma example_text : spread 1 (spell_task example_task) example_pads =
  " $0.5 ;0.25 $< (a &/{ b, $x }&/ +3 )=/> (^ go, $x ,a ,( -, c, d* ""e f"") )> .:|: %0.75 %"%string.
Proof. vm_compute. reflexivity. Qed.

Lemma example_room : has_room allocated (spread 1 (spell_task example_task) example_pads).
Proof. right. split; [reflexivity|]. rewrite example_text. cbn. lia. Qed.

Lemma example_names : forall s, In s (operators (body example_task)) ->
  ~ In s (words (body example_task)) /\ check_by_name (tab (atoms blank_state)) s = false.
Proof. intros s [ <- |[]]. split; [cbn; intuition discriminate|reflexivity]. Qed.

Lemma example_read : exists st v,
  parse_task id_ord careful_fresh allocated blank_state [] (spread 1 (spell_task example_task) example_pads) = Ok (st, [], Some v, false).
Proof.
  rewrite example_text.
  assert (E : match parse_task id_ord careful_fresh allocated blank_state []
    " $0.5 ;0.25 $< (a &/{ b, $x }&/ +3 )=/> (^ go, $x ,a ,( -, c, d* ""e f"") )> .:|: %0.75 %" with
    | Ok (_, [], Some _, false) => true | _ => false end = true) by (vm_compute; reflexivity).
  match type of E with match ?x with _ => _ end = _ => destruct x as [[[[st [|? ?]] [v|]] [|]]| | |]; try discriminate E end.
  exists st, v. reflexivity.
Qed.

(* A second task that mentions the same names, and an operator again. *)
Definition example_task2 : task_form :=
  Written [] (Relation false Instance (Word "b") (Prefixed Product [Word "a"; Placeholder Query "x"; Operator "go"])) Question None [].

Lemma example_proper2 : proper_task example_task2.
Proof.
  assert (W : forall c, In c ["a"; "b"; "x"; "go"] -> word c).
  { intros c I. left. cbn in I. repeat (destruct I as [ <- |I]; [split; [discriminate|]; repeat (apply Forall_cons; [split; [cbn; lia|cbn; intuition discriminate]|]); apply Forall_nil|]). contradiction. }
  constructor; cbn [example_task2 budget_part body tense_part truth_part mark].
  - exact I.
  - apply F_relation; [apply F_word, W; cbn; auto 10|]. apply F_product; [left; reflexivity|discriminate|].
    apply Forall_cons; [apply F_word, W; cbn; auto 10|]. apply Forall_cons; [apply F_variable, W; cbn; auto 10|].
    apply Forall_cons; [apply F_operator, W; cbn; auto 10|apply Forall_nil].
  - discriminate.
  - discriminate.
  - exact I.
  - intros H. congruence.
Qed.

Definition example_texts : list (task_form * nat * list nat) :=
  [(example_task, 1%nat, example_pads); (example_task2, 0%nat, map (fun _ => 0%nat) (spell_task example_task2))].

Lemma example_texts_proper : Forall proper_text example_texts /\ Forall (fun x => has_room allocated (text_for x)) example_texts.
Proof.
  split.
  - apply Forall_cons; [split; [exact example_proper|reflexivity]|]. apply Forall_cons; [split; [exact example_proper2|reflexivity]|apply Forall_nil].
  - apply Forall_cons; [exact example_room|]. apply Forall_cons; [right; split; [reflexivity|vm_compute; lia]|apply Forall_nil].
Qed.

Lemma example_session : exists st v1 v2,
  readings id_ord careful_fresh allocated blank_state [] (map text_for example_texts) =
    Ok (st, [], [(Some v1, false); (Some v2, false)]).
Proof.
  assert (E : match readings id_ord careful_fresh allocated blank_state [] (map text_for example_texts) with
    | Ok (_, [], [(Some _, false); (Some _, false)]) => true | _ => false end = true) by (vm_compute; reflexivity).
  match type of E with match ?x with _ => _ end = _ => destruct x as [[[st [|? ?]] l]| | |]; try discriminate E end.
  destruct l as [|[[v1|] [|]] [|[[v2|] [|]] [|? ?]]]; try discriminate E. exists st, v1, v2. reflexivity.
Qed.
