(* Derivations that refute the parser's properties or show that their
   hypotheses can be met. *)
From Coq Require Import ZArith String Ascii List Bool Lia.
From Verif Require Import Base Tables Parser ParserSpec Grammar GrammarSpec LexFacts LexFacts2 ParserCert ParserFacts ParserFacts2.
From Verif Require Import ParserFacts11 ParserFacts12 ParserFacts13 ParserCases.
Import ListNotations.
Open Scope string_scope.
Open Scope list_scope.
Open Scope Z_scope.

(* Deciding whether a tree follows the grammar. *)
Definition fits (r : re) (w : list ascii) : bool :=
  forallb (fun c => 0 <=? code c) w && nullable (derivs w r).

Fixpoint follows_rules (t : tree) : bool :=
  match t with
  | Token sym txt => (0 <=? sym) && (sym <? 59) && fits (lexeme sym) txt
  | Derived r kids =>
      match nth_error rules r with
      | Some (_, rhs, _) =>
          (if list_eq_dec Z.eq_dec (map root kids) rhs then true else false) && forallb follows_rules kids
      | None => false
      end
  end.

Lemma fits_matches r w : fits r w = true -> matches r w.
Proof.
  unfold fits. rewrite andb_true_iff. intros (F & N). apply derivs_matches.
  - apply Forall_forall. intros c I. rewrite forallb_forall in F. apply Z.leb_le, F, I.
  - exact N.
Qed.

Lemma follows_derivation t : follows_rules t = true -> derivation t.
Proof.
  induction t as [sy txt|r kids IH] using tree_ind'; cbn [follows_rules].
  - rewrite !andb_true_iff, Z.leb_le, Z.ltb_lt. intros ((B1 & B2) & M).
    constructor; [lia|apply fits_matches, M].
  - destruct (nth_error rules r) as [((lhs, rhs), name)|] eqn:N; [|discriminate].
    rewrite andb_true_iff. destruct (list_eq_dec Z.eq_dec (map root kids) rhs) as [E|]; intros (A & B); [|discriminate].
    eapply D_derived; [exact N|exact E|]. rewrite Forall_forall in IH. apply Forall_forall.
    intros k I. rewrite forallb_forall in B. apply (IH k I), B, I.
Qed.

(* Pieces of derivations. *)
Definition no_blank : tree := Derived 211 [].
Definition tok (r : nat) (sym : Z) (s : string) : tree := Derived r [Token sym (list_ascii_of_string s); no_blank].
Definition atom_tree (s : string) : tree := Derived 64 [Derived 205 [Derived 204 [tok 228 3 s]]].
Definition judgement_tree (sentence : tree) : tree :=
  Derived 269 [no_blank; Derived 206 [Derived 3 [Derived 2 [];
    Derived 6 [sentence; tok 212 55 "."; Derived 9 []; Derived 12 []]]; Token 0 []]].

(* <a-->b>. in two ways *)
Definition inheritance_tree : tree :=
  Derived 36 [Derived 34 [tok 230 51 "<"; Derived 62 [atom_tree "a"]; Derived 49 [tok 232 46 "-->"];
    Derived 62 [atom_tree "b"]; tok 231 50 ">"]].
Definition direct_tree : tree := judgement_tree (Derived 5 [inheritance_tree]).
Definition wrapped_tree : tree := judgement_tree (Derived 4 [Derived 66 [inheritance_tree]]).

Lemma direct : derivation direct_tree /\ root direct_tree = 59 /\ preferred direct_tree
  /\ text_of direct_tree = line "<a-->b>.".
Proof.
  assert (D : derivation direct_tree) by (apply follows_derivation; vm_compute; reflexivity).
  split; [exact D|]. split; [reflexivity|]. split; [|reflexivity].
  apply suits_preferred; [exact D|vm_compute; reflexivity].
Qed.

Lemma wrapped : derivation wrapped_tree /\ root wrapped_tree = 59 /\ ~ preferred wrapped_tree
  /\ text_of wrapped_tree = line "<a-->b>." /\ projection wrapped_tree <> projection direct_tree.
Proof.
  split; [apply follows_derivation; vm_compute; reflexivity|]. split; [reflexivity|]. split; [|split; [reflexivity|]].
  - intros P. refine (P (Derived 4 [Derived 66 [inheritance_tree]]) _ _).
    + unfold wrapped_tree, judgement_tree. eapply P_kid; [right; left; reflexivity|]. eapply P_kid; [left; reflexivity|].
      eapply P_kid; [right; left; reflexivity|]. eapply P_kid; [left; reflexivity|]. apply P_whole.
    + left. exists 4%nat, [inheritance_tree]. split; [cbn; tauto|reflexivity].
  - vm_compute. discriminate.
Qed.

(* A tab before it *)
Definition tab_tree : tree :=
  Derived 269 [Derived 210 [Derived 209 [Derived 207 [Token 58 [ascii_of_nat 9]]]];
    Derived 206 [Derived 3 [Derived 2 [];
      Derived 6 [Derived 5 [inheritance_tree]; tok 212 55 "."; Derived 9 []; Derived 12 []]]; Token 0 []]].

Lemma tabbed : derivation tab_tree /\ root tab_tree = 59
  /\ text_of tab_tree = line (String (ascii_of_nat 9) "<a-->b>.")
  /\ parse unlimited [] (String (ascii_of_nat 9) "<a-->b>.") = Ok (Rejected, []).
Proof.
  split; [apply follows_derivation; vm_compute; reflexivity|]. vm_compute. repeat split.
Qed.

Lemma sample_plain : ~ In (ascii_of_nat 9) (line sample) /\ ~ In (ascii_of_nat 9) (line "<a-->b>.").
Proof.
  assert (K : forall l, existsb (Ascii.eqb (ascii_of_nat 9)) l = false -> ~ In (ascii_of_nat 9) l).
  { intros l E I. assert (T : existsb (Ascii.eqb (ascii_of_nat 9)) l = true); [|congruence].
    apply existsb_exists. eexists. split; [exact I|reflexivity]. }
  split; apply K; vm_compute; reflexivity.
Qed.
