(* Which nodes of the syntax tree stand below which: every node of an accepted
   tree has children that fit its action. *)
From Coq Require Import ZArith String Ascii List Bool Lia.
From Verif Require Import Base Parser Grammar.
Import ListNotations.
Open Scope string_scope.
Open Scope Z_scope.
Open Scope list_scope.

(* What a node yields. *)
Inductive label :=
  | LText | LString | LInteger | LPriority | LDurability | LQuality | LFrequency | LConfidence
  | LEvidence | LTerm | LCopula | LConnector | LTime | LTruth | LBudget | LSentence | LTask.

Definition label_eqb (a b : label) : bool :=
  match a, b with
  | LText, LText | LString, LString | LInteger, LInteger | LPriority, LPriority
  | LDurability, LDurability | LQuality, LQuality | LFrequency, LFrequency
  | LConfidence, LConfidence | LEvidence, LEvidence | LTerm, LTerm | LCopula, LCopula
  | LConnector, LConnector | LTime, LTime | LTruth, LTruth | LBudget, LBudget
  | LSentence, LSentence | LTask, LTask => true
  | _, _ => false
  end.

(* A sequence of labels; with true, any number of terms may follow. *)
Definition shape : Type := list label * bool.

Definition member (ls : list label) (s : shape) : Prop :=
  exists n, ls = fst s ++ repeat LTerm n /\ (snd s = false -> n = O).

(* Every name, what it takes and what it yields. *)
Definition signatures : list (string * list shape * label) :=
  [
   ("task", [([LBudget; LSentence], false); ([LSentence], false)], LTask);
   ("judgement", [([LTerm], false); ([LTerm; LTime], false); ([LTerm; LTruth], false); ([LTerm; LTime; LTruth], false)], LSentence);
   ("goal", [([LTerm], false); ([LTerm; LTime], false); ([LTerm; LTruth], false); ([LTerm; LTime; LTruth], false)], LSentence);
   ("question", [([LTerm], false); ([LTerm; LTime], false)], LSentence);
   ("quest", [([LTerm], false); ([LTerm; LTime], false)], LSentence);
   ("statement", [([LTerm; LCopula; LTerm], false)], LTerm);
   ("statement_operation1", [([LTerm], true)], LTerm);
   ("statement_operation2", [([LString; LTerm], true)], LTerm);
   ("inheritance", [([], false)], LCopula);
   ("similarity", [([], false)], LCopula);
   ("instance", [([], false)], LCopula);
   ("property", [([], false)], LCopula);
   ("instance_property", [([], false)], LCopula);
   ("implication", [([], false)], LCopula);
   ("predictive_implication", [([], false)], LCopula);
   ("concurrent_implication", [([], false)], LCopula);
   ("retrospective_implication", [([], false)], LCopula);
   ("equivalence", [([], false)], LCopula);
   ("predictive_equivalence", [([], false)], LCopula);
   ("concurrent_equivalence", [([], false)], LCopula);
   ("variable_term", [([LTerm], false)], LTerm);
   ("compound_term", [([LTerm], false)], LTerm);
   ("statement_term", [([LTerm], false)], LTerm);
   ("multi_infix", [([LTerm], false)], LTerm);
   ("atom_term", [([LString], false)], LTerm);
   ("operation", [([LString], false)], LTerm);
   ("independent_var", [([LString], false)], LTerm);
   ("dependent_var", [([LString], false)], LTerm);
   ("query_var", [([LString], false)], LTerm);
   ("interval", [([LInteger], false)], LTerm);
   ("set", [([LConnector; LTerm], true)], LTerm);
   ("int_image", [([LConnector; LTerm], true)], LTerm);
   ("ext_image", [([LConnector; LTerm], true)], LTerm);
   ("multi_prefix", [([LConnector; LTerm], true)], LTerm);
   ("negation", [([LConnector; LTerm], false)], LTerm);
   ("multi_prefix_product", [([LTerm; LTerm], true)], LTerm);
   ("multi_prod_expr", [([LTerm; LTerm], true)], LTerm);
   ("multi_disj_expr", [([LTerm; LTerm], true)], LTerm);
   ("multi_conj_expr", [([LTerm; LTerm], true)], LTerm);
   ("multi_sequential_expr", [([LTerm; LTerm], true)], LTerm);
   ("multi_parallel_expr", [([LTerm; LTerm], true)], LTerm);
   ("multi_intint_expr", [([LTerm; LTerm], true)], LTerm);
   ("multi_extint_expr", [([LTerm; LTerm], true)], LTerm);
   ("single_prefix", [([LConnector; LTerm; LTerm], false)], LTerm);
   ("single_infix", [([LTerm; LConnector; LTerm], false)], LTerm);
   ("con_conjunction", [([], false)], LConnector);
   ("con_disjunction", [([], false)], LConnector);
   ("con_parallel_events", [([], false)], LConnector);
   ("con_sequential_events", [([], false)], LConnector);
   ("con_product", [([], false)], LConnector);
   ("con_intensional_intersection", [([], false)], LConnector);
   ("con_extensional_intersection", [([], false)], LConnector);
   ("con_extensional_difference", [([], false)], LConnector);
   ("con_intensional_difference", [([], false)], LConnector);
   ("con_int_set", [([], false)], LConnector);
   ("con_ext_set", [([], false)], LConnector);
   ("con_negation", [([], false)], LConnector);
   ("con_int_image", [([], false)], LConnector);
   ("con_ext_image", [([], false)], LConnector);
   ("tense_time", [([LInteger], false)], LTime);
   ("tense_future", [([], false)], LTime);
   ("tense_present", [([], false)], LTime);
   ("tense_past", [([], false)], LTime);
   ("truth", [([LFrequency], false); ([LFrequency; LConfidence], false); ([LFrequency; LConfidence; LEvidence], false)], LTruth);
   ("budget", [([LPriority], false); ([LPriority; LDurability], false); ([LPriority; LDurability; LQuality], false)], LBudget);
   ("string_raw", [([LText], false)], LString);
   ("string", [([LText], false)], LString);
   ("quality", [([LText], false)], LQuality);
   ("durability", [([LText], false)], LDurability);
   ("priority", [([LText], false)], LPriority);
   ("k_evidence", [([LText], false)], LEvidence);
   ("confidence", [([LText], false)], LConfidence);
   ("frequency", [([LText], false)], LFrequency);
   ("integer", [([LText], false)], LInteger)
  ].

Fixpoint find_sig (l : list (string * list shape * label)) (n : string) : option (list shape * label) :=
  match l with
  | [] => None
  | (m, s, y) :: l' => if (m =? n)%string then Some (s, y) else find_sig l' n
  end.

Definition sig (n : string) : option (list shape * label) := find_sig signatures n.

(* What each symbol of the grammar yields. *)
Definition shapes : list (list shape) :=
  [
   [([], false)];
   [([], false)];
   [([], false)];
   [([LString], false)];
   [([], false)];
   [([], false)];
   [([LString], false)];
   [([], false)];
   [([], false)];
   [([], false)];
   [([], false)];
   [([], false)];
   [([], false)];
   [([], false)];
   [([], false)];
   [([], false)];
   [([], false)];
   [([], false)];
   [([], false)];
   [([], false)];
   [([], false)];
   [([], false)];
   [([], false)];
   [([], false)];
   [([], false)];
   [([], false)];
   [([], false)];
   [([], false)];
   [([], false)];
   [([LQuality], false)];
   [([LDurability], false)];
   [([LPriority], false)];
   [([], false)];
   [([], false)];
   [([LEvidence], false)];
   [([LConfidence], false)];
   [([], false)];
   [([], false)];
   [([], false)];
   [([], false)];
   [([], false)];
   [([], false)];
   [([], false)];
   [([], false)];
   [([], false)];
   [([], false)];
   [([], false)];
   [([], false)];
   [([], false)];
   [([], false)];
   [([], false)];
   [([], false)];
   [([], false)];
   [([], false)];
   [([], false)];
   [([], false)];
   [([LFrequency], false)];
   [([LInteger], false)];
   [([], false)];
   [([LTask], false)];
   [([LQuality], false)];
   [([LDurability], false)];
   [([LPriority], false)];
   [([LEvidence], false)];
   [([LConfidence], false)];
   [([], false)];
   [([LFrequency], false)];
   [([], false)];
   [([], false)];
   [([], false)];
   [([], false)];
   [([], false)];
   [([], false)];
   [([], false)];
   [([], false)];
   [([], false)];
   [([], false)];
   [([], false)];
   [([], false)];
   [([], false)];
   [([], false)];
   [([], false)];
   [([], false)];
   [([], false)];
   [([], false)];
   [([], false)];
   [([], false)];
   [([], false)];
   [([], false)];
   [([], false)];
   [([], false)];
   [([], false)];
   [([], false)];
   [([], false)];
   [([], false)];
   [([], false)];
   [([], false)];
   [([], false)];
   [([], false)];
   [([], false)];
   [([LString], false)];
   [([LString], false)];
   [([], false)];
   [([], false)];
   [([], false)];
   [([], false)];
   [([], false)];
   [([], false)];
   [([], false)];
   [([], false)];
   [([], false)];
   [([LInteger], false)];
   [([], false)];
   [([], false)];
   [([], false)];
   [([], false)];
   [([], false)];
   [([], false)];
   [([], false)];
   [([], false)];
   [([LTask], false)];
   [([LString], false)];
   [([], false); ([LDurability], false); ([LDurability; LQuality], false)];
   [([LDurability], false); ([LDurability; LQuality], false)];
   [([], false); ([LQuality], false)];
   [([LQuality], false)];
   [([], false); ([LConfidence], false); ([LConfidence; LEvidence], false)];
   [([LConfidence], false); ([LConfidence; LEvidence], false)];
   [([], false); ([LEvidence], false)];
   [([LEvidence], false)];
   [([LTerm], true)];
   [([LTerm], false)];
   [([LTerm], true)];
   [([LTerm], false)];
   [([LTerm], true)];
   [([LTerm], false)];
   [([LTerm], true)];
   [([LTerm], false)];
   [([LTerm], true)];
   [([LTerm], false)];
   [([LTerm], true)];
   [([LTerm], false)];
   [([LTerm], true)];
   [([LTerm], false)];
   [([LTerm], false)];
   [([LTerm], false)];
   [([LTerm], false)];
   [([LTerm], false)];
   [([LTerm], false)];
   [([LTerm], false)];
   [([LTerm], false)];
   [([LTerm], false)];
   [([LTerm], false)];
   [([LTerm], false)];
   [([LTerm], false)];
   [([LConnector], false)];
   [([LConnector; LTerm], false); ([LConnector; LTerm; LTerm], true)];
   [([], false); ([LTerm], true)];
   [([LTerm], true)];
   [([LTerm], false)];
   [([LConnector], false)];
   [([LTerm], true)];
   [([LTerm], false)];
   [([LConnector], false)];
   [([LTerm], true)];
   [([LTerm], false)];
   [([LTerm], false)];
   [([], false); ([LTerm], true)];
   [([LTerm], true)];
   [([LTerm], false)];
   [([LConnector], false)];
   [([], false); ([LTerm], true)];
   [([LTerm], true)];
   [([LTerm], false)];
   [([LConnector], false)];
   [([LConnector; LTerm], false)];
   [([LConnector], false)];
   [([], false); ([LTerm], true)];
   [([LTerm], true)];
   [([LTerm], false)];
   [([LConnector], false)];
   [([], false); ([LTerm], true)];
   [([LTerm], true)];
   [([LTerm], false)];
   [([LConnector], false)];
   [([LConnector; LTerm], false); ([LConnector; LTerm; LTerm], true)];
   [([LConnector; LTerm], false); ([LConnector; LTerm; LTerm], true)];
   [([LConnector; LTerm], false); ([LConnector; LTerm; LTerm], true)];
   [([LTerm], false)];
   [([LTerm], false)];
   [([LTerm], false)];
   [([LTerm], false)];
   [([LTerm], false)];
   [([LTerm], false)];
   [([LTerm], false)];
   [([LTerm], false)];
   [([LTerm], false)];
   [([], false); ([LTerm], true)];
   [([LTerm], true)];
   [([LTerm], false)];
   [([LString], false)];
   [([], false); ([LTerm], true)];
   [([LTerm], true)];
   [([LTerm], false)];
   [([LTerm], false)];
   [([LTerm; LCopula; LTerm], false)];
   [([LCopula], false)];
   [([LTerm], false)];
   [([], false); ([LTime], false)];
   [([LTime], false)];
   [([LTerm], false)];
   [([], false); ([LTruth], false)];
   [([LTruth], false)];
   [([LTruth], false)];
   [([], false); ([LTime], false)];
   [([LTime], false)];
   [([LTerm], false)];
   [([], false); ([LTime], false)];
   [([LTime], false)];
   [([LTerm], false)];
   [([], false); ([LTruth], false)];
   [([LTruth], false)];
   [([LTruth], false)];
   [([], false); ([LTime], false)];
   [([LTime], false)];
   [([LTime], false)];
   [([LTerm], false)];
   [([LTerm], false)];
   [([LTerm], false)];
   [([LSentence], false)];
   [([], false); ([LBudget], false)];
   [([LBudget], false)];
   [([LBudget], false)];
   [([LTask], false)]
  ].

Definition shape_of (x : Z) : list shape := nth (Z.to_nat x) shapes [].

Definition name_of (n : ast) : string := match n with Leaf e _ => e | Node e _ => e end.

(* LText stands for an unknown name; it is yielded by none. *)
Definition label_of (n : ast) : label :=
  match sig (name_of n) with Some (_, y) => y | None => LText end.

(* A leaf carries a lexeme of its terminal. *)
Definition spelled (e tok : string) : Prop :=
  exists x, 0 <= x < 59 /\ token_name x = e /\ matches (lexeme x) (list_ascii_of_string tok).

Inductive good : ast -> Prop :=
  | G_leaf e tok ss y : sig e = Some (ss, y) -> Exists (member [LText]) ss -> spelled e tok ->
      good (Leaf e tok)
  | G_node e kids ss y : sig e = Some (ss, y) -> Exists (member (map label_of kids)) ss ->
      Forall good kids -> good (Node e kids).

(* ---- checking the grammar ---- *)

Fixpoint prefix_of (p l : list label) : option (list label) :=
  match p, l with
  | [], _ => Some l
  | a :: p', b :: l' => if label_eqb a b then prefix_of p' l' else None
  | _, [] => None
  end.

Definition only_terms (l : list label) : bool := forallb (label_eqb LTerm) l.

Definition included (a b : shape) : bool :=
  match prefix_of (fst b) (fst a) with
  | None => false
  | Some rest => only_terms rest && (negb (snd a) || snd b)
                 && (snd b || match rest with [] => true | _ => false end)
  end.

Definition joined (a b : shape) : option shape :=
  if snd a then if only_terms (fst b) then Some (fst a ++ fst b, true) else None
  else Some (fst a ++ fst b, snd b).

Fixpoint joins (as_ bs : list shape) : option (list shape) :=
  match as_ with
  | [] => Some []
  | a :: as' =>
      match (fix go (bs : list shape) : option (list shape) :=
               match bs with
               | [] => Some []
               | b :: bs' => match joined a b, go bs' with
                             | Some c, Some cs => Some (c :: cs)
                             | _, _ => None
                             end
               end) bs, joins as' bs with
      | Some x, Some y => Some (x ++ y)
      | _, _ => None
      end
  end.

Fixpoint sequence (xs : list Z) : option (list shape) :=
  match xs with
  | [] => Some [([], false)]
  | x :: xs' => match sequence xs' with
                | Some r => joins (shape_of x) r
                | None => None
                end
  end.

Definition all_in (as_ bs : list shape) : bool :=
  forallb (fun a => existsb (included a) bs) as_.

Definition rule_fits (r : Z * list Z * string) : bool :=
  let '(lhs, rhs, name) := r in
  match sequence rhs with
  | None => false
  | Some cs =>
      if (name =? "")%string then all_in cs (shape_of lhs)
      else match sig name with
           | None => false
           | Some (ss, y) => all_in cs ss && all_in [([y], false)] (shape_of lhs)
           end
  end.

Definition token_fits (x : Z) : bool :=
  if (token_name x =? "")%string then existsb (included ([], false)) (shape_of x)
  else match sig (token_name x) with
       | None => false
       | Some (ss, y) => existsb (included ([LText], false)) ss
                         && existsb (included ([y], false)) (shape_of x)
       end.

Lemma rules_fit : forallb rule_fits rules = true.
Proof. vm_compute. reflexivity. Qed.

Lemma tokens_fit : forallb token_fits (map Z.of_nat (seq 0 59)) = true.
Proof. vm_compute. reflexivity. Qed.

(* ---- soundness of the check ---- *)

Lemma label_eqb_true a b : label_eqb a b = true -> a = b.
Proof. destruct a, b; intros H; try reflexivity; discriminate H. Qed.

Lemma only_terms_repeat l : only_terms l = true -> l = repeat LTerm (length l).
Proof.
  unfold only_terms. induction l as [|a l IH]; cbn [forallb length repeat]; intros H; [reflexivity|].
  apply andb_true_iff in H. destruct H as [A B]. apply label_eqb_true in A. subst a. rewrite <- (IH B). reflexivity.
Qed.

Lemma prefix_of_app p : forall l r, prefix_of p l = Some r -> l = p ++ r.
Proof.
  induction p as [|a p IH]; intros [|b l] r H; cbn [prefix_of] in H.
  - injection H as <-. reflexivity.
  - injection H as <-. reflexivity.
  - discriminate H.
  - destruct (label_eqb a b) eqn:E; [|discriminate H]. apply label_eqb_true in E. subst b.
    cbn [app]. f_equal. exact (IH _ _ H).
Qed.

Lemma included_member a b ls : included a b = true -> member ls a -> member ls b.
Proof.
  unfold included. destruct (prefix_of (fst b) (fst a)) as [rest|] eqn:P; [|discriminate].
  intros H (n & -> & Z0). apply prefix_of_app in P.
  apply andb_true_iff in H. destruct H as [H C]. apply andb_true_iff in H. destruct H as [A B].
  apply only_terms_repeat in A. exists (length rest + n)%nat. split.
  - rewrite P. rewrite repeat_app, <- A, app_assoc. reflexivity.
  - intros F. rewrite F in B, C. cbn in C. rewrite orb_false_r in B. apply negb_true_iff in B.
    destruct rest; [|discriminate C]. cbn. exact (Z0 B).
Qed.

Lemma repeat_shift (x : label) n (l : list label) : repeat x n ++ repeat x (length l) = repeat x (length l) ++ repeat x n.
Proof. rewrite <- !repeat_app. f_equal. lia. Qed.

Lemma joined_member a b c u v : joined a b = Some c -> member u a -> member v b -> member (u ++ v) c.
Proof.
  unfold joined. intros J (n & -> & N) (m & -> & M). destruct (snd a).
  - destruct (only_terms (fst b)) eqn:T; [|discriminate J]. injection J as <-.
    apply only_terms_repeat in T. exists (n + m)%nat. split; [|discriminate].
    cbn [fst]. rewrite repeat_app. rewrite <- !app_assoc. f_equal. rewrite !app_assoc. f_equal.
    rewrite T. apply repeat_shift.
  - injection J as <-. rewrite (N eq_refl). cbn [repeat]. rewrite app_nil_r.
    exists m. split; [cbn [fst]; rewrite app_assoc; reflexivity|]. exact M.
Qed.

Lemma joins_member as_ bs cs u v : joins as_ bs = Some cs -> Exists (member u) as_ -> Exists (member v) bs ->
  Exists (member (u ++ v)) cs.
Proof.
  revert cs. induction as_ as [|a as' IH]; intros cs J U V; [inversion U|].
  cbn [joins] in J.
  match type of J with match ?g bs with _ => _ end = _ => set (go := g) in J end.
  destruct (go bs) as [x|] eqn:G; [|discriminate J].
  destruct (joins as' bs) as [y|] eqn:Y; [|discriminate J]. injection J as <-.
  apply Exists_app. inversion U as [? ? A|? ? A]; subst.
  - left. clear IH Y U. revert x G. induction V as [b bs' B|b bs' B IH]; intros x G; cbn [go] in G; fold go in G.
    + unfold go in G. fold go in G. destruct (joined a b) as [c|] eqn:C; [|discriminate G].
      destruct (go bs') as [cs|]; [|discriminate G]. injection G as <-. left. exact (joined_member _ _ _ _ _ C A B).
    + unfold go in G. fold go in G. destruct (joined a b) as [c|] eqn:C; [|discriminate G].
      destruct (go bs') as [cs|]; [|discriminate G]. injection G as <-. right. exact (IH _ eq_refl).
  - right. exact (IH _ eq_refl A V).
Qed.

Lemma all_in_member as_ bs u : all_in as_ bs = true -> Exists (member u) as_ -> Exists (member u) bs.
Proof.
  intros H E. apply Exists_exists in E. destruct E as (a & I & A).
  unfold all_in in H. rewrite forallb_forall in H. specialize (H _ I).
  apply existsb_exists in H. destruct H as (b & J & B). apply Exists_exists. exists b. split; [exact J|].
  exact (included_member _ _ _ B A).
Qed.

Lemma exists_included a bs u : existsb (included a) bs = true -> member u a -> Exists (member u) bs.
Proof.
  intros H A. apply existsb_exists in H. destruct H as (b & J & B). apply Exists_exists. exists b.
  split; [exact J|]. exact (included_member _ _ _ B A).
Qed.

Lemma member_exact l : member l (l, false).
Proof. exists O. split; [cbn; symmetry; apply app_nil_r|reflexivity]. Qed.

Definition fine (t : tree) : Prop :=
  Forall good (projection t) /\ Exists (member (map label_of (projection t))) (shape_of (root t)).

Lemma sequence_fine kids : Forall fine kids -> forall cs, sequence (map root kids) = Some cs ->
  Forall good (concat (map projection kids)) /\
  Exists (member (map label_of (concat (map projection kids)))) cs.
Proof.
  induction 1 as [|k kids [G M] _ IH]; intros cs S; cbn [map sequence concat] in *.
  - injection S as <-. split; [constructor|]. left. apply member_exact.
  - destruct (sequence (map root kids)) as [r|] eqn:R; [|discriminate S].
    destruct (IH _ eq_refl) as [G' M']. split; [apply Forall_app; split; assumption|].
    rewrite map_app. exact (joins_member _ _ _ _ _ S M M').
Qed.

Lemma derivation_fine : forall t, derivation t -> fine t.
Proof.
  fix self 2. intros t D. destruct D as [sym txt B W|r lhs rhs name kids R E K].
  - assert (T : token_fits sym = true).
    { pose proof tokens_fit as T. rewrite forallb_forall in T. apply T.
      apply in_map_iff. exists (Z.to_nat sym). split; [lia|]. apply in_seq. lia. }
    unfold fine. cbn [projection root]. unfold token_fits in T.
    destruct (token_name sym =? "")%string.
    + split; [constructor|]. refine (exists_included _ _ _ T _). apply member_exact.
    + destruct (sig (token_name sym)) as [[ss y]|] eqn:S; [|discriminate T].
      apply andb_true_iff in T. destruct T as [A C]. split.
      * constructor; [|constructor]. refine (G_leaf _ _ ss y S _ _).
        -- refine (exists_included _ _ _ A _). apply member_exact.
        -- exists sym. split; [exact B|]. split; [reflexivity|].
           rewrite list_ascii_of_string_of_list_ascii. exact W.
      * cbn [map]. unfold label_of. cbn [name_of]. rewrite S. refine (exists_included _ _ _ C _). apply member_exact.
  - assert (F : Forall fine kids).
    { clear R E. induction K as [|k kids D K IH]; constructor; [exact (self _ D)|exact IH]. }
    assert (T : rule_fits (lhs, rhs, name) = true).
    { pose proof rules_fit as T. rewrite forallb_forall in T. apply T. exact (nth_error_In _ _ R). }
    unfold rule_fits in T. rewrite <- E in T.
    destruct (sequence (map root kids)) as [cs|] eqn:S; [|discriminate T].
    destruct (sequence_fine _ F _ S) as [G M].
    unfold fine. cbn [projection root]. rewrite R. destruct (name =? "")%string.
    + split; [exact G|]. exact (all_in_member _ _ _ T M).
    + destruct (sig name) as [[ss y]|] eqn:N; [|discriminate T].
      apply andb_true_iff in T. destruct T as [A C]. split.
      * constructor; [|constructor]. refine (G_node _ _ ss y N _ G). exact (all_in_member _ _ _ A M).
      * cbn [map]. unfold label_of. cbn [name_of]. rewrite N.
        refine (all_in_member _ _ _ C _). left. apply member_exact.
Qed.

(* The tree of an accepted input: one node, a task. *)
Lemma task_tree t : derivation t -> root t = 59 -> exists n, projection t = [n] /\ good n /\ label_of n = LTask.
Proof.
  intros D R. destruct (derivation_fine _ D) as [G M]. rewrite R in M.
  change (shape_of 59) with [([LTask], false)] in M.
  inversion M as [? ? (k & E & N)|? ? X]; subst; [|inversion X].
  rewrite (N eq_refl) in E. cbn in E.
  destruct (projection t) as [|n [|]]; try discriminate E. cbn in E. injection E as L.
  exists n. inversion G; subst. repeat split; assumption.
Qed.
