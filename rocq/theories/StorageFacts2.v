(* Proofs about the memory of the semantic actions: the actions one by one *)
From Coq Require Import ZArith String Ascii List Bool Lia Permutation.
From Verif Require Import Base Enums Term Terms Compound Maps Float Truth Numeral Actions ActionsSpec ActionsFacts.
From Verif Require Import Storage StorageSpec StorageFacts.
From Verif Require Interning Evidence Parser.
Import ListNotations.
Open Scope string_scope.
Open Scope Z_scope.
Open Scope list_scope.

Definition pgiven (ps : list pointer) : parguments := match ps with [] => None | _ => Some ps end.

(* The same state, and a pointer for the value. *)
Definition same_result (r : state * pointer) (r' : state * value) (post : blocks) : Prop :=
  fst r = fst r' /\ stored (snd r) (snd r') post.

Definition follows (f : pmethod) (g : method) (vs : list value) : Prop :=
  forall st ps l, stored_all ps vs l -> does l (f st (pgiven ps)) (g st (given vs)) same_result.

Ltac inv_all := repeat match goal with
  | H : stored_all _ (_ :: _) _ |- _ => inversion H; clear H; subst
  | H : stored_all _ [] _ |- _ => inversion H; clear H; subst
  end.

Ltac start := let st := fresh "st" in let ps := fresh "ps" in let l := fresh "l" in let S := fresh "S" in
  intros st ps l S; inv_all; cbn [pgiven given].

Lemma bind_ok {A} (r : res A) : bind r (fun x => Ok x) = r.
Proof. destruct r; reflexivity. Qed.

Lemma ret_step {A A' B'} pre (a : A) (f : A -> M A') (g : res B') Q : does pre (f a) g Q -> does pre (mbind (ret a) f) g Q.
Proof. intros D. exact D. Qed.

Lemma does_assoc {A B C D} pre (m : M A) (f : A -> M B) (g : B -> M C) (r : res D) Q :
  does pre (mbind m (fun y => mbind (f y) g)) r Q -> does pre (mbind (mbind m f) g) r Q.
Proof.
  intros D0 h F S L. specialize (D0 h F S L).
  replace (mbind (mbind m f) g h) with (mbind m (fun y => mbind (f y) g) h); [exact D0|].
  unfold mbind. destruct (m h) as [h' [y| | |]]; reflexivity.
Qed.

Lemma new_step {A' B'} pre b (f : Z -> M A') (g : res B') Q :
  (forall a, does ((a, b) :: pre) (f a) g Q) -> does pre (mbind (new b) f) g Q.
Proof. intros D. eapply does_step; [apply does_new|]. cbn beta. intros a post ->. exact (D a). Qed.

Section Types.
Variable strict : bool.

Lemma read_step {A' B'} pre T a b (f : block -> M A') (g : res B') Q : In (a, b) pre ->
  may_read strict T (type_of b) = true -> does pre (f b) g Q -> does pre (mbind (read strict T (At a)) f) g Q.
Proof.
  intros I R D. eapply does_step; [exact (does_read strict _ _ _ _ I R)|]. cbn beta. intros x post [-> ->]. exact D.
Qed.

Lemma delete_step {A' B'} pre T a b r (f : unit -> M A') (g : res B') Q : Permutation pre ((a, b) :: r) ->
  may_delete strict T (type_of b) = true -> does r (f tt) g Q -> does pre (mbind (delete strict T (At a)) f) g Q.
Proof.
  intros I R D. eapply does_step; [exact (does_delete strict _ _ _ _ _ I R)|]. cbn beta. intros [] post ->. exact D.
Qed.

Lemma write_step {A' B'} pre a b b' r (f : unit -> M A') (g : res B') Q : Permutation pre ((a, b) :: r) ->
  may_read strict (type_of b') (type_of b) = true -> does ((a, b') :: r) (f tt) g Q ->
  does pre (mbind (write strict (At a) b') f) g Q.
Proof.
  intros I R D. eapply does_step; [exact (does_write strict _ _ _ _ _ I R)|]. cbn beta. intros [] post ->. exact D.
Qed.

Lemma get_step {A' B'} pre r p t l (f : term -> M A') (g : res B') Q : stored p (VTerm t) l -> Permutation pre (l ++ r) ->
  does r (f t) g Q -> does pre (mbind (get strict p) f) g Q.
Proof.
  intros S P D. eapply does_step; [exact (does_get strict _ _ _ _ _ S P)|]. cbn beta. intros x post [-> ->]. exact D.
Qed.

Lemma number_step {A' B'} pre r p v l (f : float64 -> M A') (g : res B') Q : stored p (VNumber v) l -> Permutation pre (l ++ r) ->
  does r (f v) g Q -> does pre (mbind (take_number strict p) f) g Q.
Proof.
  intros S P D. eapply does_step; [exact (does_number strict _ _ _ _ _ S P)|]. cbn beta. intros x post [-> ->]. exact D.
Qed.

Lemma string_step {A' B'} pre r p s l (f : string -> M A') (g : res B') Q : stored p (VString s) l -> Permutation pre (l ++ r) ->
  does pre (f s) g Q -> does pre (mbind (string_at strict p) f) g Q.
Proof.
  intros S P D. eapply does_step; [exact (does_string strict _ _ _ _ _ S P)|]. cbn beta. intros x post [-> ->]. exact D.
Qed.

Lemma lift_step {A A' B'} pre (r : res A) (f : A -> M A') (g : A -> res B') Q : (forall a, r = Ok a -> does pre (f a) (g a) Q) ->
  does pre (mbind (lift r) f) (bind r g) Q.
Proof.
  intros D h F S L. unfold mbind, lift. destruct r as [a| | |]; cbn [bind]; try exact I.
  - exact (D a eq_refl h F S L).
  - exists h, pre. split; [reflexivity|]. split; [exact S|exact L].
Qed.

Lemma get_all_step {A' B'} ts : forall pre r ps l (f : list term -> M A') (g : res B') Q,
  stored_all ps (map VTerm ts) l -> Permutation pre (l ++ r) -> does r (f ts) g Q ->
  does pre (mbind (get_all strict ps) f) g Q.
Proof.
  assert (K : forall ts pre r ps l, stored_all ps (map VTerm ts) l -> Permutation pre (l ++ r) ->
    does pre (get_all strict ps) (Ok tt) (fun x (_ : unit) post => x = ts /\ Permutation post r)).
  { induction ts0 as [|t ts0 IH]; intros pre r ps l S P; cbn [map] in S; inv_all; cbn [get_all].
    - apply does_ret. split; [reflexivity|exact P].
    - eapply get_step; [eassumption|rewrite <- app_assoc in P; exact P|].
      eapply does_step; [eapply IH; [eassumption|apply Permutation_refl]|].
      cbn beta. intros x post [-> X]. apply does_ret. split; [reflexivity|exact X]. }
  intros pre r ps l f g Q S P D. eapply does_step; [exact (K _ _ _ _ _ S P)|]. cbn beta. intros x post [-> X].
  exact (does_perm _ _ _ _ _ X D).
Qed.

Lemma terms_of_terms ts : terms_of (map VTerm ts) = Ok ts.
Proof. induction ts as [|t ts IH]; [reflexivity|]. cbn [map terms_of as_term bind]. rewrite IH. reflexivity. Qed.

Lemma new_term pre st t : pre = [] ->
  does pre (mbind (new (BTerm t)) (fun x => ret (st, At x))) (Ok (st, VTerm t)) same_result.
Proof. intros ->. apply new_step. intros a. apply does_ret. split; [reflexivity|constructor]. Qed.

Ltac arguments := repeat (progress cbn [all_pargs parg nth_error length Nat.eqb Nat.ltb Nat.leb skipn token_at copula_at connector_at fst snd] ||
    match goal with
    | |- does _ (mbind (ret _) _) _ _ => apply ret_step
    | |- does _ (mbind (mbind _ _) _) _ _ => apply does_assoc
    end);
  cbn [all_args bind arg nth_error length Nat.eqb Nat.ltb Nat.leb skipn as_term as_copula as_connector as_number as_string
    as_text as_budget as_sentence].

(* ---- numbers and words ---- *)

Lemma follows_string s : follows pstring make_string [VText s].
Proof.
  start. match goal with H : stored _ (VText _) _ |- _ => inversion H; subst end. cbn [app].
  unfold pstring, make_string. arguments. apply new_step. intros a. apply does_ret.
  split; [reflexivity|constructor].
Qed.

Lemma follows_number s : follows pnumber make_number [VText s].
Proof.
  start. match goal with H : stored _ (VText _) _ |- _ => inversion H; subst end. cbn [app].
  unfold pnumber, make_number. arguments.
  apply lift_step. intros x _. apply new_step. intros a. apply does_ret. split; [reflexivity|constructor].
Qed.

Lemma variable_term k st s st' v : make_variable k st (Some [VString s]) = Ok (st', v) -> exists t, v = VTerm t.
Proof.
  unfold make_variable. cbn [all_args bind arg nth_error as_string]. intros E.
  destruct k; destruct (number_of _ _) as [m i]; injection E as <- <-; eexists; reflexivity.
Qed.

Lemma follows_variable k s : follows (pvariable strict k) (make_variable k) [VString s].
Proof.
  start. rewrite app_nil_r. match goal with H : stored _ (VString _) _ |- _ => inversion H; subst end.
  unfold pvariable. cbn [all_pargs]. apply ret_step. cbn [parg nth_error]. apply ret_step.
  eapply string_step; [constructor|rewrite app_nil_r; apply Permutation_refl|].
  eapply delete_step; [apply Permutation_refl|reflexivity|].
  rewrite <- (bind_ok (make_variable k st (Some [VString s]))) at 2.
  apply lift_step. intros [st' v] E. destruct (variable_term _ _ _ _ _ E) as [t ->]. apply new_term. reflexivity.
Qed.

Lemma follows_word g s : (forall st st' v, g st (Some [VString s]) = Ok (st', v) -> exists t, v = VTerm t) ->
  follows (pword strict g) g [VString s].
Proof.
  intros K. start. rewrite app_nil_r. match goal with H : stored _ (VString _) _ |- _ => inversion H; subst end.
  unfold pword. cbn [all_pargs]. apply ret_step. cbn [parg nth_error]. apply ret_step.
  eapply string_step; [constructor|rewrite app_nil_r; apply Permutation_refl|].
  rewrite <- (bind_ok (g st (Some [VString s]))) at 2.
  apply lift_step. intros [st' v] E. destruct (K _ _ _ E) as [t ->].
  eapply delete_step; [apply Permutation_refl|reflexivity|]. apply new_term. reflexivity.
Qed.

Lemma follows_interval x : follows (pinterval strict) make_interval [VNumber x].
Proof.
  start. rewrite app_nil_r. match goal with H : stored _ (VNumber _) _ |- _ => inversion H; subst end.
  unfold pinterval, make_interval. arguments.
  eapply read_step; [left; reflexivity|reflexivity|]. apply lift_step. intros n _. apply new_step. intros b.
  eapply delete_step; [apply perm_swap|reflexivity|]. apply does_ret. split; [reflexivity|constructor].
Qed.

Lemma follows_time x : follows (ptime strict) make_time [VNumber x].
Proof.
  start. rewrite app_nil_r. match goal with H : stored _ (VNumber _) _ |- _ => inversion H; subst end.
  unfold ptime, make_time, new_time. arguments.
  eapply read_step; [left; reflexivity|reflexivity|]. apply lift_step. intros n _. arguments.
  apply new_step. intros i. arguments. apply new_step. intros b. arguments.
  eapply (delete_step _ _ _ (BDouble x)); [|reflexivity|apply does_ret; split; [reflexivity|constructor]].
  eapply Permutation_trans; [apply perm_skip, perm_swap|]. apply perm_swap.
Qed.

Lemma follows_tense n : follows (ptense n) (constant (VTime n)) [].
Proof.
  start. unfold ptense, new_time, constant. arguments. apply new_step. intros i. arguments. apply new_step. intros b.
  arguments. apply does_ret. split; [reflexivity|constructor].
Qed.

Lemma follows_constant p v : stored p v [] -> follows (pconstant p) (constant v) [].
Proof. intros S. start. unfold pconstant, constant. apply does_ret. split; [reflexivity|exact S]. Qed.

Lemma follows_pass v : follows ppass pass [v].
Proof. start. rewrite app_nil_r. unfold ppass, pass. arguments. apply does_ret. split; [reflexivity|assumption]. Qed.

Lemma follows_pass_term t : follows ppass pass_term [VTerm t].
Proof. start. rewrite app_nil_r. unfold ppass, pass_term. arguments. apply does_ret. split; [reflexivity|assumption]. Qed.

(* ---- truth values and budgets ---- *)

Lemma number_or_step {A' B'} pre ps i other (x : float64) (o : option (pointer * blocks)) r (f : float64 -> M A') (g : res B') Q :
  match o with
  | Some (p, l) => nth_error ps i = Some p /\ (i < length ps)%nat /\ stored p (VNumber x) l /\ Permutation pre (l ++ r)
  | None => (length ps <= i)%nat /\ x = other /\ r = pre
  end ->
  does r (f x) g Q -> does pre (mbind (number_or strict ps i other) f) g Q.
Proof.
  intros H D. unfold number_or. destruct o as [[p l]|].
  - destruct H as (N & L & S & P). replace (Nat.ltb i (length ps)) with true by (symmetry; apply Nat.ltb_lt; exact L).
    unfold parg. rewrite N. apply does_assoc, ret_step. exact (number_step _ _ _ _ _ _ _ _ S P D).
  - destruct H as (L & -> & ->). replace (Nat.ltb i (length ps)) with false by (symmetry; apply Nat.ltb_ge; exact L).
    apply ret_step. exact D.
Qed.

Ltac number_some := match goal with
  | H : stored ?p (VNumber ?x) ?l |- does (?l ++ ?r) (mbind (number_or _ _ _ _) _) _ _ =>
      apply (number_or_step _ _ _ _ x (Some (p, l)) r); [repeat split; [cbn [length]; lia|exact H|apply Permutation_refl]|]
  end.
Ltac number_none := match goal with
  |- does ?pre (mbind (number_or _ _ _ ?o) _) _ _ => 
      apply (number_or_step _ _ _ _ o None pre); [repeat split; cbn [length]; lia|]
  end.

Lemma follows_truth xs : (1 <= length xs <= 3)%nat -> follows (ptruth strict) make_truth (map VNumber xs).
Proof.
  intros L. destruct xs as [|x [|y [|z [|w xs]]]]; cbn [length] in L; try lia; cbn [map]; start; unfold ptruth, make_truth; arguments.
  - number_some. number_none. number_none. apply new_step. intros b. apply new_step. intros a. apply does_ret.
    split; [reflexivity|constructor].
  - number_some. number_some. number_none. apply new_step. intros b. apply new_step. intros a. apply does_ret.
    split; [reflexivity|constructor].
  - number_some. number_some. number_some. apply new_step. intros b. apply new_step. intros a. apply does_ret.
    split; [reflexivity|constructor].
Qed.

Lemma follows_budget xs : (1 <= length xs <= 3)%nat -> follows (pbudget strict) make_budget (map VNumber xs).
Proof.
  intros L. destruct xs as [|x [|y [|z [|w xs]]]]; cbn [length] in L; try lia; cbn [map]; start; unfold pbudget, make_budget; arguments.
  - number_some. number_none. number_none. apply new_step. intros a. apply does_ret. split; [reflexivity|constructor].
  - number_some. number_some. number_none. apply new_step. intros a. apply does_ret. split; [reflexivity|constructor].
  - number_some. number_some. number_some. apply new_step. intros a. apply does_ret. split; [reflexivity|constructor].
Qed.

(* ---- terms ---- *)

Section Actions.
Variable ord : list (option connector * list term) -> list (option connector * list term).
Variable fresh : Interning.world -> Z.

Lemma follows_prefix c ts : follows (pmake_prefix strict ord) (make_prefix ord) (VConnector c :: map VTerm ts).
Proof.
  start. match goal with H : stored _ (VConnector _) _ |- _ => inversion H; subst end. cbn [app].
  unfold pmake_prefix, make_prefix, pprefix, prefix. arguments. rewrite terms_of_terms. cbn [bind].
  eapply get_all_step; [eassumption|rewrite app_nil_r; apply Permutation_refl|].
  apply lift_step. intros t _. apply new_term. reflexivity.
Qed.

Lemma follows_infix c ts : ts <> [] -> follows (pinfix strict ord c) (make_infix ord c) (map VTerm ts).
Proof.
  intros N st ps l S. destruct ts as [|t ts]; [contradiction|]. cbn [map] in S |- *. 
  assert (G : exists p ps', ps = p :: ps') by (inversion S; subst; eexists _, _; reflexivity).
  destruct G as (p & ps' & ->). cbn [pgiven given].
  unfold pinfix, make_infix, pprefix, prefix. arguments.
  change (VTerm t :: map VTerm ts) with (map VTerm (t :: ts)) in *. rewrite terms_of_terms. cbn [bind].
  eapply get_all_step; [eassumption|rewrite app_nil_r; apply Permutation_refl|].
  apply lift_step. intros u _. apply new_term. reflexivity.
Qed.

Lemma follows_negation c t : follows (pnegation strict ord) (make_negation ord) [VConnector c; VTerm t].
Proof.
  start. match goal with H : stored _ (VConnector _) _ |- _ => inversion H; subst end. cbn [app].
  unfold pnegation, make_negation. arguments.
  eapply get_step; [eassumption|apply Permutation_refl|].
  apply lift_step. intros u _. apply new_term. reflexivity.
Qed.

Lemma follows_single_prefix c t u : follows (psingle strict ord 0 1) (make_single ord 0 1) [VConnector c; VTerm t; VTerm u].
Proof.
  start. match goal with H : stored _ (VConnector _) _ |- _ => inversion H; subst end. cbn [app].
  unfold psingle, make_single. arguments.
  eapply get_step; [eassumption|apply Permutation_refl|].
  eapply get_step; [eassumption|apply Permutation_refl|].
  apply lift_step. intros x _. apply new_term. reflexivity.
Qed.

Lemma follows_single_infix c t u : follows (psingle strict ord 1 0) (make_single ord 1 0) [VTerm t; VConnector c; VTerm u].
Proof.
  start. match goal with H : stored _ (VConnector _) _ |- _ => inversion H; subst end. cbn [app].
  unfold psingle, make_single. arguments.
  eapply get_step; [eassumption|apply Permutation_refl|].
  eapply get_step; [eassumption|apply Permutation_refl|].
  apply lift_step. intros x _. apply new_term. reflexivity.
Qed.

Lemma follows_statement s c p : follows (pstatement strict ord) (make_statement ord) [VTerm s; VCopula c; VTerm p].
Proof.
  start. match goal with H : stored _ (VCopula _) _ |- _ => inversion H; subst end. cbn [app].
  rewrite <- (bind_ok (make_statement _ _ _)). unfold pstatement. cbn [all_pargs].
  repeat (progress cbn [parg nth_error copula_at] || match goal with |- does _ (mbind (ret _) _) _ _ => apply ret_step end).
  eapply get_step; [eassumption|apply Permutation_refl|].
  repeat (progress cbn [parg nth_error copula_at] || match goal with |- does _ (mbind (ret _) _) _ _ => apply ret_step end).
  eapply get_step; [eassumption|apply Permutation_refl|].
  apply lift_step. intros [st' v] E.
  assert (K : exists t, v = VTerm t).
  { pose proof (gives_statement ord st _ _ _ E) as K. destruct v; try discriminate K. eexists; reflexivity. }
  destruct K as [t ->]. apply new_term. reflexivity.
Qed.

Lemma does_operation1 st op ts ps l : stored_all ps (VTerm op :: map VTerm ts) l ->
  does l (poperation1 strict ord st ps) (operation1 ord st (VTerm op :: map VTerm ts)) same_result.
Proof.
  intros S. inv_all. unfold poperation1, operation1. cbn [skipn]. rewrite terms_of_terms. cbn [bind].
  eapply get_all_step; [eassumption|apply Permutation_app_comm|]. arguments.
  eapply get_step; [eassumption|rewrite app_nil_r; apply Permutation_refl|].
  apply lift_step. intros t _. apply new_term. reflexivity.
Qed.

Lemma follows_operation1 op ts : follows (pmake_operation1 strict ord) (make_operation1 ord) (VTerm op :: map VTerm ts).
Proof.
  intros st ps l S. assert (G : exists p ps', ps = p :: ps') by (inversion S; subst; eexists _, _; reflexivity).
  destruct G as (p & ps' & ->). exact (does_operation1 st op ts _ _ S).
Qed.

Lemma operation_term s st st' v : make_operation fresh st (Some [VString s]) = Ok (st', v) -> exists t, v = VTerm t.
Proof.
  intros E. pose proof (gives_operation fresh st _ _ _ E) as K. destruct v; try discriminate K. eexists; reflexivity.
Qed.

Lemma atom_term s st st' v : make_atom fresh st (Some [VString s]) = Ok (st', v) -> exists t, v = VTerm t.
Proof.
  intros E. pose proof (gives_atom fresh st _ _ _ E) as K. destruct v; try discriminate K. eexists; reflexivity.
Qed.

Lemma follows_atom s : follows (patom strict fresh) (make_atom fresh) [VString s].
Proof. apply follows_word. exact (atom_term s). Qed.

Lemma follows_operation s : follows (poperation strict fresh) (make_operation fresh) [VString s].
Proof. apply follows_word. exact (operation_term s). Qed.

Lemma follows_operation2 s ts : follows (pmake_operation2 strict ord fresh) (make_operation2 ord fresh) (VString s :: map VTerm ts).
Proof.
  start. unfold pmake_operation2, make_operation2. arguments.
  match goal with A : stored ?p (VString s) ?l, B : stored_all ?ps _ ?ls |- _ =>
    assert (D : does (l ++ []) (poperation strict fresh st (pgiven [p])) (make_operation fresh st (given [VString s])) same_result)
      by (apply follows_operation; constructor; [exact A|constructor]);
    apply (does_frame _ ls) in D; rewrite app_nil_r in D; cbn [pgiven given] in D;
    eapply does_bind_eq; [exact D|]; clear D
  end.
  cbn beta. intros [st1 p1] [st2 v] post E (q & [E' S] & ->). cbn [fst snd] in *. subst st2. cbn [skipn].
  destruct (operation_term _ _ _ _ E) as [op ->]. apply does_operation1. constructor; [exact S|assumption].
Qed.
End Actions.

(* ---- tasks ---- *)

Lemma finish_step {A' B'} pre b s tr l (f : budget -> M A') (g : budget -> res B') Q :
  stored_truth tr (truth_of s) l -> (forall x, In x l -> In x pre) -> (forall b', does pre (f b') (g b') Q) ->
  does pre (mbind (pfinish_budget strict b (punct s) tr) f) (bind (finish_budget b s) g) Q.
Proof.
  intros S I D. unfold pfinish_budget, finish_budget.
  assert (X : forall p d, does pre (mbind (if unset32 (quality b) then
        match tr with
        | Some a => mbind (read strict TTruth (At a)) (fun x =>
            match x with BTruth t => ret (fill_budget b p d (quality_from_truth ieee t)) | _ => lift UB end)
        | None => lift UB
        end else ret (fill_budget b p d one_point)) f)
      (bind (if unset32 (quality b) then
        match truth_of s with Some t => Ok (fill_budget b p d (quality_from_truth ieee t)) | None => UB end
        else Ok (fill_budget b p d one_point)) g) Q).
  { intros p d. destruct (unset32 (quality b)); [|apply ret_step; apply D].
    destruct S as [|a t]; [intros h F _ _; exact Logic.I|]. apply does_assoc.
    eapply read_step; [apply I; left; reflexivity|reflexivity|]. apply ret_step. cbn [bind]. apply D. }
  destruct (punct s); [apply X|apply ret_step; apply D|apply X|apply ret_step; apply D].
Qed.

Lemma follows_task s : follows (ptask strict) make_task [VSentence s].
Proof.
  start. rewrite app_nil_r. match goal with H : stored _ (VSentence _) _ |- _ => inversion H; subst end.
  unfold ptask, make_task. arguments. apply new_step. intros b. arguments.
  eapply read_step; [right; left; reflexivity|reflexivity|].
  eapply read_step; [left; reflexivity|reflexivity|].
  eapply finish_step; [eassumption|intros x X; right; right; right; exact X|]. intros v.
  eapply write_step; [apply Permutation_refl|reflexivity|].
  apply new_step. intros t. apply does_ret. split; [reflexivity|]. cbn [snd].
  apply (S_task t b _ (Task v s)). constructor. assumption.
Qed.

Lemma follows_task_budget b s : follows (ptask strict) make_task [VBudget b; VSentence s].
Proof.
  start. rewrite app_nil_r. match goal with H : stored _ (VSentence _) _ |- _ => inversion H; subst end.
  match goal with H : stored _ (VBudget _) _ |- _ => inversion H; subst end. cbn [app].
  unfold ptask, make_task. arguments.
  eapply read_step; [right; left; reflexivity|reflexivity|].
  eapply read_step; [left; reflexivity|reflexivity|].
  eapply finish_step; [eassumption|intros x X; right; right; right; exact X|]. intros v.
  eapply write_step; [apply Permutation_refl|reflexivity|].
  apply new_step. intros t. apply does_ret. split; [reflexivity|]. cbn [snd].
  apply (S_task t _ _ (Task v s)). constructor. assumption.
Qed.

(* ---- sentences ---- *)

(* The marks behind the term: a time, then a truth value, either of which may
   be missing. *)
Definition marks (n : option Z) (t : option (truth ieee)) : list value :=
  match n with Some n => [VTime n] | None => [] end ++ match t with Some t => [VTruth t] | None => [] end.

Inductive stored_stamp : option Z -> option Evidence.stamp -> blocks -> Prop :=
  | SS_none : stored_stamp None None []
  | SS_some a s : stored_stamp (Some a) (Some s) [(a, BStamp s)].

Lemma ploop_ok m n t ps l : strict = false \/ marks n t = [] -> stored_all ps (marks n t) l ->
  does l (ploop strict m ps None None) (loop_marks m (marks n t) None None)
    (fun r r' post => fst (fst r) = fst (fst r') /\ exists l1 l2, stored_stamp (snd r) (snd r') l1 /\
       stored_truth (snd (fst r)) (snd (fst r')) l2 /\ post = l1 ++ l2).
Proof.
  intros K S. 
  assert (X : forall s t ps l r, strict = false \/ match t with Some _ => False | None => True end ->
    stored_all ps (match t with Some t => [VTruth t] | None => [] end) l ->
    forall m a, stored_stamp a s r ->
    does (r ++ l) (ploop strict m ps None a) (loop_marks m (match t with Some t => [VTruth t] | None => [] end) None s)
    (fun r r' post => fst (fst r) = fst (fst r') /\ exists l1 l2, stored_stamp (snd r) (snd r') l1 /\
       stored_truth (snd (fst r)) (snd (fst r')) l2 /\ post = l1 ++ l2)).
  { clear. intros s t ps l r K S m a A. destruct t as [t|]; inv_all; cbn [ploop loop_marks].
    - match goal with H : stored _ (VTruth _) _ |- _ => inversion H; subst end. destruct K as [K|[]].
      eapply read_step; [apply in_or_app; right; left; reflexivity|rewrite K; reflexivity|].
      eapply (delete_step _ _ _ (BValued _)); [|rewrite K; reflexivity|].
      { apply Permutation_sym. cbn [app]. apply Permutation_middle. }
      apply does_ret. split; [reflexivity|]. cbn [fst snd]. eexists _, _. split; [exact A|]. split; [constructor|reflexivity].
    - apply does_ret. split; [reflexivity|]. cbn [fst snd]. eexists _, _. split; [exact A|]. split; [constructor|reflexivity]. }
  destruct n as [n|]; cbn [marks app] in S |- *.
  - unfold marks in *. cbn [app] in *. inv_all. cbn [ploop loop_marks].
    match goal with H : stored _ (VTime _) _ |- _ => inversion H; subst end. cbn [app].
    destruct K as [K|K]; [|discriminate K].
    eapply read_step; [left; reflexivity|rewrite K; reflexivity|].
    eapply delete_step; [apply Permutation_refl|rewrite K; reflexivity|].
    eapply read_step; [left; reflexivity|reflexivity|].
    eapply delete_step; [apply Permutation_refl|reflexivity|].
    destruct (Evidence.stamp5 m n (Evidence.to_int (Evidence.time m)) (-1) None false) as [m' e].
    apply new_step. intros a0. eapply (X (Some e) t _ _ [(a0, BStamp e)]); [left; exact K|assumption|constructor].
  - apply (X None t ps l []); [|exact S|constructor]. destruct K as [K|K]; [left; exact K|].
    right. destruct t; [discriminate K|exact I].
Qed.

Lemma ploop_query_ok m n ps l : strict = false \/ n = None -> stored_all ps (marks n None) l ->
  does l (ploop_query strict m ps None) (loop_marks m (marks n None) None None)
    (fun r r' post => fst r = fst (fst r') /\ stored_stamp (snd r) (snd r') post).
Proof.
  intros K S. destruct n as [n|]; unfold marks in *; cbn [app] in *; inv_all; cbn [ploop_query loop_marks].
  - match goal with H : stored _ (VTime _) _ |- _ => inversion H; subst end. cbn [app].
    destruct K as [K|K]; [|discriminate K].
    eapply read_step; [left; reflexivity|rewrite K; reflexivity|].
    eapply delete_step; [apply Permutation_refl|rewrite K; reflexivity|].
    eapply read_step; [left; reflexivity|reflexivity|].
    eapply delete_step; [apply Permutation_refl|reflexivity|].
    destruct (Evidence.stamp5 m n (Evidence.to_int (Evidence.time m)) (-1) None false) as [m' e].
    apply new_step. intros a0. apply does_ret. split; [reflexivity|constructor].
  - apply does_ret. split; [reflexivity|constructor].
Qed.

Lemma stamp_step {A' B'} pre r l m a s (f : Evidence.store * Z -> M A') (g : res B') Q :
  stored_stamp a s l -> Permutation pre (l ++ r) ->
  (forall a', does ((a', BStamp (snd (finish_stamp m s))) :: r) (f (fst (finish_stamp m s), a')) g Q) ->
  does pre (mbind (pfinish_stamp m a) f) g Q.
Proof.
  intros S P D. destruct S as [|a s]; unfold pfinish_stamp; cbn [finish_stamp] in D.
  - destruct (Evidence.stamp_bool m true) as [m' e]. apply does_assoc. apply new_step. intros a.
    apply ret_step. eapply does_perm; [|exact (D a)]. cbn [fst snd]. apply perm_skip. exact P.
  - apply ret_step. eapply does_perm; [|exact (D a)]. exact P.
Qed.

Lemma truth_step {A' B'} pre r l a t c (f : Z -> M A') (g : res B') Q :
  stored_truth a t l -> Permutation pre (l ++ r) ->
  (forall a', does ((a', BTruth (finish_truth t c)) :: r) (f a') g Q) ->
  does pre (mbind (pfinish_truth strict a c) f) g Q.
Proof.
  intros S P D. destruct S as [|a t]; unfold pfinish_truth.
  - apply new_step. intros a. eapply does_perm; [|exact (D a)]. apply perm_skip. exact P.
  - apply does_assoc. eapply read_step; [apply (Permutation_in _ (Permutation_sym P)); left; reflexivity|reflexivity|].
    apply does_assoc. eapply write_step; [exact P|reflexivity|]. apply ret_step. exact (D a).
Qed.

Lemma follows_belief k c t n tr : strict = false \/ marks n tr = [] ->
  follows (pbelief strict k c) (make_belief k c) (VTerm t :: marks n tr).
Proof.
  intros K st ps l S. inversion S as [|p v l0 ps' vs ls Sp Sr]; subst. cbn [pgiven given].
  unfold pbelief, make_belief. arguments.
  eapply get_step; [exact Sp|apply Permutation_refl|].
  eapply does_bind; [exact (ploop_ok _ _ _ _ _ K Sr)|]. cbn beta.
  intros [[m1 a] b] [[m2 t'] s'] post (E & l1 & l2 & S1 & S2 & ->). cbn [fst snd] in *. subst m2.
  eapply stamp_step; [exact S1|apply Permutation_refl|]. intros a'.
  destruct (finish_stamp m1 s') as [m2 e]. cbn [fst snd].
  eapply truth_step; [exact S2|exact (Permutation_cons_append _ _)|]. intros b'.
  eapply does_perm; [apply perm_swap|]. apply new_step. intros x. apply does_ret. split; [reflexivity|]. cbn [snd].
  apply (S_sentence x (Sentence t k (Some (finish_truth t' c)) e) (Some b') a'). constructor.
Qed.

Lemma follows_query k t n : strict = false \/ n = None ->
  follows (pquery strict k) (make_query k) (VTerm t :: marks n None).
Proof.
  intros K st ps l S. inversion S as [|p v l0 ps' vs ls Sp Sr]; subst. cbn [pgiven given].
  unfold pquery, make_query. arguments.
  eapply get_step; [exact Sp|apply Permutation_refl|].
  eapply does_bind; [exact (ploop_query_ok _ _ _ _ K Sr)|]. cbn beta.
  intros [m1 b] [[m2 t'] s'] post (E & S1). cbn [fst snd] in *. subst m2.
  eapply stamp_step; [exact S1|rewrite app_nil_r; apply Permutation_refl|]. intros a'.
  destruct (finish_stamp m1 s') as [m2 e]. cbn [fst snd].
  apply new_step. intros x. apply does_ret. split; [reflexivity|]. cbn [snd].
  apply (S_sentence x (Sentence t k None e) None a'). constructor.
Qed.
End Types.
