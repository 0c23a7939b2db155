(* Proofs about the memory of the syntax tree: the parser with pointers does
   what the parser with trees does *)
From Coq Require Import ZArith String Ascii List Bool Lia Permutation.
From Verif Require Import Base Maps Tables Grammar Parser ParserSpec ParserFacts ParserFacts2 ParserFacts3.
From Verif Require Import Nodes NodesSpec NodesFacts.
Import ListNotations.
Open Scope string_scope.
Open Scope list_scope.
Open Scope Z_scope.

(* ---- no reduction loses nodes ---- *)

Fixpoint keeps (n : nat) (stk : list cell) (col : list ast) : Prop :=
  match n, stk with
  | S n', c :: stk' => chain (nodes c) col = nodes c ++ col /\ keeps n' stk' (nodes c ++ col)
  | _, _ => True
  end.

Lemma chain_keeps (own col : list ast) : (length own <= 1)%nat \/ col = [] -> chain own col = own ++ col.
Proof.
  intros [L| ->].
  - destruct own as [|a [|b l]]; cbn in *; [reflexivity| |lia]. destruct col; reflexivity.
  - rewrite app_nil_r. unfold chain. destruct own; reflexivity.
Qed.

Lemma own_bound t : derivation t ->
  let no := if root t <? 59 then count (root t) else O in ((no < 2) -> length (own t) <= no)%nat.
Proof.
  intros D. cbn zeta. pose proof (root_derived t D). destruct t; cbn [own].
  - destruct (Z.ltb_spec (root (Token sym txt)) 59); [|lia]. apply count_bound; exact D.
  - cbn. lia.
Qed.

Lemma under_bound t : derivation t ->
  let nu := if root t <? 59 then O else count (root t) in ((nu < 2) -> length (under t) <= nu)%nat.
Proof.
  intros D. cbn zeta. pose proof (root_derived t D). destruct t; cbn [under].
  - cbn. lia.
  - destruct (Z.ltb_spec (root (Derived prod kids)) 59); [lia|]. apply count_bound; exact D.
Qed.

(* the step that is common to both kinds of stack *)
Lemma keeps_cell t ex col ne empty rest : derivation t ->
  lossless (root t :: rest) ne empty = true -> ((ne < 2)%nat -> (length ex <= ne)%nat) -> (empty = true -> col = []) ->
  chain (own t ++ ex) col = (own t ++ ex) ++ col /\
  exists nu empty', lossless rest nu empty' = true /\ ((nu < 2)%nat -> (length (under t) <= nu)%nat) /\
    (empty' = true -> (own t ++ ex) ++ col = []).
Proof.
  intros D L B E. cbn [lossless] in L. apply andb_true_iff in L as [L1 L2].
  pose proof (own_bound t D) as BO. pose proof (under_bound t D) as BU. cbn zeta in BO, BU.
  set (no := if root t <? 59 then count (root t) else O) in *.
  set (nu := if root t <? 59 then O else count (root t)) in *.
  split.
  - apply chain_keeps. apply orb_true_iff in L1 as [L1|L1]; [left|right; exact (E L1)].
    apply Nat.leb_le in L1. rewrite app_length. lia.
  - exists nu, (empty && (no + ne =? 0)%nat). split; [exact L2|]. split; [exact BU|].
    intros K. apply andb_true_iff in K as [K1 K2]. apply Nat.eqb_eq in K2. rewrite (E K1), app_nil_r.
    destruct (own t) eqn:O; [|cbn in BO; lia]. destruct ex; [reflexivity|cbn in B; lia].
Qed.

Lemma linked_keeps r : forall d cs ts ex s0 n0 below0 col ne empty,
  linked cs ts ex -> cs = Cell s0 n0 :: below0 -> In (r, d) (items_of s0) ->
  lossless (rev (firstn d (rhs_of r))) ne empty = true ->
  ((ne < 2)%nat -> (length ex <= ne)%nat) -> (empty = true -> col = []) ->
  keeps d cs col.
Proof.
  induction d as [|d IH]; intros cs ts ex s0 n0 below0 col ne empty H E I L B X; subst cs; [exact Logic.I|].
  inversion H as [ex' E1 E2 E3|q t p n cs ts' ex' B1 B2 B3 B4 E1 E2 E3]; subst.
  - exfalso. assert (Z0 : forallb (fun i => Nat.eqb (snd i) O) (items_of 0) = true) by (vm_compute; reflexivity).
    rewrite forallb_forall in Z0. specialize (Z0 _ I). discriminate.
  - pose proof B2 as EK. unfold edge_ok in EK.
    rewrite !andb_true_iff in EK. destruct EK as [[_ EK] _].
    rewrite forallb_forall in EK. specialize (EK _ I). cbn [fst snd] in EK.
    apply andb_true_iff in EK as [I' E]. apply item_in_In in I'.
    destruct (nth_error (rhs_of r) d) as [y|] eqn:N; [|discriminate].
    apply Z.eqb_eq in E. subst y. rewrite (firstn_snoc _ _ _ N), rev_app_distr in L. cbn [rev app] in L.
    destruct (keeps_cell t ex col ne empty _ B3 L B X) as (C & nu & em & L' & B' & X').
    cbn [keeps nodes]. split; [exact C|]. exact (IH _ _ _ p n cs _ _ _ B4 eq_refl I' L' B' X').
Qed.

Lemma ready_keeps stk ts r : ready stk ts r -> keeps (length (rhs_of r)) stk [].
Proof.
  intros [(s0 & n0 & b0 & E & L & I)|(t & ts' & s0 & n0 & b0 & d & E & ET & D & L & LN & N & I)].
  - apply (linked_keeps r _ _ _ _ _ _ _ _ 0 true L E I).
    + rewrite firstn_all. apply lossless_rule.
    + intros _. cbn. lia.
    + reflexivity.
  - subst stk. rewrite LN. cbn [keeps nodes].
    assert (LL : lossless (root t :: rev (firstn d (rhs_of r))) 0 true = true).
    { pose proof (lossless_rule r) as LR. rewrite <- (firstn_all (rhs_of r)), LN, (firstn_snoc _ _ _ N), rev_app_distr in LR. exact LR. }
    destruct (keeps_cell t [] [] 0 true _ D LL) as (C & nu & em & L' & B' & X').
    + intros _. cbn. lia.
    + reflexivity.
    + rewrite !app_nil_r in *. split; [exact C|].
      exact (linked_keeps r _ _ _ _ _ _ _ _ _ _ L eq_refl I L' B' X').
Qed.

(* what must hold of a configuration for a reduction to lose nothing *)
Definition tidy (c : config) : Prop :=
  forall i name n lhs, next c = Reduce i -> rd productions i = Ok (name, n, lhs) -> keeps (Z.to_nat n) (stack c) [].

Lemma inv_tidy all ts c : inv all ts c -> tidy c.
Proof.
  intros [_ I] i name n lhs NX P. rewrite NX in I. destruct I as (Hi & RD & _).
  set (r := Z.to_nat i) in *.
  destruct (nth_error rules r) as [[[lhs' rhs] name']|] eqn:NR.
  2:{ apply nth_error_None in NR. destruct lengths_ok as (_ & _ & _ & _ & _ & LR). lia. }
  pose proof (production_eq _ _ _ _ NR) as Q. replace (Z.of_nat r) with i in Q by lia. rewrite P in Q. injection Q as -> -> ->.
  rewrite Nat2Z.id. pose proof (ready_keeps _ _ _ RD) as K. unfold rhs_of in K. rewrite NR in K. exact K.
Qed.

(* ---- the parse stack ---- *)

Inductive stack_at : list pcell -> list cell -> blocks -> Prop :=
  | K_none : stack_at [] [] []
  | K_cell s p ts k pcs cs l : nodes_at None p ts k -> stack_at pcs cs l ->
      stack_at (PCell s p :: pcs) (Cell s ts :: cs) (k ++ l).

Lemma stack_length ps cs l : stack_at ps cs l -> length ps = length cs.
Proof. induction 1; cbn [length]; congruence. Qed.

Lemma does_ppop n : forall ps cs l q col k, stack_at ps cs l -> nodes_at None q col k -> keeps n cs col ->
  does (l ++ k) (ppop n ps q) (pop n cs col)
    (fun x y post => exists l' k', post = l' ++ k' /\ stack_at (fst x) (fst y) l' /\ nodes_at None (snd x) (snd y) k').
Proof.
  induction n as [|n IH]; intros ps cs l q col k S N K; cbn [ppop pop].
  - apply does_ret. exists l, k. split; [reflexivity|]. split; [exact S|exact N].
  - inversion S as [|s p ts k1 pcs cs' l1 N1 S1]; subst.
    + intros h F _ _. exists h. reflexivity.
    + cbn [keeps nodes pnode] in *. destruct K as [C K]. rewrite C.
      eapply (does_step _ (k1 ++ k) l1); [apply does_join; [exact N1|exact N|exact C]| |].
      { rewrite <- !app_assoc. apply Permutation_app_head. apply Permutation_app_comm. }
      cbn beta. intros q' post N'. eapply does_perm; [apply Permutation_app_comm|]. exact (IH _ _ _ _ _ _ S1 N' K).
Qed.

Lemma push_same room ps cs l pc c : stack_at ps cs l ->
  match push room c cs with
  | Ok stk => stk = c :: cs /\ ppush room pc ps = Ok (pc :: ps)
  | UB => ppush room pc ps = UB
  | Throw | OutOfFuel => False
  end.
Proof.
  intros S. unfold push, ppush. rewrite (stack_length _ _ _ S). destruct room as [n|]; [|split; reflexivity].
  destruct (length cs <? n)%nat; [split; reflexivity|reflexivity].
Qed.

(* ---- one step ---- *)

Definition config_at (pc : pconfig) (c : config) (post : blocks) : Prop :=
  exists l k, post = l ++ k /\ stack_at (pstack pc) (stack c) l /\ lexem_at (plexem pc) k /\
    ptext pc = text c /\ pheld pc = held c /\ plen pc = len c /\ proom pc = room c /\ pnext pc = next c.

Definition ends_at (c : config) (x : option ptr * list ascii * ptr) (y : outcome * list ascii) (post : blocks) : Prop :=
  let '(o, kept, lexem) := x in
  snd y = kept /\ exists l k, post = l ++ k /\ lexem_at lexem k /\
    match o, fst y with
    | Some p, Accepted ts => nodes_at None p ts l
    | None, Rejected => exists ps, stack_at ps (stack c) l
    | _, _ => False
    end.

Definition step_at (c : config) (x : pconfig + pend) (y : config + outcome * list ascii) (post : blocks) : Prop :=
  match x, y with
  | inl pc', inl c' => config_at pc' c' post
  | inr x, inr y => ends_at c x y post
  | _, _ => False
  end.

Lemma does_look pc c pre : config_at pc c pre -> does pre (plook pc) (look c) (step_at c).
Proof.
  destruct pc as [ps t h ln rm nx lx], c as [cs t' h' ln' rm' nx'].
  intros (l & k & -> & S & X & ET & EH & EL & ER & EN). cbn [pstack stack plexem ptext text pheld held plen len proom room pnext next] in *.
  subst t' h' ln' rm' nx'. unfold plook, look. cbn [pstack stack plexem ptext text pheld held plen len proom room pnext next].
  inversion S as [|s p ts k1 pcs cs' l1 N1 S1]; subst.
  { intros h0 F _ _. exists h0. reflexivity. }
  cbn [pstate state].
  apply does_lifted. intros f _. apply does_lifted. intros [[act idx]|] _.
  2:{ eapply (does_step _ k (k1 ++ l1)); [apply does_lexem; exact X|apply Permutation_app_comm|].
      cbn beta. intros x post (a & -> & ->). eapply does_done; [apply Permutation_app_comm|].
      cbn [step_at ends_at fst snd stack]. split; [reflexivity|]. eexists _, _. split; [reflexivity|]. split; [constructor|].
      eexists. exact S. }
  destruct (Z.testbit act 1).
  2:{ apply does_ret. cbn [step_at]. exists (k1 ++ l1), k. cbn [pstack stack plexem ptext text pheld held plen len proom room pnext next].
      repeat (split; [reflexivity || assumption|]). reflexivity. }
  rewrite (stack_length _ _ _ S).
  apply does_lifted. intros sy _.
  set (leaf := if (fst sy =? "")%string then [] else [Leaf (fst sy) (string_of_list_ascii (firstn (flen f) t))]).
  set (rm1 := grow rm (length (Cell s ts :: cs'))).
  pose proof (push_same rm1 _ _ _ (PCell (target act idx) None) (Cell (target act idx) leaf) S) as PS.
  destruct (push _ _ _) as [stk| | |]; try contradiction.
  2:{ rewrite PS. intros h0 F _ _. exists h0. reflexivity. }
  destruct PS as [-> PS]. rewrite PS. clear PS.
  eapply (does_step _ [] _); [apply (does_ret _ (PCell (target act idx) None :: PCell s p :: pcs)); instantiate (1 := fun x post => x = PCell (target act idx) None :: PCell s p :: pcs /\ post = []); split; reflexivity|apply Permutation_refl|].
  cbn beta. intros _ post [-> ->]. cbn [app tl].
  eapply (does_step _ k (k1 ++ l1)); [|apply Permutation_app_comm|].
  { instantiate (1 := fun r post => exists k1 k2, post = k1 ++ k2 /\ nodes_at None (fst r) leaf k1 /\ lexem_at (snd r) k2).
    unfold leaf. destruct (fst sy =? "")%string.
    - apply does_ret. exists [], k. split; [reflexivity|]. split; [constructor|exact X].
    - eapply does_step; [apply does_lexem; exact X|rewrite app_nil_r; apply Permutation_refl|]. cbn beta. intros x post (a & -> & ->).
      eapply does_step; [apply does_leaf|apply Permutation_refl|]. cbn beta. intros x post (j & J & ->).
      apply does_ret. exists j, [(a, BText (string_of_list_ascii (firstn (flen f) t)))]. rewrite app_nil_r.
      split; [reflexivity|]. split; [exact J|constructor]. }
  cbn beta. intros [x y] post (j1 & j2 & -> & J1 & J2). cbn [fst snd] in *.
  destruct (if (fsym f =? 0) || (fsym f =? -1) then (t, Nat.max h (fread f), flen f)
            else (clear_input t (Nat.max h (fread f)) (flen f), O)) as [[t1 h1] l2].
  apply (does_done _ ((j1 ++ (k1 ++ l1)) ++ j2)).
  { rewrite <- !app_assoc. apply Permutation_app_head. rewrite (app_assoc k1 l1 j2). apply Permutation_app_comm. }
  cbn [step_at]. exists (j1 ++ k1 ++ l1), j2. cbn [pstack stack plexem ptext text pheld held plen len proom room pnext next].
  split; [reflexivity|]. split; [constructor; [exact J1|exact S]|]. split; [exact J2|]. repeat split.
Qed.

Lemma does_reduce i pc c pre : config_at pc c pre -> tidy c -> next c = Reduce i ->
  does pre (preduce i pc) (reduce i c) (step_at c).
Proof.
  intros (l & k & -> & S & X & ET & EH & EL & ER & EN) T NX. unfold preduce, reduce. rewrite ET, EH, EL, ER.
  apply does_lifted. intros [[name n] lhs] P. specialize (T i name n lhs NX P).
  eapply (does_into _ (l ++ []) k); [apply (does_ppop _ _ _ _ None [] []); [exact S|constructor|exact T]|rewrite app_nil_r; apply Permutation_refl|].
  intros [stk q] [stk' col] post _ (l' & k' & -> & S' & N'). cbn [fst snd] in *.
  inversion S' as [|s p ts k1 pcs cs' l1 N1 S1]; subst.
  { intros h0 F _ _. exists h0. reflexivity. }
  eapply (does_step _ (k1 ++ k') (l1 ++ k)); [apply does_append; [exact N1|exact N']| |].
  { rewrite <- !app_assoc. apply Permutation_app_head. rewrite !app_assoc. apply Permutation_app_tail. apply Permutation_app_comm. }
  cbn beta. intros all1 post N2.
  eapply (does_step _ post (l1 ++ k)); [apply does_wrap; exact N2|apply Permutation_refl|].
  cbn beta. intros all2 post2 N3.
  assert (BE : match pcs with [] => true | _ => false end = match cs' with [] => true | _ => false end).
  { inversion S1; reflexivity. }
  rewrite BE. destruct ((lhs =? 59) && match cs' with [] => true | _ => false end) eqn:GOAL.
  { apply andb_true_iff in GOAL as [_ GOAL]. destruct cs'; [|discriminate]. inversion S1; subst.
    apply does_ret. cbn [step_at ends_at fst snd app]. split; [reflexivity|]. exists post2, k. split; [reflexivity|]. split; [exact X|exact N3]. }
  apply does_lifted. intros o _. destruct (match o with Some e => e | None => (1, i) end) as [act j].
  assert (S2 : stack_at (PCell s all2 :: pcs) (Cell s (if (name =? "")%string then ts ++ col else [Node name (ts ++ col)]) :: cs') (post2 ++ l1)).
  { constructor; [exact N3|exact S1]. }
  pose proof (push_same (room c) _ _ _ (PCell (target act j) None) (Cell (target act j) []) S2) as PS.
  destruct (push _ _ _) as [st| | |]; try contradiction.
  2:{ rewrite PS. intros h0 F _ _. exists h0. reflexivity. }
  destruct PS as [-> PS]. rewrite PS.
  eapply (does_step _ [] _); [apply (does_ret _ (PCell (target act j) None :: PCell s all2 :: pcs)); instantiate (1 := fun x post => x = PCell (target act j) None :: PCell s all2 :: pcs /\ post = []); split; reflexivity|apply Permutation_refl|].
  cbn beta. intros _ post3 [-> ->]. apply does_ret. cbn [step_at app]. exists (post2 ++ l1), k.
  cbn [pstack stack plexem ptext text pheld held plen len proom room pnext next]. rewrite app_assoc.
  split; [reflexivity|]. split; [change (post2 ++ l1) with ([] ++ post2 ++ l1); constructor; [constructor|exact S2]|].
  split; [exact X|]. repeat split.
Qed.

Lemma does_pstep pc c pre : config_at pc c pre -> tidy c -> does pre (pstep pc) (step c) (step_at c).
Proof.
  intros H T. unfold pstep, step. replace (pnext pc) with (next c).
  - destruct (next c) as [|i] eqn:NX; [apply does_look; exact H|apply does_reduce; assumption].
  - destruct H as (l & k & _ & _ & _ & _ & _ & _ & _ & EN). symmetry. exact EN.
Qed.

(* ---- all steps ---- *)

Definition fits (c : config) : Prop :=
  (exists all ts, inv all ts (ideal c)) /\ match room c with Some n => (length (stack c) <= n)%nat | None => True end.

Lemma fits_tidy c : fits c -> tidy c.
Proof. intros [(all & ts & I) _]. exact (inv_tidy _ _ _ I). Qed.

Lemma fits_step c c' : fits c -> step c = Ok (inl c') -> fits c'.
Proof.
  intros [(all & ts & I) L] E. destruct (room c) as [n|] eqn:R.
  - pose proof (step_limited c n R L) as SL.
    destruct (step_progress _ ts (ideal c) eq_refl I) as [c1 ts' E' R' I' M CS|E'|t E' D RT TX LX TN]; rewrite E' in SL.
    + destruct SL as [[SL _]|[SL LL]]; rewrite SL in E; [discriminate|]. injection E as <-.
      split; [|exact LL]. exists all, ts'. replace (ideal (limit c1 n)) with c1; [exact I'|].
      destruct c1. cbn in *. rewrite R'. reflexivity.
    + rewrite SL in E. discriminate.
    + rewrite SL in E. discriminate.
  - assert (ID : ideal c = c) by (destruct c; cbn in *; rewrite R; reflexivity). rewrite ID in I.
    destruct (step_progress _ ts c R I) as [c1 ts' E' R' I' M CS|E'|t E' D RT TX LX TN]; rewrite E' in E; try discriminate.
    injection E as <-. split; [|rewrite R'; exact Logic.I]. exists all, ts'.
    replace (ideal c1) with c1; [exact I'|]. destruct c1. cbn in *. rewrite R'. reflexivity.
Qed.

Lemma stack_cells ps cs l : stack_at ps cs l -> cells_at (map nodes cs) l.
Proof. induction 1 as [|s p ts k pcs cs l N S IH]; cbn [map nodes]; [constructor|]. econstructor; [exact N|exact IH]. Qed.

Definition run_at (c : config) (x : option ptr * list ascii) (y : outcome * list ascii) (post : blocks) : Prop :=
  snd x = snd y /\
  match fst x, fst y with
  | Some p, Accepted ts => nodes_at None p ts post
  | None, Rejected => exists c' kept, leads c c' /\ step c' = Ok (inr (Rejected, kept)) /\ cells_at (map nodes (stack c')) post
  | _, _ => False
  end.

Lemma does_prun fuel : forall pc c pre, config_at pc c pre -> fits c -> does pre (prun fuel pc) (run fuel c) (run_at c).
Proof.
  induction fuel as [|fuel IH]; intros pc c pre H FT; cbn [prun run].
  { intros h F _ _. exists h. reflexivity. }
  eapply does_bind; [apply does_pstep; [exact H|exact (fits_tidy _ FT)]|]. cbn beta.
  intros [pc'|[[o kept] lx]] [c'|[o' kept']] post E SA; cbn [step_at ends_at snd fst] in SA; try contradiction.
  - eapply does_weaken; [|apply IH; [exact SA|exact (fits_step _ _ FT E)]].
    intros x y post' [A B]. split; [exact A|]. destruct (fst x), (fst y); try exact B.
    destruct B as (c2 & kept & L & B). exists c2, kept. split; [econstructor; [exact E|exact L]|exact B].
  - destruct SA as (-> & l & k & -> & X & B).
    eapply (does_step _ k l); [apply does_free_lexem; exact X|apply Permutation_app_comm|]. cbn beta. intros _ post ->. cbn [app].
    apply does_ret. split; [reflexivity|]. cbn [fst]. destruct o as [p|], o' as [ts|]; try contradiction; [exact B|].
    destruct B as (ps & B). exists c, kept. split; [constructor|]. split; [exact E|]. exact (stack_cells _ _ _ B).
Qed.

Lemma leads_reached rm left input c : leads (start rm left input) c -> reached rm left input c.
Proof.
  assert (G : forall a b, leads a b -> reached rm left input a -> reached rm left input b).
  { induction 1 as [|a b d E L IH]; intros R; [exact R|]. apply IH. econstructor; [exact R|exact E]. }
  intros L. apply (G _ _ L). constructor.
Qed.

Lemma start_fits rm left input : rm <> Some O -> fits (start rm left input).
Proof.
  intros R. split.
  - exists (left ++ line input), []. apply (start_inv None).
  - cbn. destruct rm as [[|n]|]; [contradiction|cbn; lia|exact I].
Qed.

(* What pparse does, from any memory. *)
Theorem pparse_does rm left input : rm <> Some O ->
  does [] (pparse rm left input) (parse rm left input) (fun x y post => snd x = snd y /\
    match fst x, fst y with
    | Some p, Accepted ts => nodes_at None p ts post
    | None, Rejected => exists c kept, reached rm left input c /\ step c = Ok (inr (Rejected, kept)) /\
        cells_at (map nodes (stack c)) post
    | _, _ => False
    end).
Proof.
  intros R. unfold pparse, parse. eapply does_weaken; [|apply does_prun; [|apply start_fits; exact R]].
  - intros x y post [A B]. split; [exact A|]. destruct (fst x), (fst y); try exact B.
    destruct B as (c & kept & L & B). exists c, kept. split; [exact (leads_reached _ _ _ _ L)|exact B].
  - exists [], []. cbn [pstack stack plexem ptext text pheld held plen len proom room pnext next start].
    split; [reflexivity|]. split; [|split; [constructor|repeat split]].
    change (@nil (Z * block)) with (@nil (Z * block) ++ []). constructor; constructor.
Qed.

Theorem pread_does rm left input : rm <> Some O ->
  does [] (pread rm left input) (parse rm left input) (fun x y post => x = y /\
    match fst y with
    | Accepted ts => post = []
    | Rejected => exists c kept, reached rm left input c /\ step c = Ok (inr (Rejected, kept)) /\
        cells_at (map nodes (stack c)) post
    end).
Proof.
  intros R. unfold pread. replace (parse rm left input) with (bind (parse rm left input) (fun y => Ok y)) by (destruct (parse rm left input); reflexivity).
  eapply does_bind; [apply pparse_does; exact R|]. cbn beta. intros [o kept] [o' kept'] post _ [E B]. cbn [fst snd] in *. subst kept'.
  destruct o as [p|], o' as [ts|]; try contradiction.
  - eapply (does_step _ post []); [apply does_rounds; intros fuel L; apply (does_walk _ _ _ _ B); exact L|rewrite app_nil_r; apply Permutation_refl|].
    cbn beta. intros x post' [-> P].
    eapply (does_step _ post []); [apply does_rounds; intros fuel L; apply (does_ast_free _ _ _ _ B); exact L| |].
    { rewrite !app_nil_r. exact P. }
    cbn beta. intros _ post2 ->. apply does_ret. split; [reflexivity|]. reflexivity.
  - apply does_ret. split; [reflexivity|exact B].
Qed.
