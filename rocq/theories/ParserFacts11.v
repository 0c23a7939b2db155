(* The parser follows every preferred derivation. *)
From Coq Require Import ZArith String Ascii List Bool Lia.
From Verif Require Import Base Tables Parser ParserSpec Grammar GrammarSpec LexFacts LexFacts2 ParserCert ParserFacts ParserFacts2 ParserFacts3.
From Verif Require Import ParserAhead ParserFacts9 ParserFacts10.
Import ListNotations.
Open Scope string_scope.
Open Scope list_scope.
Open Scope Z_scope.

(** * The certificate *)

(* The place of a part of production r, itself at place f. *)
Definition kid_place (r f d : nat) : nat :=
  (if (d =? 0) && existsb (Nat.eqb r) [4; 13; 19; 28] then 1
   else if (r =? 107) && (d =? 1) then 2
   else if (r =? 62) && (f =? 2) then 2
   else 0)%nat.

Definition allowed (f r : nat) : bool :=
  negb ((f =? 1) && (r =? 66) || (f =? 2) && (r =? 67))%nat.

Definition trans (s x : Z) : option (Z * Z) :=
  if x <? 59 then find_entry (row actions s) x else find_entry (row go s) x.

Definition covered (s : Z) (f r d : nat) (la : Z) : bool :=
  existsb (fun it => if Nat.eqb (rule it) r then
                       Nat.eqb (place it) f && Nat.eqb (dot it) d && within la (follow it)
                     else false) (ahead_of s).

(* The productions of every symbol. *)
Definition choices : list (list nat) :=
  Eval vm_compute in map (fun x => filter (fun r => lhs_of r =? x) (seq 0 270)) (upto 234).

Lemma choices_ok : forallb (fun r => existsb (Nat.eqb r) (nth (Z.to_nat (lhs_of r)) choices [])) (seq 0 270) = true.
Proof. vm_compute. reflexivity. Qed.

Definition item_ok (s : Z) (it : item) : bool :=
  let rhs := rhs_of (rule it) in
  match nth_error rhs (dot it) with
  | None => Nat.eqb (dot it) (length rhs)
      && forallb (fun a => if among a (follow it)
                           then act_eqb (act_at s a) (Some (1, Z.of_nat (rule it))) else true) terminals
  | Some x =>
      (if x <? 59 then
         if x =? 18 then if s =? 26 then negb (among 14 (firsts (skipn (S (dot it)) rhs) (follow it))) else true else true
       else let g := kid_place (rule it) (place it) (dot it) in
            let la := firsts (skipn (S (dot it)) rhs) (follow it) in
            forallb (fun r => if allowed g r then covered s g r 0 la else true) (nth (Z.to_nat x) choices []))
      && match trans s x with
         | Some (a, i) =>
             (a =? 2) && covered i (place it) (rule it) (S (dot it)) (follow it) && (0 <=? i) && (i <? 176)
             || (a =? 3) && (i =? Z.of_nat (rule it)) && Nat.eqb (S (dot it)) (length rhs)
         | None => false
         end
  end.

Definition items_ok (s : Z) : bool := forallb (item_ok s) (ahead_of s).

Lemma items_checked : forallb items_ok (upto 176) = true.
Proof. vm_cast_no_check (eq_refl true). Qed.

Lemma item_fact s it : 0 <= s < 176 -> In it (ahead_of s) -> item_ok s it = true.
Proof.
  intros Hs I. pose proof items_checked as K. rewrite forallb_forall in K.
  specialize (K s (upto_In 176 s Hs)). unfold items_ok in K. rewrite forallb_forall in K. apply K, I.
Qed.

Lemma covered_item s f r d la : covered s f r d la = true ->
  exists it, In it (ahead_of s) /\ place it = f /\ rule it = r /\ dot it = d /\ within la (follow it) = true.
Proof.
  unfold covered. rewrite existsb_exists. intros (it & I & E).
  destruct (Nat.eqb_spec (rule it) r); [|discriminate].
  rewrite !andb_true_iff, !Nat.eqb_eq in E. exists it. tauto.
Qed.

Lemma choice_In r : (r < 270)%nat -> In r (nth (Z.to_nat (lhs_of r)) choices []).
Proof.
  intros H. pose proof choices_ok as K. rewrite forallb_forall in K.
  specialize (K r ltac:(apply in_seq; lia)). apply existsb_exists in K as (r' & I & E).
  apply Nat.eqb_eq in E. subst. exact I.
Qed.

Lemma expected_item s it a : In it (ahead_of s) -> among a (meets it) = true -> among a (expected s) = true.
Proof.
  unfold expected. induction (ahead_of s) as [|i l IH]; [contradiction|].
  intros [->|I] A; cbn [fold_right]; rewrite among_or; [rewrite A; reflexivity|].
  rewrite (IH I A). apply orb_true_r.
Qed.

(** * Steps *)

(* The stack of c holds the trees ts, its states are sts, and the tokens toks
   are still to be read. *)
Record calm (all : list ascii) (ts : list tree) (c : config) (sts : list Z) (toks : list (Z * list ascii)) : Prop := {
  calm_room : room c = None;
  calm_inv : inv all ts c;
  calm_states : map state (stack c) = sts;
  calm_text : text c = flat toks
}.

Lemma calm_top all ts c s sts toks : calm all ts c (s :: sts) toks -> next c = Look ->
  exists n below, stack c = Cell s n :: below /\ map state below = sts /\
    linked (Cell s n :: below) ts [] /\ 0 <= s < 176.
Proof.
  intros [R [B I] S T] NX. rewrite NX in I.
  destruct (linked_state _ _ _ I) as (s' & n & below & SK & Hs).
  rewrite SK in S, I. cbn [map state] in S. inversion S; subst. exists n, below. auto.
Qed.

Lemma shift_step all ts c s sts a w toks act i :
  calm all ts c (s :: sts) ((a, w) :: toks) -> next c = Look ->
  reads s a w (flat toks) -> act_at s a = Some (act, i) -> Z.testbit act 1 = true ->
  0 <= a < 59 -> matches (lexeme a) w ->
  exists c', step c = Ok (inl c') /\ calm all (Token a w :: ts) c' (target act i :: s :: sts) toks /\
    next c' = after act i.
Proof.
  intros C NX (f & F1 & F2 & F3) A TB Ha M.
  destruct (calm_top _ _ _ _ _ _ C NX) as (n & below & SK & SB & L & Hs).
  destruct C as [R [B _] S T]. change (flat ((a, w) :: toks)) with (w ++ flat toks) in T.
  assert (SH : shifts (act_at s a) = true) by (rewrite A; exact TB).
  destruct (F3 SH) as [FS FL]. clear F3 F2.
  assert (ST : step c = look c) by (unfold step; rewrite NX; reflexivity).
  unfold look in ST. rewrite SK in ST. cbn [state] in ST.
  rewrite T, F1 in ST. cbn [bind] in ST.
  pose proof (get_act_at s (fsym f) Hs) as GA. rewrite FS, A in GA.
  rewrite FS in ST. rewrite GA in ST. cbn [bind] in ST. rewrite TB in ST.
  assert (EN : entry_ok true s (a, act, i) = true /\ act <> 1).
  { destruct (get_act_cases s a Hs) as [(a' & i' & EA & CS)|(EA & _)]; rewrite GA in EA; [|discriminate].
    inversion EA; subst a' i'.
    assert (act <> 1) by (intros ->; discriminate).
    destruct CS as [(_ & EN)|(E1 & _)]; [auto|contradiction]. }
  destruct EN as [EN N1].
  destruct (symbol_names a Ha) as [b SN]. rewrite SN in ST. cbn [bind fst] in ST.
  rewrite R in ST. cbn [grow push bind] in ST.
  assert (FW : firstn (flen f) (w ++ flat toks) = w).
  { rewrite FL, firstn_app, firstn_all, Nat.sub_diag, firstn_O, app_nil_r. reflexivity. }
  rewrite FW in ST.
  change (if (token_name a =? "")%string then []
          else [Leaf (token_name a) (string_of_list_ascii w)]) with (own (Token a w)) in ST.
  assert (D : derivation (Token a w)) by (constructor; assumption).
  destruct (Z.eqb_spec a 0) as [->|NZ]; cbn [orb] in ST.
  - pose proof (eof_empty w M) as ->. cbn [app] in *.
    eexists. split; [exact ST|]. split; [|reflexivity]. split.
    + reflexivity.
    + eapply (pushed all (Token 0 []) ts s n below act i _ true); try reflexivity; try assumption.
      * cbn [text]. rewrite body_cons. cbn [text_of]. rewrite app_nil_r, <- T. exact B.
      * intros _. cbn [text]. destruct (get_sym_sound s (flat toks) Hs) as (f' & G1 & G2).
        rewrite F1 in G1. inversion G1; subst f'.
        destruct G2 as [[G2 _]|[(_ & G2 & _)|(G2 & _)]]; [exact G2|lia|lia].
    + cbn [stack map state]. rewrite SB. reflexivity.
    + reflexivity.
  - destruct (Z.eqb_spec a (-1)); [lia|].
    assert (NE : w <> []).
    { destruct (get_sym_sound s (w ++ flat toks) Hs) as (f' & G1 & G2).
      rewrite F1 in G1. inversion G1; subst f'.
      destruct G2 as [[_ G2]|[(_ & G2 & _)|(_ & G2 & _)]]; [subst f; cbn in FS; lia|lia|].
      intros ->. rewrite FL in G2. cbn in G2. lia. }
    destruct (flen f) as [|l] eqn:FLE; [destruct w; [contradiction|discriminate]|].
    cbn [clear_input] in ST. rewrite FL in ST.
    assert (SW : skipn (length w) (w ++ flat toks) = flat toks).
    { rewrite skipn_app, skipn_all, Nat.sub_diag. reflexivity. }
    rewrite SW in ST.
    eexists. split; [exact ST|]. split; [|reflexivity]. split.
    + reflexivity.
    + eapply (pushed all (Token a w) ts s n below act i _ true); try reflexivity; try assumption.
      * cbn [text]. rewrite body_cons. cbn [text_of]. rewrite <- app_assoc, <- T. exact B.
      * cbn [root]. lia.
    + cbn [stack map state]. rewrite SB. reflexivity.
    + reflexivity.
Qed.

Lemma look_step' all ts c s sts toks a w rest r :
  calm all ts c (s :: sts) toks -> next c = Look -> text c = w ++ rest -> reads s a w rest ->
  act_at s a = Some (1, Z.of_nat r) ->
  exists c', step c = Ok (inl c') /\ calm all ts c' (s :: sts) toks /\ next c' = Reduce (Z.of_nat r).
Proof.
  intros C NX TX (f & F1 & F2 & _) A.
  destruct (calm_top _ _ _ _ _ _ C NX) as (n & below & SK & SB & L & Hs).
  destruct C as [R I S T].
  assert (ST : step c = look c) by (unfold step; rewrite NX; reflexivity).
  unfold look in ST. rewrite SK in ST. cbn [state] in ST.
  rewrite TX, F1 in ST. cbn [bind] in ST.
  pose proof (get_act_at s (fsym f) Hs) as GA. rewrite F2, A in GA.
  rewrite GA in ST. cbn [bind] in ST. change (Z.testbit 1 1) with false in ST. cbv iota in ST.
  change (after 1 (Z.of_nat r)) with (Reduce (Z.of_nat r)) in ST.
  eexists. split; [exact ST|]. split; [|reflexivity].
  split; [exact R| | |exact (eq_trans (eq_sym TX) T)].
  2:{ cbn [stack map state]. rewrite SB. reflexivity. }
  destruct I as [B I]. split; [cbn [text]; rewrite <- TX; exact B|].
  cbn [next stack text].
  assert (CO : complete_ok s (Z.of_nat r) = true /\ Z.of_nat r <> 206 /\ Z.of_nat r <> 269).
  { destruct (get_act_cases s (fsym f) Hs) as [(a' & i' & EA & CS)|(EA & _)]; rewrite GA in EA; [|discriminate].
    inversion EA; subst a' i'. destruct CS as [(_ & EN)|(_ & CO & N1 & N2)]; [|auto].
    unfold entry_ok in EN. rewrite andb_true_iff in EN. destruct EN as [_ EN].
    cbn [Z.eqb Pos.eqb andb orb] in EN. rewrite !andb_true_iff, !negb_true_iff, !Z.eqb_neq in EN. tauto. }
  destruct CO as (CO & N1 & N2). unfold complete_ok in CO.
  rewrite !andb_true_iff, Z.leb_le, Z.ltb_lt in CO. destruct CO as [CO1 CO2].
  split; [lia|]. split; [|intros [Q|Q]; contradiction].
  left. exists s, n, below. split; [reflexivity|]. split; [exact L|]. apply item_in_In. exact CO2.
Qed.

Lemma pop_skipn n : forall stk col stk' col', pop n stk col = Ok (stk', col') -> stk' = skipn n stk.
Proof.
  induction n as [|n IH]; intros stk col stk' col' E; cbn [pop] in E; [inversion E; reflexivity|].
  destruct stk as [|c stk]; [discriminate|]. cbn [skipn]. exact (IH _ _ _ _ E).
Qed.

Lemma app_split {A} (l1 l2 l3 l4 : list A) : length l1 = length l3 -> l1 ++ l2 = l3 ++ l4 -> l1 = l3 /\ l2 = l4.
Proof.
  revert l3. induction l1 as [|a l1 IH]; intros [|b l3] L E; try discriminate; [auto|].
  cbn in *. inversion E; subst. destruct (IH l3) as [-> ->]; auto.
Qed.

(* What a reduction pops. *)
Lemma reduce_parts all ts c kids top s sts toks r lhs rhs name :
  calm all (rev kids ++ ts) c (top ++ s :: sts) toks -> next c = Reduce (Z.of_nat r) ->
  nth_error rules r = Some (lhs, rhs, name) -> length kids = length rhs -> length top = length kids ->
  exists n below col o, pop (length rhs) (stack c) [] = Ok (Cell s n :: below, col) /\
    map root kids = rhs /\ Forall derivation kids /\ map state below = sts /\ In (r, O) (items_of s) /\
    0 <= s < 176 /\ body (Derived r kids :: ts) = body (rev kids ++ ts) /\
    (if (name =? "")%string then n ++ col else [Node name (n ++ col)]) = o ++ under (Derived r kids) /\
    (forall ex2, linked (Cell s (o ++ ex2) :: below) ts ex2).
Proof.
  intros [R [B I] S T] NX N LK LT. rewrite NX in I. destruct I as (Hi & RD & TE).
  rewrite Nat2Z.id in RD.
  assert (RHS : rhs_of r = rhs) by (unfold rhs_of; rewrite N; reflexivity).
  destruct (ready_pop _ _ _ RD) as (ts1 & ts2 & s0 & n & below & col & ex & E1 & E2 & E3 & E4 & E5 & E6 & E7).
  rewrite RHS in *.
  assert (L1 : length ts1 = length (rev kids)).
  { rewrite rev_length, LK, <- E2, map_length, rev_length. reflexivity. }
  destruct (app_split _ _ _ _ (eq_sym L1) E1) as [K1 K2]. subst ts1 ts2.
  rewrite rev_involutive in E2, E7.
  pose proof (pop_skipn _ _ _ _ _ E4) as PS.
  assert (ST : map state (Cell s0 n :: below) = s :: sts).
  { rewrite PS, <- skipn_map, S, skipn_app, <- LK, <- LT, skipn_all, Nat.sub_diag. reflexivity. }
  cbn [map state] in ST. injection ST as ES EB. subst s0.
  destruct (linked_replace _ _ _ _ _ _ r E5 eq_refl E6) as (o & NO & OE & REPL).
  destruct (linked_state _ _ _ E5) as (s' & n' & below' & SE & Hs). inversion SE; subst s' n' below'.
  exists n, below, col, o. split; [exact E4|]. split; [exact E2|].
  split; [rewrite <- (rev_involutive kids); apply Forall_rev, E3|]. split; [exact EB|].
  split; [exact E6|]. split; [exact Hs|]. split; [|split; [|exact REPL]].
  - rewrite body_cons, body_app. unfold body at 3. rewrite rev_involutive. reflexivity.
  - cbn [under projection]. rewrite N. rewrite NO, <- app_assoc, E7.
    destruct (String.eqb_spec name ""); [reflexivity|].
    assert (NM : name_of r = name) by (unfold name_of; rewrite N; reflexivity).
    rewrite OE; [reflexivity|congruence].
Qed.

Lemma reduce_step' all ts c kids top s sts toks r lhs rhs name act i :
  calm all (rev kids ++ ts) c (top ++ s :: sts) toks -> next c = Reduce (Z.of_nat r) ->
  nth_error rules r = Some (lhs, rhs, name) -> length kids = length rhs -> length top = length kids ->
  lhs <> 59 -> trans s lhs = Some (act, i) ->
  exists c', step c = Ok (inl c') /\ calm all (Derived r kids :: ts) c' (target act i :: s :: sts) toks /\
    next c' = after act i.
Proof.
  intros C NX N LK LT NG TR.
  destruct (reduce_parts _ _ _ _ _ _ _ _ _ _ _ _ C NX N LK LT) as
    (n & below & col & o & E4 & ER & FD & SB & IT & Hs & TX & NODES & REPL).
  destruct C as [R [B I] S T]. rewrite NX in I. destruct I as (Hi & _ & TE).
  assert (RL : (r < 270)%nat) by lia.
  assert (LHS : lhs_of r = lhs) by (unfold lhs_of; rewrite N; reflexivity).
  assert (ST : step c = reduce (Z.of_nat r) c) by (unfold step; rewrite NX; reflexivity).
  unfold reduce in ST.
  rewrite (production_eq _ _ _ _ N) in ST. cbn [bind] in ST. rewrite Nat2Z.id, E4 in ST. cbn [bind] in ST.
  rewrite NODES in ST.
  destruct (Z.eqb_spec lhs 59); [contradiction|]. cbn [andb] in ST.
  assert (D : derivation (Derived r kids)) by (apply (D_derived r lhs rhs name); assumption).
  assert (RT : root (Derived r kids) = lhs) by (cbn; rewrite N; reflexivity).
  assert (L59 : 59 <= lhs).
  { pose proof (rule_fact _ _ N) as K. unfold rule_ok in K. rewrite !andb_true_iff, Z.leb_le in K. tauto. }
  unfold trans in TR. destruct (Z.ltb_spec lhs 59); [lia|].
  destruct (item_zero s r Hs IT) as [(G1 & _)|(_ & a & j & F & EN)]; [congruence|].
  rewrite LHS in *. rewrite TR in F. inversion F; subst a j.
  unfold get_go in ST. destruct lengths_ok as (_ & LG & _).
  rewrite (row_rd go s LG Hs) in ST. cbn [bind] in ST. rewrite TR, R in ST. cbn [push bind] in ST.
  eexists. split; [exact ST|]. split; [|reflexivity]. split.
  - reflexivity.
  - eapply (pushed all (Derived r kids) ts s (o ++ under (Derived r kids)) below act i _ false); try reflexivity.
    + apply REPL.
    + exact Hs.
    + exact D.
    + rewrite RT. exact EN.
    + intros ->. unfold entry_ok in EN. rewrite andb_true_iff in EN. destruct EN as [_ EN]. discriminate.
    + cbn [text]. rewrite TX. exact B.
    + cbn [text]. rewrite RT. intros [Q|Q].
      * lia.
      * apply TE. left. rewrite <- LHS in Q. pose proof (line_rule r RL Q). lia.
  - cbn [stack map state]. rewrite SB. reflexivity.
  - exact T.
Qed.

Lemma accept_step all c kids top toks :
  calm all (rev kids) c (top ++ [0]) toks -> next c = Reduce 269 ->
  length kids = 2%nat -> length top = 2%nat ->
  step c = Ok (inr (Accepted (projection (Derived 269 kids)), [])).
Proof.
  intros C NX LK LT.
  assert (N : exists rhs, nth_error rules 269 = Some (59, rhs, "") /\ length rhs = 2%nat)
    by (eexists; split; reflexivity).
  destruct N as (rhs & N & LR). change 269 with (Z.of_nat 269) in NX.
  rewrite <- (app_nil_r (rev kids)) in C.
  destruct (reduce_parts _ _ _ _ _ _ _ _ _ _ _ _ C NX N ltac:(congruence) ltac:(congruence)) as
    (n & below & col & o & E4 & ER & FD & SB & IT & Hs & TX & NODES & REPL).
  destruct C as [R [B I] S T]. rewrite NX in I. destruct I as (_ & _ & TE).
  assert (ST : step c = reduce (Z.of_nat 269) c) by (unfold step; rewrite NX; reflexivity).
  unfold reduce in ST.
  rewrite (production_eq _ _ _ _ N) in ST. cbn [bind] in ST. rewrite Nat2Z.id, E4 in ST. cbn [bind] in ST.
  rewrite NODES in ST.
  assert (BN : below = []) by (destruct below; [reflexivity|discriminate]). subst below.
  cbn [Z.eqb Pos.eqb andb] in ST.
  rewrite (TE (or_intror eq_refl)), rest_nil in ST.
  assert (ON : o = []).
  { specialize (REPL []). inversion REPL as [ex' Q|]; subst. destruct o; [reflexivity|discriminate]. }
  rewrite ON in ST. exact ST.
Qed.
