(* Every terminal a state expects is read as that state needs it. *)
From Coq Require Import ZArith String Ascii List Bool Lia.
From Verif Require Import Base Tables Parser Grammar GrammarSpec LexFacts LexFacts2 ParserCert ParserFacts ParserAhead ParserFacts9.
Import ListNotations.
Open Scope list_scope.
Open Scope Z_scope.

(* The lexemes, with the space as the only blank. *)
Definition lex (a : Z) : re := if a =? 58 then chr 32 else lexeme a.

Definition lexes : list re := Eval vm_compute in map lex (upto 59).

Lemma lexes_eq : lexes = map lex (upto 59).
Proof. vm_compute. reflexivity. Qed.

Definition lex_at (a : Z) : re := nth (Z.to_nat a) lexes Void.

Definition terminals : list Z := Eval vm_compute in upto 59.

(* The characters lexemes start with. *)
Definition first_chars : list (list Z) :=
  Eval vm_compute in map (fun r => filter (fun x => match deriv x r with Void => false | _ => true end) chars) lexes.

Lemma first_chars_eq : first_chars =
  map (fun r => filter (fun x => match deriv x r with Void => false | _ => true end) chars) lexes.
Proof. vm_compute. reflexivity. Qed.

Definition next_char (a x : Z) : bool :=
  existsb (fun b => if among b (near_to a) && negb ((a =? 18) && (b =? 14))
                    then existsb (Z.eqb x) (nth (Z.to_nat b) first_chars []) else false) terminals.

(* The characters that may come after a terminal, but for a negation sign
   after a minus sign. *)
Definition next_chars : list (list Z) :=
  Eval vm_compute in map (fun a => filter (next_char a) chars) (upto 59).

Lemma next_chars_eq : next_chars = map (fun a => filter (next_char a) chars) (upto 59).
Proof. vm_cast_no_check (eq_refl next_chars). Qed.

Definition may_follow (a : Z) : list Z := nth (Z.to_nat a) next_chars [].

Definition ahead_of (s : Z) : list item := if s <? 0 then [] else nth (Z.to_nat s) ahead [].

(* The terminals a state may meet. *)
Definition meets (it : item) : Z :=
  match nth_error (rhs_of (rule it)) (dot it) with
  | Some x => if x <? 59 then Z.shiftl 1 x else 0
  | None => follow it
  end.
Definition expected (s : Z) : Z := fold_right (fun it m => Z.lor (meets it) m) 0 (ahead_of s).

Definition act_at (s a : Z) : option (Z * Z) :=
  match find_entry (row actions s) a with
  | Some (act, idx) => if act =? 0 then None else Some (act, idx)
  | None => let d := nth (Z.to_nat s) def_prod (-2) in if -1 <? d then Some (1, d) else None
  end.

Definition act_eqb (o o' : option (Z * Z)) : bool :=
  match o, o' with
  | Some (a, i), Some (a', i') => (a =? a') && (i =? i')
  | None, None => true
  | _, _ => false
  end.

(* A lexeme of a, and what may come after it. *)
Definition tail_re (a : Z) : re :=
  Cat (lex_at a)
    (opt (Alt (Cat (Range (map (fun x => (x, x)) (may_follow a))) (Star (Except [])))
              (if a =? 18 then Cat (chr 45) (Cat (chr 45) (Star (Except []))) else Void))).

(* State 26, after an opening parenthesis, is the only one in which a minus
   sign directly followed by a negation sign would be misread; but there the
   minus sign is a connector followed by a comma. *)
Definition next_ok (s a x : Z) : bool :=
  if existsb (Z.eqb x) (may_follow a) then true
  else if a =? 18 then if s =? 26 then false else x =? 45 else false.

Definition shifts (o : option (Z * Z)) : bool :=
  match o with Some (act, _) => Z.testbit act 1 | None => false end.

Definition machine_of (s : Z) : Z := nth (Z.to_nat s) dfa_select (-2).

Definition read_ok (s a : Z) : bool :=
  let m := machine_of s in
  if shifts (act_at s a) then
    (0 <=? m) && match nth_error machines (Z.to_nat m) with
                 | Some cells => takes cells a (lex_at a) (next_ok s a)
                 | None => false
                 end
  else if m <? 0 then act_eqb (act_at s (-1)) (act_at s a)
  else match nth_error machines (Z.to_nat m) with
       | Some cells =>
           match finds cells (tail_re a) with
           | Some syms => forallb (fun c => act_eqb (act_at s c) (act_at s a)) syms
           | None => false
           end
       | None => false
       end.

Definition reads_ok (s : Z) : bool :=
  let m := expected s in
  forallb (fun a => if a =? 0 then true else if among a m then read_ok s a else true) terminals.

Lemma reads_checked : forallb reads_ok (upto 176) = true.
Proof. vm_cast_no_check (eq_refl true). Qed.

Lemma upto_nth n x : 0 <= x < Z.of_nat n -> nth_error (upto n) (Z.to_nat x) = Some x.
Proof.
  induction n as [|n IH]; [lia|]. intros H. cbn [upto].
  assert (L : forall k, length (upto k) = k).
  { induction k as [|k IHk]; [reflexivity|]. cbn [upto]. rewrite app_length, IHk. cbn. lia. }
  destruct (Z.eq_dec x (Z.of_nat n)) as [->|D].
  - rewrite nth_error_app2; rewrite L, Nat2Z.id; [|lia]. rewrite Nat.sub_diag. reflexivity.
  - rewrite nth_error_app1; [apply IH; lia|]. rewrite L. lia.
Qed.

Lemma lex_at_eq a : 0 <= a < 59 -> lex_at a = lex a.
Proof.
  intros H. unfold lex_at. rewrite lexes_eq. apply nth_error_nth.
  rewrite nth_error_map, (upto_nth 59 a H). reflexivity.
Qed.

Lemma first_char b c w : 0 <= b < 59 -> matches (lex b) (c :: w) -> 0 <= code c ->
  In (code c) (nth (Z.to_nat b) first_chars []).
Proof.
  intros Hb M P.
  assert (E : nth (Z.to_nat b) first_chars [] =
    filter (fun x => match deriv x (lex b) with Void => false | _ => true end) chars).
  { rewrite first_chars_eq, lexes_eq. apply nth_error_nth.
    rewrite !nth_error_map, (upto_nth 59 b Hb). reflexivity. }
  rewrite E. apply filter_In. split; [apply chars_In; pose proof (code_bound c); lia|].
  pose proof (deriv_complete _ _ M c w eq_refl) as D.
  destruct (deriv (code c) (lex b)); try reflexivity. inversion D.
Qed.

Lemma may_follow_In a b c w : 0 <= a < 59 -> 0 <= b < 59 -> among b (near_to a) = true ->
  ~ (a = 18 /\ b = 14) -> matches (lex b) (c :: w) -> 0 <= code c -> In (code c) (may_follow a).
Proof.
  intros Ha Hb A NM M P.
  assert (E : may_follow a = filter (next_char a) chars).
  { unfold may_follow. rewrite next_chars_eq. apply nth_error_nth.
    rewrite nth_error_map, (upto_nth 59 a Ha). reflexivity. }
  rewrite E. apply filter_In. split; [apply chars_In; pose proof (code_bound c); lia|].
  unfold next_char. apply existsb_exists. exists b. split; [exact (upto_In 59 b Hb)|].
  assert (NE : negb ((a =? 18) && (b =? 14)) = true).
  { apply negb_true_iff. destruct (Z.eqb_spec a 18); [|reflexivity]. destruct (Z.eqb_spec b 14); [|reflexivity].
    exfalso. auto. }
  rewrite A, NE. cbn [andb]. apply existsb_exists. exists (code c). split; [eapply first_char; eassumption|apply Z.eqb_refl].
Qed.

Lemma plain_lexes : forallb plain_re lexes = true.
Proof. vm_compute. reflexivity. Qed.

Lemma lex_chars a w : 0 <= a < 59 -> matches (lex a) w -> Forall (fun c => 0 <= code c) w.
Proof.
  intros Ha M. apply (plain_chars _ _ M). pose proof plain_lexes as P. rewrite forallb_forall in P.
  apply P. rewrite lexes_eq. apply in_map. apply upto_In. exact Ha.
Qed.

Lemma filled_lexes : forallb (fun a => (a =? 0) || negb (nullable (lex_at a))) (upto 59) = true.
Proof. vm_compute. reflexivity. Qed.

Lemma lex_filled a w : 0 < a < 59 -> matches (lex a) w -> w <> [].
Proof.
  intros Ha M E. pose proof filled_lexes as P. rewrite forallb_forall in P.
  specialize (P a (upto_In 59 a ltac:(lia))). destruct (Z.eqb_spec a 0); [lia|].
  rewrite lex_at_eq in P by lia. rewrite (matches_nullable _ _ M E) in P. discriminate.
Qed.

Lemma act_eqb_eq o o' : act_eqb o o' = true -> o = o'.
Proof.
  destruct o as [[a i]|], o' as [[a' i']|]; cbn; try discriminate; [|reflexivity].
  rewrite andb_true_iff, !Z.eqb_eq. intros [-> ->]. reflexivity.
Qed.

Lemma get_act_at s a : 0 <= s < 176 -> get_act s a = Ok (act_at s a).
Proof.
  intros H. destruct lengths_ok as (LA & _ & LD & _).
  unfold get_act, act_at. rewrite (row_rd actions s LA H). cbn [bind].
  destruct (find_entry (row actions s) a) as [[act idx]|]; [destruct (act =? 0); reflexivity|].
  rewrite (nth_rd def_prod s (-2) LD H). cbn [bind]. destruct (-1 <? nth (Z.to_nat s) def_prod (-2)); reflexivity.
Qed.

(* State s deals with the text w ++ rest as with terminal a. *)
Definition reads (s a : Z) (w rest : list ascii) : Prop :=
  exists f, get_sym s (w ++ rest) = Ok f /\ act_at s (fsym f) = act_at s a /\
    (shifts (act_at s a) = true -> fsym f = a /\ flen f = length w).

(* rest can come after terminal a read in state s. *)
Definition can_follow (s a : Z) (rest : list ascii) : Prop :=
  match rest with
  | [] => True
  | c :: rest' => 0 <= code c /\
      (In (code c) (may_follow a)
       \/ a = 18 /\ s <> 26 /\ code c = 45 /\ exists d rest'', rest' = d :: rest'' /\ code d = 45)
  end.

Lemma any_matches w : Forall (fun c => 0 <= code c) w -> matches (Star (Except [])) w.
Proof.
  induction 1 as [|c w P F IH]; [constructor|].
  change (c :: w) with ([c] ++ w). constructor; [constructor; [reflexivity|exact P]|exact IH].
Qed.

Lemma in_singles l x : In x l -> in_ranges (map (fun x => (x, x)) l) x = true.
Proof.
  intros I. unfold in_ranges. apply existsb_exists. exists (x, x). split.
  - apply in_map_iff. exists x. auto.
  - cbn. rewrite !Z.leb_refl. reflexivity.
Qed.

Lemma read_token s a w rest : 0 <= s < 176 -> 0 < a < 59 -> among a (expected s) = true ->
  matches (lex a) w -> can_follow s a rest -> Forall (fun c => 0 <= code c) rest -> reads s a w rest.
Proof.
  intros Hs Ha EX M CF PR.
  assert (RO : read_ok s a = true).
  { pose proof reads_checked as K. rewrite forallb_forall in K. specialize (K s (upto_In 176 s Hs)).
    unfold reads_ok in K. cbv zeta in K. rewrite forallb_forall in K. specialize (K a (upto_In 59 a ltac:(lia))).
    destruct (Z.eqb_spec a 0); [lia|]. rewrite EX in K. exact K. }
  assert (Ha' : 0 <= a < 59) by lia.
  pose proof (lex_chars a w Ha' M) as PW.
  unfold read_ok in RO. cbv zeta in RO. rewrite (lex_at_eq a Ha') in RO. unfold tail_re in RO.
  rewrite (lex_at_eq a Ha') in RO.
  destruct lengths_ok as (_ & _ & _ & LS & _).
  pose proof (state_fact s Hs) as SF. unfold state_ok in SF. rewrite !andb_true_iff in SF.
  destruct SF as [[_ [M1 M2]] _]. apply Z.leb_le in M1. apply Z.ltb_lt in M2.
  change (nth (Z.to_nat s) dfa_select (-2)) with (machine_of s) in M1, M2.
  unfold reads, get_sym. rewrite (nth_rd dfa_select s (-2) LS Hs). cbn [bind].
  change (nth (Z.to_nat s) dfa_select (-2)) with (machine_of s).
  destruct (shifts (act_at s a)) eqn:SH.
  - apply andb_true_iff in RO as [R0 RO]. apply Z.leb_le in R0.
    destruct (nth_error machines (Z.to_nat (machine_of s))) as [cells|] eqn:N; [|discriminate].
    assert (Hm : 0 <= machine_of s < 70) by lia.
    destruct (takes_scan _ cells a (lex a) _ ltac:(lia) Hm N RO w rest) as (NW & f & F1 & F2 & F3).
    + destruct rest as [|c rest]; [exact I|]. destruct CF as [C2 C1]. split; [|exact C2].
      unfold next_ok. destruct (existsb (Z.eqb (code c)) (may_follow a)) eqn:EX'; [reflexivity|].
      destruct C1 as [C1|(-> & NS & C1 & _)].
      * exfalso. enough (T : existsb (Z.eqb (code c)) (may_follow a) = true) by congruence.
        apply existsb_exists. exists (code c). split; [exact C1|apply Z.eqb_refl].
      * destruct (Z.eqb_spec s 26); [contradiction|]. rewrite C1. reflexivity.
    + exact M.
    + exact PW.
    + destruct w as [|c w]; [contradiction|]. cbn [app] in *.
      destruct (Z.ltb_spec (-1) (machine_of s)); [|lia].
      exists f. split; [exact F1|]. rewrite F2. split; [reflexivity|auto].
  - destruct (Z.ltb_spec (machine_of s) 0).
    + apply act_eqb_eq in RO.
      destruct (w ++ rest) as [|c text] eqn:EW.
      * apply app_eq_nil in EW as [EW _]. destruct (lex_filled a w Ha M EW).
      * destruct (Z.ltb_spec (-1) (machine_of s)); [lia|].
        eexists. split; [reflexivity|]. cbn [fsym]. split; [exact RO|discriminate].
    + destruct (nth_error machines (Z.to_nat (machine_of s))) as [cells|] eqn:N; [|discriminate].
      assert (Hm : 0 <= machine_of s < 70) by lia.
      destruct (finds cells _) as [syms|] eqn:FS; [|discriminate].
      assert (MT : matches (Cat (lex a)
                     (opt (Alt (Cat (Range (map (fun x => (x, x)) (may_follow a))) (Star (Except [])))
                        (if a =? 18 then Cat (chr 45) (Cat (chr 45) (Star (Except []))) else Void)))) (w ++ rest)).
      { constructor; [exact M|]. unfold opt. destruct rest as [|c rest]; [apply M_left; constructor|].
        apply M_right. destruct CF as [C2 C1]. rewrite Forall_cons_iff in PR. destruct PR as [_ PR].
        destruct C1 as [C1|(-> & _ & C1 & d & rest' & -> & C3)].
        - apply M_left. change (c :: rest) with ([c] ++ rest). constructor.
          + constructor. apply in_singles, C1.
          + apply any_matches. assumption.
        - apply M_right. cbn [Z.eqb Pos.eqb]. rewrite Forall_cons_iff in PR. destruct PR as [_ PR].
          change (c :: d :: rest') with ([c] ++ [d] ++ rest').
          constructor; [constructor; rewrite C1; reflexivity|].
          constructor; [constructor; rewrite C3; reflexivity|]. apply any_matches, PR. }
      assert (PA : Forall (fun c => 0 <= code c) (w ++ rest)) by (apply Forall_app; auto).
      destruct (w ++ rest) as [|c text] eqn:EW.
      * apply app_eq_nil in EW as [EW _]. destruct (lex_filled a w Ha M EW).
      * destruct (Z.ltb_spec (-1) (machine_of s)); [|lia].
        destruct (scan_total (machine_of s) Hm (c :: text) 0 O (-1, O) (machine_states _ _ N)) as (f & E & _).
        exists f. split; [exact E|]. split; [|discriminate].
        rewrite forallb_forall in RO.
        apply act_eqb_eq, RO. exact (finds_scan _ _ _ _ Hm N FS _ _ MT PA E).
Qed.

(** * Legible texts *)

Fixpoint legible (toks : list (Z * list ascii)) : Prop :=
  match toks with
  | [] => True
  | (a, w) :: toks' => (a = 58 -> w = [" "%char]) /\ legible toks'
  end.

Lemma spaced_legible toks : spaced toks -> legible toks.
Proof.
  induction toks as [|[a w] toks IH]; intros S; [exact I|]. split.
  - intros ->. apply S. left. reflexivity.
  - apply IH. intros w' I'. apply S. right. exact I'.
Qed.

Definition flat (toks : list (Z * list ascii)) : list ascii := concat (map snd toks).

Definition peek (toks : list (Z * list ascii)) : Z := match toks with [] => 0 | (a, _) :: _ => a end.

Fixpoint readable (toks : list (Z * list ascii)) : Prop :=
  match toks with
  | [] => True
  | (a, w) :: toks' =>
      (forall s, 0 <= s < 176 -> among a (expected s) = true -> (a = 18 -> s = 26 -> peek toks' <> 14) ->
        reads s a w (flat toks')) /\
      readable toks'
  end.

Lemma read_end s : 0 <= s < 176 -> reads s 0 [] [].
Proof.
  intros Hs. destruct lengths_ok as (_ & _ & _ & LS & _).
  unfold reads, get_sym. rewrite (nth_rd dfa_select s (-2) LS Hs). cbn [bind app].
  eexists. split; [reflexivity|]. split; [reflexivity|]. intros _. split; reflexivity.
Qed.

Lemma matches_lex a w : (a = 58 -> w = [" "%char]) -> matches (lexeme a) w -> matches (lex a) w.
Proof.
  unfold lex. destruct (Z.eqb_spec a 58) as [->|]; [|auto].
  intros H _. rewrite (H eq_refl). constructor. reflexivity.
Qed.

Lemma eof_empty w : matches (lexeme 0) w -> w = [].
Proof. intros M. change (lexeme 0) with Eps in M. inversion M. reflexivity. Qed.

Lemma in_single x lo : in_ranges [(lo, lo)] x = true -> x = lo.
Proof. unfold in_ranges. cbn [existsb fst snd]. rewrite orb_false_r, andb_true_iff, !Z.leb_le. lia. Qed.

Lemma tokens_readable toks : adjacent toks -> legible toks ->
  Forall (fun p => matches (lexeme (fst p)) (snd p)) toks ->
  readable toks /\ Forall (fun c => 0 <= code c) (flat toks).
Proof.
  induction toks as [|[a w] toks IH]; intros A L F; [split; constructor|].
  cbn [adjacent legible] in A, L. destruct A as (Ha & A1 & A2). destruct L as (L1 & L3).
  inversion F as [|? ? M F']; subst. cbn [fst snd] in M.
  destruct (IH A2 L3 F') as [R P]. clear IH.
  pose proof (matches_lex a w L1 M) as ML.
  assert (PW : Forall (fun c => 0 <= code c) (w ++ flat toks)).
  { apply Forall_app. split; [exact (lex_chars a w Ha ML)|exact P]. }
  split; [|exact PW].
  split; [|exact R]. intros s Hs EX ST.
  destruct (Z.eq_dec a 0) as [->|NZ].
  - assert (E : toks = []).
    { destruct toks as [|[b w'] toks]; [reflexivity|]. cbn [head_in] in A1.
      exfalso. change (near_to 0) with 0 in A1. unfold among in A1. rewrite Z.testbit_0_l in A1. discriminate. }
    subst toks. rewrite (eof_empty w M). apply read_end, Hs.
  - apply read_token; [exact Hs|lia|exact EX|exact ML| |exact P].
    destruct toks as [|[b w'] toks]; [exact I|]. cbn [head_in] in A1.
    cbn [adjacent] in A2. destruct A2 as (Hb & A2 & A3). cbn [legible] in L3. destruct L3 as (L4 & _).
    inversion F' as [|? ? M' F'']; subst. cbn [fst snd] in M'.
    pose proof (matches_lex b w' L4 M') as ML'.
    destruct (Z.eq_dec b 0) as [->|NB].
    + assert (E : toks = []).
      { destruct toks as [|[d w''] toks]; [reflexivity|]. cbn [head_in] in A2.
        exfalso. change (near_to 0) with 0 in A2. unfold among in A2. rewrite Z.testbit_0_l in A2. discriminate. }
      subst toks. rewrite (eof_empty w' M'). exact I.
    + pose proof (lex_filled b w' ltac:(lia) ML') as NE.
      destruct w' as [|c w']; [contradiction|]. unfold flat in *. cbn [map snd concat app] in *.
      rewrite Forall_cons_iff in P. destruct P as [P1 P2]. split; [assumption|].
      destruct (Z.eq_dec a 18) as [->|N18]; [destruct (Z.eq_dec b 14) as [->|N14]|].
      * right. cbn [peek] in ST. split; [reflexivity|]. split; [intros ->; apply ST; reflexivity|].
        change (lex 14) with (Cat (chr 45) (chr 45)) in ML'.
        inversion ML' as [| | |? ? u v U V EA EB| | | |].
        inversion U; inversion V; subst. injection EB as <- <-.
        match goal with H : in_ranges _ _ = true |- _ => apply in_single in H; rewrite H end.
        split; [reflexivity|]. eexists _, _. split; [reflexivity|].
        match goal with H : in_ranges _ _ = true |- _ => apply in_single in H; exact H end.
      * left. exact (may_follow_In 18 b c w' Ha Hb A1 ltac:(tauto) ML' P1).
      * left. exact (may_follow_In a b c w' Ha Hb A1 ltac:(tauto) ML' P1).
Qed.
