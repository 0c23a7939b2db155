(* Bounds: number of steps, depth of the stack. *)
From Coq Require Import ZArith String Ascii List Bool Lia.
From Verif Require Import Base Tables Parser ParserSpec Grammar LexFacts ParserCert ParserFacts ParserFacts2.
Import ListNotations.
Open Scope string_scope.
Open Scope list_scope.
Open Scope Z_scope.

(** * Weights *)

Definition sum (l : list Z) : Z := fold_right Z.add 0 l.

Lemma sum_app l1 l2 : sum (l1 ++ l2) = sum l1 + sum l2.
Proof. unfold sum. induction l1; cbn; [reflexivity|]. rewrite IHl1. lia. Qed.

Lemma rules_weighted :
  forallb (fun r => (1 + sum (map weight (snd (fst r))) <=? weight (fst (fst r)))
                    && (short (fst (fst r)) <=? sum (map short (snd (fst r))))) rules = true.
Proof. vm_compute. reflexivity. Qed.

Fixpoint minlen (r : re) : Z :=
  match r with
  | Void | Eps | Star _ => 0
  | Range _ | Except _ => 1
  | Cat a b => minlen a + minlen b
  | Alt a b => Z.min (minlen a) (minlen b)
  end.

Lemma minlen_matches r w : matches r w -> minlen r <= Z.of_nat (length w).
Proof.
  induction 1; cbn [minlen length]; rewrite ?app_length; try lia.
Qed.

Lemma tokens_weighted :
  forallb (fun x => (short x <=? minlen (lexeme x))
                    && (1 - 9 * minlen (lexeme x) <=? weight x) && (weight x <=? 1) && (0 <=? short x)
                    && (1 <=? weight x + 9 * minlen (lexeme x))) (upto 59) = true.
Proof. vm_compute. reflexivity. Qed.

Lemma short_bound t : derivation t -> short (root t) <= Z.of_nat (length (text_of t)).
Proof.
  intros D. induction D using derivation_ind'.
  - cbn [root text_of]. pose proof tokens_weighted as T. rewrite forallb_forall in T.
    specialize (T sym (upto_In 59 sym ltac:(cbn; lia))). rewrite !andb_true_iff, !Z.leb_le in T.
    pose proof (minlen_matches _ _ H0). lia.
  - cbn [root]. rewrite H. pose proof rules_weighted as W. rewrite forallb_forall in W.
    specialize (W _ (nth_error_In _ _ H)). cbn [fst snd] in W.
    rewrite andb_true_iff, !Z.leb_le in W. destruct W as [_ W].
    assert (S : sum (map short rhs) <= Z.of_nat (length (text_of (Derived r kids)))).
    { cbn [text_of]. subst rhs. clear W H H1. induction H2 as [|k kids Hk F IH]; [cbn; lia|].
      cbn [map concat]. rewrite app_length. unfold sum in *. cbn [fold_right]. lia. }
    lia.
Qed.

Lemma size_bound t : derivation t ->
  Z.of_nat (size t) <= weight (root t) + 9 * Z.of_nat (length (text_of t)).
Proof.
  intros D. induction D using derivation_ind'.
  - cbn [root text_of size]. pose proof tokens_weighted as T. rewrite forallb_forall in T.
    specialize (T sym (upto_In 59 sym ltac:(cbn; lia))). rewrite !andb_true_iff, !Z.leb_le in T.
    pose proof (minlen_matches _ _ H0). lia.
  - cbn [root]. rewrite H. pose proof rules_weighted as W. rewrite forallb_forall in W.
    specialize (W _ (nth_error_In _ _ H)). cbn [fst snd] in W.
    rewrite andb_true_iff, !Z.leb_le in W. destruct W as [W _].
    assert (S : Z.of_nat (list_sum (map size kids)) <=
                sum (map weight rhs) + 9 * Z.of_nat (length (text_of (Derived r kids)))).
    { cbn [text_of]. subst rhs. clear W H H1. induction H2 as [|k kids Hk F IH]; [cbn; lia|].
      cbn [map concat]. rewrite app_length. unfold sum, list_sum in *. cbn [fold_right]. lia. }
    cbn [size]. lia.
Qed.

(** * Stacks *)

Lemma edge_bounds p x q : edge_ok p x q = true ->
  height p + weight x <= height q /\ exceed p + 1 - short x <= exceed q /\
  (near q < 0 \/ 0 <= near p /\ near p + 1 <= near q).
Proof.
  unfold edge_ok, bounds_ok. rewrite !andb_true_iff, orb_true_iff, andb_true_iff, !Z.leb_le, Z.ltb_lt. lia.
Qed.

(* The number of characters on the stack. *)
Definition chars (ts : list tree) : Z := Z.of_nat (length (body ts)).

Lemma chars_cons t ts : chars (t :: ts) = Z.of_nat (length (text_of t)) + chars ts.
Proof. unfold chars. rewrite body_cons, app_length. lia. Qed.

Lemma linked_bounds cs ts ex : linked cs ts ex -> forall s n below, cs = Cell s n :: below ->
  Z.of_nat (list_sum (map size ts)) <= height s + 9 * chars ts /\
  Z.of_nat (length ts) <= exceed s + chars ts /\
  (near s < 0 \/ Z.of_nat (length ts) <= near s) /\
  length cs = S (length ts).
Proof.
  induction 1 as [ex|q t p n cs ts ex Hp E D L IH]; intros s0 n0 b0 EQ; inversion EQ; subst.
  - cbn [map list_sum length]. vm_compute. repeat split; try discriminate; right; discriminate.
  - destruct (IH p n cs eq_refl) as (I1 & I2 & I3 & I4).
    destruct (edge_bounds _ _ _ E) as (B1 & B2 & B3).
    pose proof (size_bound t D). pose proof (short_bound t D).
    rewrite chars_cons. cbn [map length list_sum fold_right] in *.
    fold (list_sum (map size ts)). repeat split; try lia. 
Qed.

(* The symbols after the dot of an item. *)
Lemma nexts_bounded :
  forallb (fun s => forallb (fun i =>
    match nth_error (rhs_of (fst i)) (snd i) with
    | Some x => (height s + weight x <=? 2) &&
                ((exceed s + 1 - short x <=? 4) || (0 <=? near s) && (near s <=? 11))
    | None => true
    end) (items_of s) && (height s <=? 2) && ((exceed s <=? 4) && (near s <=? 11))) (upto 176) = true.
Proof. vm_compute. reflexivity. Qed.

Lemma next_bounds s : 0 <= s < 176 ->
  (forall r d x, In (r, d) (items_of s) -> nth_error (rhs_of r) d = Some x ->
     height s + weight x <= 2 /\ (exceed s + 1 - short x <= 4 \/ 0 <= near s <= 11)) /\
  height s <= 2 /\ exceed s <= 4.
Proof.
  intros H. pose proof nexts_bounded as B. rewrite forallb_forall in B.
  specialize (B s (upto_In 176 s ltac:(cbn; lia))).
  rewrite !andb_true_iff, !Z.leb_le in B. destruct B as [[B1 B2] [B3 B4]].
  split; [|lia]. intros r d x I N. rewrite forallb_forall in B1. specialize (B1 _ I).
  cbn [fst snd] in B1. rewrite N in B1.
  rewrite andb_true_iff, orb_true_iff, andb_true_iff, !Z.leb_le in B1. lia.
Qed.

(* A configuration that keeps the invariant. *)
Lemma inv_bounds all ts cfg : inv all ts cfg ->
  Z.of_nat (list_sum (map size ts)) <= 2 + 9 * Z.of_nat (length all) /\
  (Z.of_nat (length (stack cfg)) <= 5 + Z.of_nat (length all) \/ (length (stack cfg) <= 13)%nat).
Proof.
  intros [B I].
  assert (C : chars ts <= Z.of_nat (length all)).
  { unfold chars. rewrite <- B, app_length. lia. }
  assert (LK : forall stk ts', linked stk ts' [] -> chars ts' <= Z.of_nat (length all) ->
    Z.of_nat (list_sum (map size ts')) <= 2 + 9 * Z.of_nat (length all) /\
    (Z.of_nat (length stk) <= 5 + Z.of_nat (length all) \/ (length stk <= 13)%nat)).
  { intros stk ts' L C'. destruct (linked_state _ _ _ L) as (s & n & below & SK & Hs).
    destruct (linked_bounds _ _ _ L s n below SK) as (B1 & B2 & B3 & B4).
    destruct (next_bounds s Hs) as (_ & N1 & N2). rewrite B4. split; [lia|]. left. lia. }
  destruct (next cfg).
  - apply LK; assumption.
  - destruct I as (_ & RD & _).
    destruct RD as [(s & n & below & SK & L & I)|(t & ts' & s & n & below & d & SK & ET & D & L & LN & N & I)].
    + apply LK; assumption.
    + subst ts. rewrite chars_cons in C.
      destruct (linked_state _ _ _ L) as (s0 & n0 & below0 & SK0 & Hs). inversion SK0; subst s0 n0 below0.
      destruct (linked_bounds _ _ _ L s n below eq_refl) as (B1 & B2 & B3 & B4).
      destruct (next_bounds s Hs) as (NB & N1 & N2).
      destruct (NB _ _ _ I N) as [W1 W2].
      pose proof (size_bound t D). pose proof (short_bound t D).
      split.
      * cbn [map list_sum fold_right]. fold (list_sum (map size ts')). lia.
      * rewrite SK. change (length (Cell (-1) (own t) :: Cell s n :: below))
          with (S (length (Cell s n :: below))). rewrite B4.
        destruct W2 as [W2|W2]; [left; lia|right; lia].
Qed.

Lemma measure_bound all ts cfg : inv all ts cfg -> (measure ts cfg <= 18 * length all + 5)%nat.
Proof.
  intros I. destruct (inv_bounds _ _ _ I) as [B _]. unfold measure. destruct (next cfg); lia.
Qed.

(** * Runs with unlimited stack *)

Lemma run_total all : forall fuel ts cfg, room cfg = None -> inv all ts cfg ->
  (18 * length all + 5 < fuel + measure ts cfg)%nat ->
  run fuel cfg = Ok (Rejected, [])
  \/ exists t, run fuel cfg = Ok (Accepted (projection t), []) /\ derivation t /\ root t = 59 /\
       text_of t = all.
Proof.
  induction fuel as [|fuel IH]; intros ts cfg R I F.
  - pose proof (measure_bound _ _ _ I). lia.
  - cbn [run]. destruct (step_progress all ts cfg R I) as [cfg' ts' E R' I' M CS|E|t E D RT TX LX TN];
      rewrite E; cbn [bind].
    + apply (IH ts'); [assumption|assumption|lia].
    + left. reflexivity.
    + right. exists t. auto.
Qed.

Lemma start_inv room left input : inv (left ++ line input) [] (start room left input).
Proof. split; [reflexivity|]. constructor. Qed.

Lemma enough_steps (n : nat) : (18 * n + 5 < enough n)%nat.
Proof. unfold enough. lia. Qed.

Lemma parse_total left input :
  parse unlimited left input = Ok (Rejected, [])
  \/ exists t, parse unlimited left input = Ok (Accepted (projection t), []) /\ derivation t /\
       root t = 59 /\ text_of t = left ++ line input.
Proof.
  unfold parse. apply (run_total _ _ []).
  - reflexivity.
  - apply start_inv.
  - unfold measure. cbn [map list_sum fold_right start next]. rewrite app_length.
    pose proof (enough_steps (length left + length (line input))). unfold enough in *. lia.
Qed.

(* Reached configurations keep the invariant. *)
Lemma reached_inv left input c : reached unlimited left input c ->
  room c = None /\ exists ts, inv (left ++ line input) ts c.
Proof.
  induction 1 as [|c c' H [R [ts I]] E].
  - split; [reflexivity|]. exists []. apply start_inv.
  - destruct (step_progress _ _ _ R I) as [cfg' ts' E' R' I' M CS|E'|t E' D RT TX LX TN]; rewrite E in E';
      inversion E'; subst.
    split; [assumption|]. exists ts'. assumption.
Qed.

(** * Limited stack *)

(* The same configuration with unlimited stack. *)
Definition ideal (c : config) : config :=
  Config (stack c) (text c) (held c) (len c) None (next c).

Definition limit (c : config) (n : nat) : config :=
  Config (stack c) (text c) (held c) (len c) (Some n) (next c).

Lemma pop_length n : forall stk col stk' col', pop n stk col = Ok (stk', col') ->
  (length stk' <= length stk)%nat.
Proof.
  induction n as [|n IH]; intros stk col stk' col' E.
  - inversion E; subst. lia.
  - destruct stk as [|c stk]; [discriminate|]. cbn [pop] in E. apply IH in E. cbn. lia.
Qed.

Lemma step_limited c n : room c = Some n -> (length (stack c) <= n)%nat ->
  match step (ideal c) with
  | Ok (inl c') =>
      step c = UB /\ (n < length (stack c'))%nat
      \/ step c = Ok (inl (limit c' n)) /\ (length (stack c') <= n)%nat
  | Ok (inr o) => step c = Ok (inr o)
  | UB => step c = UB
  | Throw => step c = Throw
  | OutOfFuel => step c = OutOfFuel
  end.
Proof.
  intros R L. unfold step. cbn [ideal next]. destruct (next c).
  - unfold look. cbn [ideal stack text held len room].
    destruct (stack c) as [|top below] eqn:SK; [reflexivity|].
    destruct (get_sym (state top) (text c)) as [f| | |]; cbn [bind]; try reflexivity.
    destruct (get_act (state top) (fsym f)) as [[[a i]|]| | |]; cbn [bind]; try reflexivity.
    destruct (Z.testbit a 1).
    + destruct (rd symbols (fsym f)) as [sy| | |]; cbn [bind]; try reflexivity.
      cbn [grow push bind]. rewrite R. unfold grow.
      replace ((length (top :: below) - 1 =? n)%nat) with false
        by (symmetry; apply Nat.eqb_neq; cbn [length] in *; lia).
      unfold push.
      set (cl := Cell (target a i) _).
      destruct (if (fsym f =? 0) || (fsym f =? -1) then (text c, Nat.max (held c) (fread f), flen f)
                else (clear_input (text c) (Nat.max (held c) (fread f)) (flen f), O)) as [[t h] l].
      destruct (Nat.ltb_spec (length (top :: below)) n) as [LT|LT]; cbn [bind].
      * right. cbn [limit stack text held len next]. split; [reflexivity|].
        change (length (cl :: top :: below)) with (S (length (top :: below))). lia.
      * left. cbn [stack]. split; [reflexivity|].
        change (length (cl :: top :: below)) with (S (length (top :: below))). lia.
    + right. unfold limit. cbn [stack text held len next room]. rewrite R. split; [reflexivity|]. lia.
  - unfold reduce. cbn [ideal stack text held len room].
    destruct (rd productions idx) as [[[emit m] lhs]| | |]; cbn [bind]; try reflexivity.
    destruct (pop (Z.to_nat m) (stack c) []) as [[stk col]| | |] eqn:P; cbn [bind]; try reflexivity.
    apply pop_length in P.
    destruct stk as [|[s own] below]; [reflexivity|].
    destruct ((lhs =? 59) && match below with [] => true | _ :: _ => false end); [reflexivity|].
    destruct (get_go s lhs) as [o| | |]; cbn [bind]; try reflexivity.
    destruct (match o with Some e => e | None => (1, idx) end) as [a i].
    rewrite R. unfold push.
    set (base := Cell s _). set (cl := Cell (target a i) []).
    destruct (Nat.ltb_spec (length (base :: below)) n) as [LT|LT]; cbn [bind].
    + right. cbn [limit stack text held len next]. split; [reflexivity|].
      change (length (cl :: base :: below)) with (S (length (base :: below))). lia.
    + left. cbn [stack]. split; [reflexivity|].
      change (length (cl :: base :: below)) with (S (length (base :: below))). lia.
Qed.

(* A run with limited stack either is the run with unlimited stack, or goes
   wrong where the unlimited one outgrows the allocation. *)
Lemma run_limited left input : forall fuel c n ts, room c = Some n -> (length (stack c) <= n)%nat ->
  inv (left ++ line input) ts (ideal c) -> reached unlimited left input (ideal c) ->
  run fuel c = run fuel (ideal c)
  \/ run fuel c = UB /\ exists c' ts', inv (left ++ line input) ts' c' /\
       reached unlimited left input c' /\ (n < length (stack c'))%nat.
Proof.
  induction fuel as [|fuel IH]; intros c n ts R L I RC; [left; reflexivity|].
  cbn [run]. pose proof (step_limited c n R L) as SL.
  destruct (step_progress _ ts (ideal c) eq_refl I) as [c' ts' E R' I' M CS|E|t E D RT TX LX TN];
    rewrite E in *; cbn [bind].
  - assert (RC' : reached unlimited left input c') by (eapply R_step; eassumption).
    destruct SL as [[SL1 SL2]|(SL1 & SL3)]; rewrite SL1; cbn [bind].
    + right. split; [reflexivity|]. exists c', ts'. auto.
    + assert (ID : ideal (limit c' n) = c').
      { destruct c'. cbn in *. rewrite R'. reflexivity. }
      destruct (IH (limit c' n) n ts') as [G|(G & G')].
      * reflexivity.
      * exact SL3.
      * rewrite ID. exact I'.
      * rewrite ID. exact RC'.
      * left. rewrite G, ID. reflexivity.
      * right. split; [exact G|]. exact G'.
  - left. rewrite SL. reflexivity.
  - left. rewrite SL. reflexivity.
Qed.

(* If some configuration on the way is too deep, the limited run goes wrong. *)
Inductive leads : config -> config -> Prop :=
  | L_refl c : leads c c
  | L_step c c' c'' : step c = Ok (inl c') -> leads c' c'' -> leads c c''.

Lemma leads_trans a b c : leads a b -> leads b c -> leads a c.
Proof. induction 1; [auto|]. intros. econstructor; eauto. Qed.

Lemma reached_leads left input c : reached unlimited left input c ->
  leads (start unlimited left input) c.
Proof.
  induction 1; [constructor|]. eapply leads_trans; [eassumption|]. econstructor; [eassumption|constructor].
Qed.

Lemma run_deep all n : forall c1 c2, leads c1 c2 -> forall fuel c ts, c1 = ideal c ->
  room c = Some n -> (length (stack c) <= n)%nat -> inv all ts (ideal c) ->
  (n < length (stack c2))%nat -> run fuel c = UB \/ run fuel c = OutOfFuel.
Proof.
  induction 1 as [c1|c1 c1' c2 E LD IH]; intros fuel c ts EQ R L I D.
  - subst. cbn [ideal stack] in D. lia.
  - destruct fuel as [|fuel]; [right; reflexivity|]. cbn [run].
    pose proof (step_limited c n R L) as SL. rewrite <- EQ, E in SL.
    destruct SL as [[SL _]|[SL1 SL2]]; [rewrite SL; left; reflexivity|].
    rewrite SL1. cbn [bind].
    assert (P : room c1' = None /\ exists ts', inv all ts' c1').
    { destruct (step_progress _ ts (ideal c) eq_refl I) as [c' ts' E' R' I' M CS|E'|t E' D' RT TX LX TN];
        rewrite <- EQ, E in E'; inversion E'; subst. eauto. }
    destruct P as (R' & ts' & I').
    assert (ID : ideal (limit c1' n) = c1').
    { destruct c1'. cbn in *. rewrite R'. reflexivity. }
    apply (IH fuel (limit c1' n) ts'); auto; rewrite ID; exact I'.
Qed.

Lemma parse_limited n left input : (1 <= n)%nat ->
  parse (Some n) left input = parse unlimited left input
  \/ parse (Some n) left input = UB /\ exists c ts, inv (left ++ line input) ts c /\
       reached unlimited left input c /\ (n < length (stack c))%nat.
Proof.
  intros H. unfold parse.
  destruct (run_limited left input (enough (length left + length (line input)))
    (start (Some n) left input) n []) as [G|G]; auto.
  - apply (start_inv None).
  - apply (R_start None).
Qed.

Lemma parse_short n left input : (13 <= n)%nat ->
  (length left + length (line input) + 5 <= n)%nat ->
  parse (Some n) left input = parse unlimited left input.
Proof.
  intros H1 H2. destruct (parse_limited n left input) as [G|(_ & c & ts & I & _ & L)]; [lia|exact G|].
  exfalso. destruct (inv_bounds _ _ _ I) as [_ B]. rewrite app_length in B. lia.
Qed.

Lemma parse_steps room left input : (match room with Some n => 1 <= n | None => True end)%nat ->
  parse room left input <> OutOfFuel.
Proof.
  intros H. assert (U : parse unlimited left input <> OutOfFuel).
  { destruct (parse_total left input) as [E|(t & E & _)]; rewrite E; discriminate. }
  destruct room as [n|]; [|exact U].
  destruct (parse_limited n left input H) as [G|[G _]]; rewrite G; [exact U|discriminate].
Qed.

(* Exactly the inputs that outgrow the allocation go wrong. *)
Lemma parse_overflow n left input : (1 <= n)%nat ->
  (parse (Some n) left input = UB <->
   exists c, reached unlimited left input c /\ (n < length (stack c))%nat).
Proof.
  intros H. split.
  - intros E. destruct (parse_limited n left input H) as [G|(_ & c & ts & I & RC & L)]; [|eauto].
    rewrite E in G. exfalso. destruct (parse_total left input) as [E'|(t & E' & _)];
      rewrite E' in G; discriminate.
  - intros (c & RC & L). apply reached_leads in RC.
    destruct (run_deep (left ++ line input) n _ _ RC (enough (length left + length (line input)))
                (start (Some n) left input) []) as [G|G]; auto.
    + apply (start_inv None).
    + exfalso. apply (parse_steps (Some n) left input H G).
Qed.

Lemma parse_same n left input : (1 <= n)%nat -> parse (Some n) left input <> UB ->
  parse (Some n) left input = parse unlimited left input.
Proof.
  intros H N. destruct (parse_limited n left input H) as [G|[G _]]; [exact G|contradiction].
Qed.

(** * Reductions *)

Lemma reduce_finds all ts c i : inv all ts c -> next c = Reduce i ->
  exists emit n lhs s own below, rd productions i = Ok (emit, n, lhs) /\
    0 <= n < Z.of_nat (length (stack c)) /\
    skipn (Z.to_nat n) (stack c) = Cell s own :: below /\
    (lhs = 59 /\ below = [] \/ exists e, get_go s lhs = Ok (Some e)).
Proof.
  intros [B I] NX. rewrite NX in I. destruct I as (Hi & RD & T).
  set (r := Z.to_nat i) in *.
  assert (RL : (r < 270)%nat) by lia.
  destruct (nth_error rules r) as [[[lhs rhs] name]|] eqn:NR.
  2:{ apply nth_error_None in NR. destruct lengths_ok as (_ & _ & _ & _ & _ & LR). lia. }
  assert (RHS : rhs_of r = rhs) by (unfold rhs_of; rewrite NR; reflexivity).
  assert (LHS : lhs_of r = lhs) by (unfold lhs_of; rewrite NR; reflexivity).
  destruct (ready_pop _ _ _ RD) as (ts1 & ts2 & s & n & below & col & ex & E1 & E2 & E3 & E4 & E5 & E6 & E7).
  rewrite RHS in *.
  destruct (linked_state _ _ _ E5) as (s' & n' & below' & SE & Hs). inversion SE; subst s' n' below'. clear SE.
  assert (SK : forall m stk col stk' col', pop m stk col = Ok (stk', col') ->
             skipn m stk = stk' /\ (m <= length stk)%nat).
  { clear. induction m as [|m IH]; intros stk col stk' col' E.
    - inversion E. split; [reflexivity|lia].
    - destruct stk; [discriminate|]. cbn [pop] in E. apply IH in E. cbn [skipn length]. intuition lia. }
  apply SK in E4. destruct E4 as [E4 E4'].
  exists name, (Z.of_nat (length rhs)), lhs, s, n, below.
  split; [|split; [|split]].
  - replace i with (Z.of_nat r) by lia. apply production_eq. exact NR.
  - assert (length (skipn (length rhs) (stack c)) = S (length below)) by (rewrite E4; reflexivity).
    rewrite skipn_length in H. lia.
  - rewrite Nat2Z.id. exact E4.
  - destruct (item_zero s r Hs E6) as [(G1 & G2)|(G1 & a & j & F & EN)].
    + left. subst s. destruct (linked_zero _ _ _ _ E5) as (-> & -> & _). rewrite LHS in G1. auto.
    + right. exists (a, j). unfold get_go. destruct lengths_ok as (_ & LG & _).
      rewrite (row_rd go s LG Hs). cbn [bind]. rewrite <- LHS, F. reflexivity.
Qed.

Lemma reached_step left input c : reached unlimited left input c ->
  exists r, step c = Ok r.
Proof.
  intros H. destruct (reached_inv _ _ _ H) as (R & ts & I).
  destruct (step_progress _ _ _ R I) as [c' ts' E R' I' M CS|E|t E D RT TX LX TN]; eauto.
Qed.

Lemma reached_reduce left input c i : reached unlimited left input c -> next c = Reduce i ->
  exists emit n lhs s own below, rd productions i = Ok (emit, n, lhs) /\
    0 <= n < Z.of_nat (length (stack c)) /\
    skipn (Z.to_nat n) (stack c) = Cell s own :: below /\
    (lhs = 59 /\ below = [] \/ exists e, get_go s lhs = Ok (Some e)).
Proof.
  intros H N. destruct (reached_inv _ _ _ H) as (R & ts & I). eapply reduce_finds; eassumption.
Qed.

(** * Characters *)

Fixpoint positive (r : re) : bool :=
  match r with
  | Range l => forallb (fun p => 0 <=? fst p) l
  | Void | Eps | Except _ => true
  | Cat a b | Alt a b => positive a && positive b
  | Star a => positive a
  end.

Lemma matches_positive r w : matches r w -> positive r = true -> Forall (fun c => 0 <= code c) w.
Proof.
  induction 1; cbn [positive]; intros P.
  - constructor.
  - constructor; [|constructor]. unfold in_ranges in H. apply existsb_exists in H.
    destruct H as (p & I & Q). rewrite forallb_forall in P. specialize (P _ I).
    cbv beta in Q. rewrite andb_true_iff, !Z.leb_le in Q. rewrite Z.leb_le in P. lia.
  - repeat constructor. assumption.
  - apply andb_true_iff in P as [P1 P2]. apply Forall_app; auto.
  - apply andb_true_iff in P as [P1 P2]. auto.
  - apply andb_true_iff in P as [P1 P2]. auto.
  - constructor.
  - apply Forall_app; auto.
Qed.

Lemma lexemes_positive : forallb (fun x => positive (lexeme x)) (upto 59) = true.
Proof. vm_compute. reflexivity. Qed.

Lemma derivation_positive t : derivation t -> Forall (fun c => 0 <= code c) (text_of t).
Proof.
  intros D. induction D using derivation_ind'.
  - cbn [text_of]. apply (matches_positive (lexeme sym)); [assumption|].
    pose proof lexemes_positive as L. rewrite forallb_forall in L. apply L. apply upto_In. cbn. lia.
  - cbn [text_of]. clear H H0 H1. induction H2; cbn [map concat]; [constructor|].
    apply Forall_app. split; assumption.
Qed.
