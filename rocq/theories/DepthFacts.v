(* Bounds of the recursions over a syntax tree. *)
From Coq Require Import ZArith String Ascii List Bool Lia.
From Verif Require Import Base Tables Parser ParserSpec Grammar LexFacts ParserCert ParserFacts
  ParserFacts2 ParserFacts3 Depth DepthCert.
Import ListNotations.
Open Scope string_scope.
Open Scope list_scope.
Open Scope Z_scope.

(* What a step does to the trees on the stack. *)
Inductive moved (ts : list tree) : list tree -> Prop :=
  | M_same : moved ts ts
  | M_shift a w : moved ts (Token a w :: ts)
  | M_reduce r ts1 ts2 : ts = ts1 ++ ts2 -> moved ts (Derived r (rev ts1) :: ts2).

(* What one step of a parser with unlimited stack does, with the trees. *)
Inductive advance (all : list ascii) (ts : list tree) (cfg : config) : Prop :=
  | A_next cfg' ts' : step cfg = Ok (inl cfg') -> room cfg' = None -> inv all ts' cfg' ->
      moved ts ts' -> advance all ts cfg
  | A_reject : step cfg = Ok (inr (Rejected, [])) -> advance all ts cfg
  | A_accept t r : step cfg = Ok (inr (Accepted (projection t), [])) -> derivation t ->
      root t = 59 -> t = Derived r (rev ts) -> advance all ts cfg.

Lemma look_advance all ts cfg : room cfg = None -> next cfg = Look -> inv all ts cfg ->
  advance all ts cfg.
Proof.
  intros R NX [B I]. rewrite NX in I.
  destruct (linked_state _ _ _ I) as (s & n & below & SK & Hs).
  assert (ST : step cfg = look cfg) by (unfold step; rewrite NX; reflexivity).
  unfold look in ST. rewrite SK in ST. cbn [state] in ST.
  destruct (get_sym_sound s (text cfg) Hs) as (f & EF & SF). rewrite EF in ST. cbn [bind] in ST.
  destruct (get_act_cases s (fsym f) Hs) as [(a & i & EA & C)|(EA & FN & DP)];
    rewrite EA in ST; cbn [bind] in ST.
  - assert (RED : a = 1 -> complete_ok s i = true -> i <> 206 -> i <> 269 -> advance all ts cfg).
    { intros -> CO N1 N2. change (Z.testbit 1 1) with false in ST. change (after 1 i) with (Reduce i) in ST.
      cbv iota in ST. unfold complete_ok in CO. rewrite !andb_true_iff, Z.leb_le, Z.ltb_lt in CO.
      destruct CO as [CO1 CO2].
      eapply (A_next _ _ _ _ ts ST).
      - exact R.
      - split; [exact B|]. cbn [next stack text]. split; [lia|]. split; [|intuition].
        left. exists s, n, below. rewrite SK in I. split; [reflexivity|]. split; [exact I|].
        apply item_in_In. exact CO2.
      - constructor. }
    destruct C as [(F & EN)|(-> & CO & N1 & N2)]; [|auto].
    destruct (Z.eq_dec a 1) as [A1|A1].
    + subst a. unfold entry_ok in EN. rewrite andb_true_iff in EN. destruct EN as [_ EN].
      cbn [Z.eqb Pos.eqb andb orb] in EN. rewrite !andb_true_iff, !negb_true_iff, !Z.eqb_neq in EN.
      destruct EN as [[EN1 EN2] EN3]. auto.
    + (* shift *)
      assert (TB : Z.testbit a 1 = true /\ 0 <= fsym f < 59).
      { unfold entry_ok in EN. rewrite !andb_true_iff, Z.leb_le, Z.ltb_lt in EN.
        destruct EN as [EN0 EN]. split; [|lia].
        rewrite !orb_true_iff, !andb_true_iff in EN.
        destruct EN as [[[E1 _]|[[[E1 _] _] _]]|[[[[E1 _] _] _] _]]; apply Z.eqb_eq in E1; subst; try reflexivity.
        contradiction. }
      destruct TB as [TB FB]. rewrite TB in ST.
      destruct (symbol_names (fsym f) FB) as [b SN]. rewrite SN in ST. cbn [bind fst] in ST.
      rewrite R in ST. cbn [grow push bind] in ST.
      set (lexm := firstn (flen f) (text cfg)) in *.
      set (t := Token (fsym f) lexm) in *.
      assert (OWN : (if (token_name (fsym f) =? "")%string then []
                     else [Leaf (token_name (fsym f)) (string_of_list_ascii lexm)]) = own t) by reflexivity.
      rewrite OWN in ST.
      assert (D : derivation t).
      { constructor; [exact FB|]. destruct SF as [[T F0]|[(_ & F0 & _)|(_ & _ & M & _)]].
        - subst f. cbn. unfold lexm. cbn. constructor.
        - lia.
        - exact M. }
      destruct SF as [[T F0]|[(_ & F0 & _)|(F1 & F2 & M & _)]]; [| lia |].
      * (* end of file *)
        assert (FS : fsym f = 0) by (subst f; reflexivity).
        rewrite FS in ST. cbn [Z.eqb orb] in ST.
        eapply (A_next _ _ _ _ (t :: ts) ST).
        -- reflexivity.
        -- eapply (pushed all t ts s n below a i _ true); try reflexivity.
           ++ rewrite SK in I. exact I.
           ++ exact Hs.
           ++ exact D.
           ++ exact EN.
           ++ exact A1.
           ++ cbn [text]. rewrite body_cons. unfold t, lexm. rewrite T. cbn [text_of].
              rewrite firstn_nil, app_nil_r. rewrite T in B. exact B.
           ++ intros _. cbn [text]. exact T.
        -- constructor.
      * destruct (Z.eqb_spec (fsym f) 0); [lia|]. destruct (Z.eqb_spec (fsym f) (-1)); [lia|].
        cbn [orb] in ST.
        destruct (flen f) as [|l] eqn:FL; [lia|]. cbn [clear_input] in ST.
        eapply (A_next _ _ _ _ (t :: ts) ST).
        -- reflexivity.
        -- eapply (pushed all t ts s n below a i _ true); try reflexivity.
           ++ rewrite SK in I. exact I.
           ++ exact Hs.
           ++ exact D.
           ++ exact EN.
           ++ exact A1.
           ++ cbn [text]. rewrite body_cons. unfold t, lexm. cbn [text_of].
              rewrite <- app_assoc. rewrite (firstn_skipn (S l) (text cfg)). exact B.
           ++ unfold t. cbn [root]. lia.
        -- constructor.
  - apply A_reject. rewrite ST. f_equal. f_equal. f_equal. unfold rest.
    assert (FL : flen f = O).
    { destruct SF as [[T F0]|[(_ & F0 & FL)|(F1 & F2 & M & cells & l & P & N & IN)]].
      - subst f. reflexivity.
      - exact FL.
      - exfalso. pose proof (reject_fact s Hs) as K. unfold reject_ok in K.
        rewrite DP in K. cbn [Z.eqb negb orb] in K. rewrite N in K.
        rewrite !orb_true_iff in K. destruct K as [[K|K]|K]; [discriminate| |].
        + apply Z.eqb_eq in K. lia.
        + rewrite forallb_forall in K. specialize (K _ IN). cbn [snd] in K.
          replace (fsym f + 1 - 1) with (fsym f) in K by lia. rewrite FN in K.
          rewrite orb_true_iff, Z.eqb_eq in K. destruct K; [lia|discriminate]. }
    rewrite FL. reflexivity.
Qed.

Lemma reduce_advance all ts cfg i : room cfg = None -> next cfg = Reduce i -> inv all ts cfg ->
  advance all ts cfg.
Proof.
  intros R NX [B I]. rewrite NX in I. destruct I as (Hi & RD & T).
  set (r := Z.to_nat i) in *.
  assert (RL : (r < 270)%nat) by lia.
  destruct (nth_error rules r) as [[[lhs rhs] name]|] eqn:NR.
  2:{ apply nth_error_None in NR. destruct lengths_ok as (_ & _ & _ & _ & _ & LR). lia. }
  assert (RHS : rhs_of r = rhs) by (unfold rhs_of; rewrite NR; reflexivity).
  assert (LHS : lhs_of r = lhs) by (unfold lhs_of; rewrite NR; reflexivity).
  assert (NAME : name_of r = name) by (unfold name_of; rewrite NR; reflexivity).
  destruct (ready_pop _ _ _ RD) as (ts1 & ts2 & s & n & below & col & ex & E1 & E2 & E3 & E4 & E5 & E6 & E7).
  rewrite RHS in *.
  destruct (linked_replace _ _ _ _ _ _ r E5 eq_refl E6) as (o & NO & OE & REPL).
  destruct (linked_state _ _ _ E5) as (s' & n' & below' & SE & Hs). inversion SE; subst s' n' below'. clear SE.
  assert (ST : step cfg = reduce i cfg) by (unfold step; rewrite NX; reflexivity).
  unfold reduce in ST. replace i with (Z.of_nat r) in ST at 1 by lia.
  rewrite (production_eq _ _ _ _ NR) in ST. cbn [bind] in ST. rewrite Nat2Z.id, E4 in ST. cbn [bind] in ST.
  set (t := Derived r (rev ts1)).
  assert (D : derivation t).
  { apply (D_derived r lhs rhs name); [exact NR|exact E2|apply Forall_rev; exact E3]. }
  assert (RT : root t = lhs) by (cbn; rewrite NR; reflexivity).
  assert (NODES : (if (name =? "")%string then n ++ col else [Node name (n ++ col)]) = o ++ under t).
  { unfold t. cbn [under projection]. rewrite NR. rewrite NO, <- app_assoc, E7.
    destruct (String.eqb_spec name ""); [reflexivity|].
    rewrite OE; [reflexivity|congruence]. }
  rewrite NODES in ST.
  assert (TX : body (t :: ts2) = body ts).
  { rewrite body_cons, E1, body_app. unfold t. cbn [text_of]. reflexivity. }
  assert (SZ : (size t = S (list_sum (map size ts1)))%nat).
  { unfold t. cbn [size]. rewrite map_rev, list_sum_rev. reflexivity. }
  destruct (item_zero s r Hs E6) as [(G1 & G2)|(G1 & a & j & F & EN)].
  - (* goal *)
    subst s. destruct (linked_zero _ _ _ _ E5) as (-> & -> & _).
    pose proof (goal_rule r RL G1) as RG.
    rewrite LHS in G1. rewrite G1 in ST, RT. cbn [Z.eqb Pos.eqb andb] in ST.
    assert (TN : text cfg = []).
    { apply T. right. lia. }
    rewrite TN, rest_nil in ST. rewrite app_nil_r in E1.
    assert (ON : o = []).
    { specialize (REPL []). inversion REPL as [ex' Q|]; subst. destruct o; [reflexivity|discriminate]. }
    rewrite ON in ST. cbn [app] in ST.
    apply (A_accept _ _ _ t r ST D RT). unfold t. rewrite E1. reflexivity.
  - rewrite LHS in *. destruct (Z.eqb_spec lhs 59); [contradiction|]. cbn [andb] in ST.
    unfold get_go in ST. destruct lengths_ok as (_ & LG & _).
    rewrite (row_rd go s LG Hs) in ST. cbn [bind] in ST. rewrite F, R in ST. cbn [push bind] in ST.
    eapply (A_next _ _ _ _ (t :: ts2) ST).
    + reflexivity.
    + eapply (pushed all t ts2 s (o ++ under t) below a j _ false); try reflexivity.
      * apply REPL.
      * exact Hs.
      * exact D.
      * rewrite RT. exact EN.
      * intros ->. unfold entry_ok in EN. rewrite andb_true_iff in EN. destruct EN as [_ EN]. discriminate.
      * cbn [text]. rewrite TX. exact B.
      * cbn [text]. rewrite RT. intros [Q|Q].
        -- subst lhs. apply rule_fact in NR. unfold rule_ok in NR. rewrite Q in NR. discriminate.
        -- apply T. left. rewrite <- LHS in Q. pose proof (line_rule r RL Q). lia.
    + unfold t. rewrite E1. constructor. reflexivity.
Qed.

Lemma step_advance all ts cfg : room cfg = None -> inv all ts cfg -> advance all ts cfg.
Proof.
  intros R I. destruct (next cfg) eqn:NX;
    [apply look_advance|eapply reduce_advance]; eassumption.
Qed.

(* The cells a parse needs above the cell a tree is built on. *)
Fixpoint need (t : tree) : nat :=
  match t with
  | Token _ _ => 1
  | Derived _ kids =>
      Nat.max 1 ((fix go (l : list tree) : nat :=
                    match l with [] => O | k :: l' => Nat.max (need k) (S (go l')) end) kids)
  end.

Fixpoint needs (l : list tree) : nat :=
  match l with [] => O | k :: l' => Nat.max (need k) (S (needs l')) end.

Lemma need_derived r kids : need (Derived r kids) = Nat.max 1 (needs kids).
Proof.
  reflexivity.
Qed.

Lemma need_positive t : (1 <= need t)%nat.
Proof. destruct t; [cbn; lia|]. rewrite need_derived. lia. Qed.

Lemma needs_snoc l k : needs (l ++ [k]) = Nat.max (needs l) (length l + need k).
Proof.
  pose proof (need_positive k).
  induction l as [|x l IH]; cbn [app needs length].
  - lia.
  - rewrite IH. lia.
Qed.

Fixpoint fits (n : nat) (ts : list tree) : Prop :=
  match ts with
  | [] => True
  | t :: ts' => (length ts' + need t <= n)%nat /\ fits n ts'
  end.

Lemma fits_app n : forall ts1 ts2, fits n (ts1 ++ ts2) -> (length (ts1 ++ ts2) <= n)%nat ->
  (length ts2 + needs (rev ts1) <= n)%nat /\ fits n ts2.
Proof.
  induction ts1 as [|t ts1 IH]; intros ts2 F L; cbn [app rev length] in *; [cbn; split; [lia|exact F]|].
  destruct F as [F1 F2]. destruct (IH ts2 F2 ltac:(lia)) as [I1 I2]. split; [|exact I2].
  rewrite needs_snoc, rev_length. rewrite app_length in *. lia.
Qed.

Lemma fits_moved n ts ts' : moved ts ts' -> fits n ts -> (length ts <= n)%nat -> (length ts' <= n)%nat ->
  fits n ts'.
Proof.
  intros [|a w|r ts1 ts2 E] F L L'; [exact F| |].
  - cbn [fits need length] in *. split; [lia|exact F].
  - subst ts. destruct (fits_app n ts1 ts2 F L) as [F1 F2].
    split; [|exact F2]. rewrite need_derived. cbn [length] in L'. lia.
Qed.

(** * Heights *)

(* The heaviest path down a syntax tree, nodes weighing what their names say. *)
Fixpoint weigh (cost : string -> nat) (n : ast) : nat :=
  match n with
  | Leaf _ _ => 0
  | Node e l => cost e + list_max (map (weigh cost) l)
  end.

(* What a table says about a symbol and a number of cells *)
Definition slope (tab : list (Z * list Z)) (x : Z) : Z := fst (nth (Z.to_nat x) tab (0, [])).

Definition limit (tab : list (Z * list Z)) (x n : Z) : Z :=
  let row := snd (nth (Z.to_nat x) tab (0, [])) in
  if n <=? 8 then nth (Z.to_nat n) row (-1) else nth 8 row (-1) + slope tab x * (n - 8).

(* The symbols of a right-hand side, from place j on, when n cells are there *)
Fixpoint possible (tab : list (Z * list Z)) (n : Z) (rhs : list Z) (j : Z) : bool :=
  match rhs with
  | [] => true
  | x :: rhs' => (1 <=? n - j) && (0 <=? limit tab x (n - j)) && possible tab n rhs' (j + 1)
  end.

Fixpoint enough_for (tab : list (Z * list Z)) (e top n : Z) (rhs : list Z) (j : Z) : bool :=
  match rhs with
  | [] => true
  | x :: rhs' => (e + limit tab x (n - j) <=? top) && enough_for tab e top n rhs' (j + 1)
  end.

Definition cost_of (cost : string -> nat) (name : string) : Z :=
  if (name =? "")%string then 0 else Z.of_nat (cost name).

(* A rule keeps to the table: for few cells, for 15 cells, and the slopes. *)
Definition rule_fits (cost : string -> nat) (tab : list (Z * list Z)) (r : Z * list Z * string) : bool :=
  let '(lhs, rhs, name) := r in
  let e := cost_of cost name in
  let at_ n := (e <=? limit tab lhs n) && enough_for tab e (limit tab lhs n) n rhs 0 in
  forallb (fun n => (n <=? 0) || negb (possible tab n rhs 0) || at_ n) (upto 15)
  && at_ 15 && (length rhs <=? 7)%nat && (0 <=? slope tab lhs)
  && forallb (fun x => slope tab x <=? slope tab lhs) rhs.

Definition table_fits (cost : string -> nat) (tab : list (Z * list Z)) : bool :=
  forallb (fun x => (slope tab x =? 0) && forallb (fun n => limit tab x n =? 0) [1;2;3;4;5;6;7;8]) (upto 59)
  && forallb (rule_fits cost tab) rules.

Definition high (cost : string -> nat) (t : tree) : nat := list_max (map (weigh cost) (projection t)).

Lemma list_max_app' l1 l2 : list_max (l1 ++ l2) = Nat.max (list_max l1) (list_max l2).
Proof. apply list_max_app. Qed.

Lemma limit_far tab x n : 8 <= n -> limit tab x n = limit tab x 8 + slope tab x * (n - 8).
Proof.
  intros H. unfold limit. change (8 <=? 8) with true. cbv iota. change (Z.to_nat 8) with 8%nat.
  destruct (Z.leb_spec n 8); [|reflexivity]. replace n with 8 by lia. change (Z.to_nat 8) with 8%nat. rewrite Z.sub_diag, Z.mul_0_r. lia.
Qed.

Lemma enough_shift tab e lhs n : 15 <= n -> forall rhs j,
  Forall (fun x => slope tab x <= slope tab lhs) rhs -> 0 <= slope tab lhs -> 0 <= j ->
  j + Z.of_nat (length rhs) <= 7 ->
  enough_for tab e (limit tab lhs 15) 15 rhs j = true -> enough_for tab e (limit tab lhs n) n rhs j = true.
Proof.
  intros N. induction rhs as [|x rhs IH]; intros j F L J B H; [reflexivity|].
  cbn [enough_for] in *. rewrite andb_true_iff, Z.leb_le in *. destruct H as [H1 H2].
  inversion F as [|? ? F1 F2]; subst. cbn [length] in B. split; [|apply IH; try assumption; lia].
  rewrite (limit_far tab x (15 - j)), (limit_far tab lhs 15) in H1 by lia.
  rewrite (limit_far tab x (n - j)), (limit_far tab lhs n) by lia.
  assert (Q : slope tab x * (n - j - 8) = slope tab x * (15 - j - 8) + slope tab x * (n - 15)) by ring.
  assert (Q' : slope tab lhs * (n - 8) = slope tab lhs * (15 - 8) + slope tab lhs * (n - 15)) by ring.
  assert (M : slope tab x * (n - 15) <= slope tab lhs * (n - 15)) by (apply Z.mul_le_mono_nonneg_r; lia).
  lia.
Qed.

Lemma high_bound cost tab : table_fits cost tab = true -> forall t, derivation t -> forall n,
  Z.of_nat (need t) <= n -> Z.of_nat (high cost t) <= limit tab (root t) n.
Proof.
  intros A t D. unfold table_fits in A. apply andb_true_iff in A as [P K0].
  rewrite forallb_forall in P, K0.
  induction D using derivation_ind'; intros n Hn.
  - unfold high. cbn [projection root need] in *.
    specialize (P sym (upto_In 59 sym ltac:(cbn; lia))). apply andb_true_iff in P as [P1 P2].
    apply Z.eqb_eq in P1. rewrite forallb_forall in P2.
    assert (Z0 : list_max (map (weigh cost) (if (token_name sym =? "")%string then []
                  else [Leaf (token_name sym) (string_of_list_ascii txt)])) = O)
      by (destruct (token_name sym =? "")%string; reflexivity).
    rewrite Z0. assert (L : limit tab sym n = 0); [|lia].
    destruct (Z.le_gt_cases n 8) as [S|S].
    + apply Z.eqb_eq, P2. cbn. lia.
    + rewrite limit_far, P1 by lia. rewrite Z.mul_0_l, Z.add_0_r. apply Z.eqb_eq, P2. cbn. lia.
  - rewrite need_derived in Hn. cbn [root]. rewrite H.
    specialize (K0 _ (nth_error_In _ _ H)). unfold rule_fits in K0.
    rewrite !andb_true_iff, Z.leb_le, Nat.leb_le in K0. destruct K0 as [[[[K1 [K2 K3]] K4] K5] K6].
    set (e := cost_of cost name) in *.
    assert (HI : Z.of_nat (high cost (Derived r kids)) =
                 e + Z.of_nat (list_max (map (high cost) kids))).
    { unfold high at 1. cbn [projection]. rewrite H.
      assert (CC : list_max (map (weigh cost) (concat (map projection kids))) = list_max (map (high cost) kids)).
      { clear. induction kids as [|k l IH]; [reflexivity|].
        cbn [map concat]. rewrite map_app, list_max_app', IH. reflexivity. }
      unfold e, cost_of. destruct (name =? "")%string; [rewrite CC; lia|].
      cbn [map weigh]. rewrite CC. unfold list_max at 1. cbn [fold_right]. lia. }
    rewrite HI. subst rhs.
    assert (AT : (e <=? limit tab lhs n) && enough_for tab e (limit tab lhs n) n (map root kids) 0 = true).
    { destruct (Z.le_gt_cases 15 n) as [S|S].
      - rewrite andb_true_iff, Z.leb_le. split.
        + rewrite (limit_far tab lhs 15) in K2 by lia. rewrite (limit_far tab lhs n) by lia.
          assert (slope tab lhs * (15 - 8) <= slope tab lhs * (n - 8)) by (apply Z.mul_le_mono_nonneg_l; lia).
          lia.
        + apply enough_shift; try assumption; try lia. rewrite forallb_forall in K6. apply Forall_forall.
          intros x I. apply Z.leb_le, K6, I.
      - rewrite forallb_forall in K1. specialize (K1 n (upto_In 15 n ltac:(cbn; lia))).
        rewrite !orb_true_iff, Z.leb_le, negb_true_iff in K1.
        destruct K1 as [[K1|K1]|K1]; [lia| |exact K1]. exfalso.
        assert (G : forall ks j, 0 <= j -> j + Z.of_nat (needs ks) <= n ->
          Forall (fun t => forall n, Z.of_nat (need t) <= n -> Z.of_nat (high cost t) <= limit tab (root t) n) ks ->
          possible tab n (map root ks) j = true).
        { induction ks as [|k ks IH]; intros j J B F; [reflexivity|]. cbn [map possible needs] in *.
          inversion F as [|? ? Fk Fs]; subst. rewrite !andb_true_iff, !Z.leb_le.
          pose proof (need_positive k). specialize (Fk (n - j) ltac:(lia)).
          split; [lia|]. apply IH; try assumption; lia. }
        rewrite (G kids 0 ltac:(lia) ltac:(lia) H2) in K1. discriminate. }
    rewrite andb_true_iff, Z.leb_le in AT. destruct AT as [AT1 AT2].
    assert (G : forall ks j, 0 <= j -> j + Z.of_nat (needs ks) <= n ->
       Forall (fun t => forall n, Z.of_nat (need t) <= n -> Z.of_nat (high cost t) <= limit tab (root t) n) ks ->
       enough_for tab e (limit tab lhs n) n (map root ks) j = true ->
       e + Z.of_nat (list_max (map (high cost) ks)) <= limit tab lhs n).
    { induction ks as [|k ks IH]; intros j J B F Q; [cbn; lia|].
      cbn [map enough_for needs] in *. rewrite andb_true_iff, Z.leb_le in Q. destruct Q as [Q1 Q2].
      inversion F as [|? ? Fk Fs]; subst. specialize (Fk (n - j) ltac:(lia)).
      specialize (IH (j + 1) ltac:(lia) ltac:(lia) Fs Q2).
      unfold list_max in *. cbn [fold_right] in *. lia. }
    apply (G kids 0); try assumption; lia.
Qed.

(** * Parses *)

Lemma inv_cells all ts cfg : inv all ts cfg -> length (stack cfg) = S (length ts).
Proof.
  intros [_ I]. assert (LK : forall stk ts' ex, linked stk ts' ex -> length stk = S (length ts')).
  { intros stk ts' ex L. destruct (linked_state _ _ _ L) as (s & n & below & SK & _).
    destruct (linked_bounds _ _ _ L s n below SK) as (_ & _ & _ & E). exact E. }
  destruct (next cfg); [eapply LK, I|]. destruct I as (_ & RD & _).
  destruct RD as [(s & n & below & E & L & _)|(t & ts' & s & n & below & d & E & -> & _ & L & _)].
  - eapply LK, L.
  - rewrite E. cbn [length]. apply LK in L. cbn [length] in L. rewrite L. reflexivity.
Qed.

Definition roomy (n : nat) (left : list ascii) (input : string) : Prop :=
  forall c, reached unlimited left input c -> (length (stack c) <= S n)%nat.

Lemma run_high n left input : roomy n left input -> forall fuel c ts trees rest,
  reached unlimited left input c -> room c = None -> inv (left ++ line input) ts c -> fits n ts ->
  run fuel c = Ok (Accepted trees, rest) ->
  exists r ts', trees = projection (Derived r (rev ts')) /\ derivation (Derived r (rev ts')) /\
    root (Derived r (rev ts')) = 59 /\ (needs (rev ts') <= n)%nat.
Proof.
  intros RM. induction fuel as [|fuel IH]; intros c ts trees rest RC R I F E; [discriminate|].
  assert (L : (length ts <= n)%nat).
  { pose proof (RM c RC) as Q. rewrite (inv_cells _ _ _ I) in Q. lia. }
  cbn [run] in E. destruct (step_advance _ _ _ R I) as [c' ts' ST R' I' MV|ST|t r ST D RT ET];
    rewrite ST in E; cbn [bind] in E.
  - assert (RC' : reached unlimited left input c') by (eapply R_step; eassumption).
    eapply (IH c' ts'); try eassumption. eapply fits_moved; try eassumption.
    pose proof (RM c' RC') as Q. rewrite (inv_cells _ _ _ I') in Q. lia.
  - discriminate.
  - inversion E; subst. exists r, ts. split; [reflexivity|]. split; [exact D|]. split; [exact RT|].
    assert (X : fits n (ts ++ [])) by (rewrite app_nil_r; exact F).
    destruct (fits_app n ts [] X) as [Q _]; [rewrite app_nil_r; exact L|]. cbn [length] in Q. lia.
Qed.

(* However long the input, a path down the tree weighs only as much as the
   stack of the parser allows. *)
Lemma weigh_bounded cost tab n left input trees rest : table_fits cost tab = true -> (2 <= n)%nat ->
  parse (Some n) left input = Ok (Accepted trees, rest) ->
  Z.of_nat (list_max (map (weigh cost) trees)) <= limit tab 59 (Z.of_nat n - 1).
Proof.
  intros A N E.
  assert (U : parse (Some n) left input <> UB) by (rewrite E; discriminate).
  assert (RM : roomy (n - 1) left input).
  { intros x RC. destruct (Nat.le_gt_cases (length (stack x)) n); [lia|].
    exfalso. apply U. apply parse_overflow; [lia|]. exists x. split; assumption. }
  rewrite (parse_same n left input ltac:(lia) U) in E. unfold parse in E.
  destruct (run_high _ _ _ RM _ _ [] _ _ (R_start _ _ _) eq_refl (start_inv _ _ _) I E)
    as (r & ts & -> & D & RT & B).
  pose proof (high_bound cost tab A _ D (Z.of_nat n - 1)) as H. rewrite RT in H.
  rewrite need_derived in H. fold (high cost (Derived r (rev ts))). apply H. lia.
Qed.

Lemma levels_fit : table_fits (fun _ => 1%nat) level_table = true.
Proof. vm_compute. reflexivity. Qed.

Lemma below_weigh : forall n, below n = weigh (fun _ => 1%nat) n.
Proof.
  fix IH 1. intros [e t|e l]; cbn [below weigh]; [reflexivity|]. cbn [Nat.add]. f_equal. f_equal.
  induction l as [|a l IHl]; [reflexivity|]. cbn [map]. rewrite IH, IHl. reflexivity.
Qed.

Lemma transform_bounded n left input trees rest : (7 <= n)%nat ->
  parse (Some n) left input = Ok (Accepted trees, rest) -> (transform_calls trees + 13 <= 3 * n)%nat.
Proof.
  intros N E. pose proof (weigh_bounded _ _ n left input trees rest levels_fit ltac:(lia) E) as B.
  unfold transform_calls. rewrite (map_ext _ _ below_weigh).
  destruct (Nat.le_gt_cases n 9) as [S|S].
  - assert (C : n = 7%nat \/ n = 8%nat \/ n = 9%nat) by lia.
    destruct C as [->|[->| ->]].
    + change (limit level_table 59 (Z.of_nat 7 - 1)) with 7 in B. lia.
    + change (limit level_table 59 (Z.of_nat 8 - 1)) with 10 in B. lia.
    + change (limit level_table 59 (Z.of_nat 9 - 1)) with 13 in B. lia.
  - rewrite limit_far in B by lia. change (limit level_table 59 8) with 13 in B.
    change (slope level_table 59) with 3 in B. lia.
Qed.
