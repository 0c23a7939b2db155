(* The parser stays within its tables, and builds derivation trees. *)
From Coq Require Import ZArith String Ascii List Bool Lia.
From Verif Require Import Base Tables Parser Grammar LexFacts ParserCert.
Import ListNotations.
Open Scope string_scope.
Open Scope list_scope.
Open Scope Z_scope.

(** * Checks of the tables *)

Definition rhs_of (r : nat) : list Z :=
  match nth_error rules r with Some (_, rhs, _) => rhs | None => [] end.
Definition lhs_of (r : nat) : Z :=
  match nth_error rules r with Some (lhs, _, _) => lhs | None => -1 end.
Definition name_of (r : nat) : string :=
  match nth_error rules r with Some (_, _, name) => name | None => "" end.
Definition items_of (s : Z) : list (nat * nat) :=
  if s <? 0 then [] else nth (Z.to_nat s) items [].
Definition row {A} (t : list (list A)) (s : Z) : list A :=
  if s <? 0 then [] else nth (Z.to_nat s) t [].

Definition item_in (r d : nat) (s : Z) : bool :=
  existsb (fun i => Nat.eqb (fst i) r && Nat.eqb (snd i) d) (items_of s).

Lemma item_in_In r d s : item_in r d s = true <-> In (r, d) (items_of s).
Proof.
  unfold item_in. rewrite existsb_exists. split.
  - intros ([a b] & I & E). apply andb_true_iff in E as [E1 E2].
    apply Nat.eqb_eq in E1, E2. cbn in *. subst. exact I.
  - intros I. exists (r, d). split; [exact I|]. cbn. rewrite !Nat.eqb_refl. reflexivity.
Qed.

Definition weight (x : Z) : Z := nth (Z.to_nat x) weights 0.
Definition height (s : Z) : Z := nth (Z.to_nat s) heights 0.
Definition short (x : Z) : Z := nth (Z.to_nat x) shortest 0.
Definition exceed (s : Z) : Z := nth (Z.to_nat s) excess 0.
Definition near (s : Z) : Z := nth (Z.to_nat s) shallow (-1).

(* The bounds of the certificates are kept. *)
Definition bounds_ok (p x q : Z) : bool :=
  (height p + weight x <=? height q) && (exceed p + 1 - short x <=? exceed q)
  && ((near q <? 0) || (0 <=? near p) && (near p + 1 <=? near q)).

(* Pushing symbol x leads from state p to state q. *)
Definition edge_ok (p x q : Z) : bool :=
  (0 <? q) && ((q <? 176) && bounds_ok p x q) &&
  forallb (fun i => match snd i with
                    | O => true
                    | S d => item_in (fst i) d p
                             && match nth_error (rhs_of (fst i)) d with
                                | Some y => y =? x
                                | None => false
                                end
                    end) (items_of q) &&
  ((token_name x =? "")%string || (59 <=? x)
   || forallb (fun i => match snd i with
                        | O => (name_of (fst i) =? "")%string
                        | S _ => true
                        end) (items_of q)).

(* Production i is complete in state p. *)
Definition complete_ok (p i : Z) : bool :=
  (0 <=? i) && (i <? 270) && item_in (Z.to_nat i) (length (rhs_of (Z.to_nat i))) p.

(* Production i is complete after symbol x in state p. *)
Definition last_ok (p x i : Z) : bool :=
  (0 <=? i) && (i <? 270) &&
  match length (rhs_of (Z.to_nat i)) with
  | O => false
  | S d => item_in (Z.to_nat i) d p
           && match nth_error (rhs_of (Z.to_nat i)) d with Some y => y =? x | None => false end
  end.

Definition entry_ok (terminal : bool) (p : Z) (e : Z * Z * Z) : bool :=
  let '(x, a, i) := e in
  (if terminal then (0 <=? x) && (x <? 59) else (59 <=? x) && (x <? 234)) &&
  ((a =? 2) && edge_ok p x i
   || (a =? 3) && last_ok p x i && (negb (i =? 206) || (x =? 0)) && (negb (i =? 269) || (x =? 120))
   || (a =? 1) && terminal && complete_ok p i && negb (i =? 206) && negb (i =? 269)).

Definition state_ok (p : Z) : bool :=
  forallb (entry_ok true p) (row actions p) &&
  forallb (entry_ok false p) (row go p) &&
  (let d := nth (Z.to_nat p) def_prod (-2) in
   (d =? -1) || complete_ok p d && negb (d =? 206) && negb (d =? 269)) &&
  (let m := nth (Z.to_nat p) dfa_select (-2) in (-1 <=? m) && (m <? 70)) &&
  forallb (fun i => match snd i with
                    | O => if lhs_of (fst i) =? 59 then p =? 0
                           else match find_entry (row go p) (lhs_of (fst i)) with
                                | Some _ => true
                                | None => false
                                end
                    | S _ => true
                    end) (items_of p).

Lemma states_ok : forallb state_ok (upto 176) = true.
Proof. vm_compute. reflexivity. Qed.

Lemma lengths_ok :
  (length actions = 176 /\ length go = 176 /\ length def_prod = 176 /\ length dfa_select = 176
   /\ length productions = 270 /\ length rules = 270)%nat.
Proof. vm_compute. repeat split. Qed.

(* The productions of the tables are those of the grammar. *)
Lemma productions_eq :
  productions = map (fun r => (snd r, Z.of_nat (length (snd (fst r))), fst (fst r))) rules.
Proof. vm_compute. reflexivity. Qed.

(* The goal and the production with the end of file occur once. *)
Lemma goal_once :
  forallb (fun r => (negb (lhs_of r =? 59) || Nat.eqb r 269)
                    && (negb (lhs_of r =? 120) || Nat.eqb r 206)) (seq 0 270) = true.
Proof. vm_compute. reflexivity. Qed.

Lemma token_names : map (fun x => token_name x) (upto 59) = map fst (firstn 59 symbols).
Proof. vm_compute. reflexivity. Qed.

Lemma state_fact p : 0 <= p < 176 -> state_ok p = true.
Proof.
  intros H. pose proof states_ok as S. rewrite forallb_forall in S.
  apply S, upto_In. cbn. lia.
Qed.

Lemma row_rd {A} (t : list (list A)) s : length t = 176%nat -> 0 <= s < 176 ->
  rd t s = Ok (row t s).
Proof.
  intros L H. unfold rd, row. destruct (Z.ltb_spec s 0); [lia|].
  rewrite (nth_error_nth' t [] (n := Z.to_nat s)); [reflexivity|lia].
Qed.

Lemma nth_rd (t : list Z) s d : length t = 176%nat -> 0 <= s < 176 ->
  rd t s = Ok (nth (Z.to_nat s) t d).
Proof.
  intros L H. unfold rd. destruct (Z.ltb_spec s 0); [lia|].
  rewrite (nth_error_nth' t d (n := Z.to_nat s)); [reflexivity|lia].
Qed.

Lemma find_entry_In l x a i : find_entry l x = Some (a, i) -> In (x, a, i) l.
Proof.
  induction l as [|[[y b] j] l IH]; cbn; [discriminate|].
  destruct (Z.eqb_spec y x); [intros E; inversion E; subst; auto|auto].
Qed.

(** * What a stack stands for *)

(* The part of a syntax tree kept in the cell of a tree, and the part kept in
   the cell below it. *)
Definition own (t : tree) : list ast :=
  match t with Token _ _ => projection t | Derived _ _ => [] end.
Definition under (t : tree) : list ast :=
  match t with Token _ _ => [] | Derived _ _ => projection t end.

Lemma own_under t : under t ++ own t = projection t.
Proof. destruct t; cbn [own under]; [reflexivity|apply app_nil_r]. Qed.

Inductive linked : list cell -> list tree -> list ast -> Prop :=
  | L_bottom ex : linked [Cell 0 ex] [] ex
  | L_push q t p n cs ts ex :
      0 <= p < 176 -> edge_ok p (root t) q = true -> derivation t ->
      linked (Cell p n :: cs) ts (under t) ->
      linked (Cell q (own t ++ ex) :: Cell p n :: cs) (t :: ts) ex.

Lemma linked_state cs ts ex : linked cs ts ex ->
  exists s n below, cs = Cell s n :: below /\ 0 <= s < 176.
Proof.
  intros H. inversion H; subst.
  - exists 0, ex, []. split; [reflexivity|lia].
  - exists q, (own t ++ ex), (Cell p n :: cs0). split; [reflexivity|].
    unfold edge_ok in H1. rewrite !andb_true_iff, !Z.ltb_lt in H1. lia.
Qed.

(* The order in which a reduction collects the nodes of its trees (the top
   tree first). *)
Fixpoint collect (ts : list tree) (ex col : list ast) : list ast :=
  match ts with
  | [] => col
  | t :: ts' => collect ts' (under t) (chain (own t ++ ex) col)
  end.

Definition last_under (ts : list tree) (ex : list ast) : list ast :=
  match rev ts with [] => ex | t :: _ => under t end.

Lemma last_under_cons t ts ex : last_under (t :: ts) ex = last_under ts (under t).
Proof.
  unfold last_under. cbn [rev]. destruct (rev ts); reflexivity.
Qed.

Lemma firstn_snoc {A} d : forall (l : list A) x, nth_error l d = Some x ->
  firstn (S d) l = firstn d l ++ [x].
Proof.
  induction d as [|d IH]; destruct l; cbn; intros x E; try discriminate.
  - inversion E; reflexivity.
  - change (firstn (S d) l) with (firstn (S d) l) in *. rewrite <- (IH l x E). reflexivity.
Qed.

(* Popping the right-hand side of a production under work. *)
Lemma linked_pop r : forall d cs ts ex s0 n0 below0,
  linked cs ts ex -> cs = Cell s0 n0 :: below0 -> In (r, d) (items_of s0) ->
  exists ts1 ts2 s n below,
    ts = ts1 ++ ts2 /\ length ts1 = d /\ map root (rev ts1) = firstn d (rhs_of r) /\
    Forall derivation ts1 /\
    linked (Cell s n :: below) ts2 (last_under ts1 ex) /\ In (r, O) (items_of s) /\
    forall col, pop d cs col = Ok (Cell s n :: below, collect ts1 ex col).
Proof.
  induction d as [|d IH]; intros cs ts ex s0 n0 below0 H E I; subst cs.
  - exists [], ts, s0, n0, below0. repeat (split; [reflexivity || constructor || assumption|]).
    reflexivity.
  - inversion H as [ex' E1 E2 E3|q t p n cs ts' ex' B1 B2 B3 B4 E1 E2 E3]; subst.
    + (* bottom: no item with a symbol before the dot *)
      exfalso. clear H.
      assert (B : forallb (fun i => Nat.eqb (snd i) O) (items_of 0) = true) by (vm_compute; reflexivity).
      rewrite forallb_forall in B. specialize (B _ I). discriminate.
    + pose proof B2 as EK. unfold edge_ok in EK.
      rewrite !andb_true_iff in EK. destruct EK as [[_ EK] _].
      rewrite forallb_forall in EK. specialize (EK _ I). cbn [fst snd] in EK.
      apply andb_true_iff in EK as [I' E]. apply item_in_In in I'.
      destruct (nth_error (rhs_of r) d) as [y|] eqn:N; [|discriminate].
      apply Z.eqb_eq in E. subst y.
      destruct (IH _ _ _ p n cs B4 eq_refl I') as
        (ts1 & ts2 & s & n' & below & E1 & E2 & E3 & E4 & E5 & E6 & E7).
      exists (t :: ts1), ts2, s, n', below. subst ts'.
      split; [reflexivity|]. split; [cbn; congruence|].
      split; [cbn [rev]; rewrite map_app, E3; cbn [map]; symmetry; apply firstn_snoc; exact N|].
      split; [constructor; assumption|].
      split; [rewrite last_under_cons; exact E5|]. split; [exact E6|].
      intros col. cbn [pop nodes collect]. apply E7.
Qed.

(** * No nodes are lost *)

(* How many nodes a grammar symbol can stand for: 0, at most 1, or any
   number. *)
Definition many : list Z :=
  [122; 123; 126; 127; 156; 175; 157; 158; 161; 164; 167; 168; 171; 172; 177; 178; 181; 182;
   185; 186; 187; 197; 198; 201; 202; 205; 130; 132; 134; 136; 138; 140; 142].

Definition count (x : Z) : nat :=
  if existsb (Z.eqb x) many then 2
  else if (x <? 59) && (token_name x =? "")%string then 0
  else if (60 <=? x) && (x <=? 119) && negb (existsb (Z.eqb x) [60;61;62;63;64;66;100;101;111]) then 0
  else 1.

Fixpoint lossless (syms : list Z) (ex : nat) (empty : bool) : bool :=
  match syms with
  | [] => true
  | x :: syms' =>
      let own := if x <? 59 then count x else O in
      let under := if x <? 59 then O else count x in
      ((own + ex <=? 1)%nat || empty) && lossless syms' under (empty && (own + ex =? 0)%nat)
  end.

Definition rule_ok (r : Z * list Z * string) : bool :=
  let '(lhs, rhs, name) := r in
  (59 <=? lhs) &&
  lossless (rev rhs) 0 true &&
  ((2 <=? count lhs)%nat
   || (if (name =? "")%string
       then fold_right (fun x n => (count x + n)%nat) O rhs <=? count lhs
       else 1 <=? count lhs)%nat).

Lemma rules_lossless : forallb rule_ok rules = true.
Proof. vm_compute. reflexivity. Qed.

Lemma derivation_ind' (P : tree -> Prop) :
  (forall sym txt, 0 <= sym < 59 -> matches (lexeme sym) txt -> P (Token sym txt)) ->
  (forall r lhs rhs name kids, nth_error rules r = Some (lhs, rhs, name) ->
     map root kids = rhs -> Forall derivation kids -> Forall P kids -> P (Derived r kids)) ->
  forall t, derivation t -> P t.
Proof.
  intros H1 H2. fix IH 2. intros t D. destruct D as [sym txt B M|r lhs rhs name kids N R F].
  - apply H1; assumption.
  - apply (H2 r lhs rhs name kids N R F). clear N R. induction F as [|k kids D F IHF].
    + constructor.
    + constructor; [apply IH; exact D|exact IHF].
Qed.

Lemma rule_fact r x : nth_error rules r = Some x -> rule_ok x = true.
Proof.
  intros N. pose proof rules_lossless as R. rewrite forallb_forall in R.
  apply R, (nth_error_In _ _ N).
Qed.

Lemma root_derived t : derivation t -> match t with Token s _ => root t < 59 | Derived _ _ => 59 <= root t end.
Proof.
  intros D. inversion D; subst; cbn [root]; [lia|].
  rewrite H. apply rule_fact in H. unfold rule_ok in H. rewrite !andb_true_iff, Z.leb_le in H. lia.
Qed.

Lemma count_bound t : derivation t -> (count (root t) < 2 -> length (projection t) <= count (root t))%nat.
Proof.
  intros D. induction D using derivation_ind'.
  - cbn [root]. intros _. unfold count.
    assert (M : existsb (Z.eqb sym) many = false).
    { assert (G : forallb (fun x => 59 <=? x) many = true) by reflexivity.
      rewrite forallb_forall in G. apply not_true_is_false. rewrite existsb_exists.
      intros (x & I & E). apply Z.eqb_eq in E. subst. specialize (G _ I). apply Z.leb_le in G. lia. }
    rewrite M. destruct (Z.ltb_spec sym 59); [|lia]. cbn [projection].
    destruct ((token_name sym =? "")%string); cbn [andb].
    + cbn. lia.
    + destruct (Z.leb_spec 60 sym); [lia|]. cbn. lia.
  - pose proof (rule_fact _ _ H) as K. cbn [root]. rewrite H. intros C.
    unfold rule_ok in K. rewrite !andb_true_iff in K. destruct K as [_ K].
    apply orb_true_iff in K as [K|K]; [apply Nat.leb_le in K; lia|].
    cbn [projection]. rewrite H. destruct ((name =? "")%string).
    + apply Nat.leb_le in K.
      assert (S : (length (concat (map projection kids)) <= fold_right (fun x n => count x + n) 0 rhs)%nat).
      { assert (S0 : (fold_right (fun x n => count x + n) 0 rhs < 2)%nat) by lia.
        clear K C H. subst rhs. revert S0.
        induction H2 as [|k kids Hk F IH]; intros S0; [cbn; lia|].
        inversion H1; subst. cbn [map concat fold_right] in *. rewrite app_length.
        assert (L : (length (concat (map projection kids)) <=
                     fold_right (fun x n => count x + n) 0 (map root kids))%nat) by (apply IH; [assumption|lia]).
        assert (L2 : (length (projection k) <= count (root k))%nat) by (apply Hk; lia).
        lia. }
      lia.
    + apply Nat.leb_le in K. cbn. lia.
Qed.

Lemma count_zero t : derivation t -> count (root t) = O -> projection t = [].
Proof.
  intros D C. pose proof (count_bound t D). rewrite C in H.
  destruct (projection t); [reflexivity|cbn in H; lia].
Qed.

Lemma collect_all : forall ts ex col ne empty,
  Forall derivation ts ->
  lossless (map root ts) ne empty = true ->
  ((ne < 2)%nat -> (length ex <= ne)%nat) -> (empty = true -> col = []) ->
  last_under ts ex ++ collect ts ex col = concat (map projection (rev ts)) ++ ex ++ col.
Proof.
  induction ts as [|t ts IH]; intros ex col ne empty F L B E.
  - reflexivity.
  - inversion F as [|? ? D F']; subst. cbn [map lossless] in L.
    apply andb_true_iff in L as [L1 L2].
    set (no := if root t <? 59 then count (root t) else O) in *.
    set (nu := if root t <? 59 then O else count (root t)) in *.
    assert (BO : (no < 2)%nat -> (length (own t) <= no)%nat).
    { unfold no. pose proof (root_derived t D). destruct t; cbn [own].
      - destruct (Z.ltb_spec (root (Token sym txt)) 59); [|lia]. apply count_bound; exact D.
      - cbn. lia. }
    assert (BU : (nu < 2)%nat -> (length (under t) <= nu)%nat).
    { unfold nu. pose proof (root_derived t D). destruct t; cbn [under].
      - cbn. lia.
      - destruct (Z.ltb_spec (root (Derived prod kids)) 59); [lia|]. apply count_bound; exact D. }
    assert (CH : chain (own t ++ ex) col = own t ++ ex ++ col).
    { apply orb_true_iff in L1 as [L1|L1].
      - apply Nat.leb_le in L1.
        assert (LE : (length (own t ++ ex) <= 1)%nat) by (rewrite app_length; lia).
        rewrite app_assoc. destruct (own t ++ ex) as [|a [|b l]]; cbn in *; [reflexivity| |lia].
        destruct col; reflexivity.
      - rewrite (E L1), app_nil_r. unfold chain. destruct (own t ++ ex); reflexivity. }
    rewrite last_under_cons. cbn [collect]. rewrite CH.
    rewrite (IH (under t) _ nu _ F' L2 BU).
    + cbn [rev]. rewrite map_app, concat_app. cbn [map concat]. rewrite app_nil_r, <- (own_under t).
      rewrite !app_assoc. reflexivity.
    + intros K. apply andb_true_iff in K as [K1 K2]. apply Nat.eqb_eq in K2.
      rewrite (E K1), app_nil_r.
      destruct (own t) eqn:O; [|cbn in BO; lia]. destruct ex; [reflexivity|cbn in B; lia].
Qed.

(** * Reductions *)

(* The stack is about to be reduced by production r. *)
Definition ready (stk : list cell) (ts : list tree) (r : nat) : Prop :=
  (exists s n below, stk = Cell s n :: below /\ linked stk ts [] /\
     In (r, length (rhs_of r)) (items_of s))
  \/ (exists t ts' s n below d, stk = Cell (-1) (own t) :: Cell s n :: below /\ ts = t :: ts' /\
        derivation t /\ linked (Cell s n :: below) ts' (under t) /\
        length (rhs_of r) = S d /\ nth_error (rhs_of r) d = Some (root t) /\
        In (r, d) (items_of s)).

Lemma lossless_rule r : lossless (rev (rhs_of r)) 0 true = true.
Proof.
  unfold rhs_of. destruct (nth_error rules r) as [[[lhs rhs] name]|] eqn:N; [|reflexivity].
  apply rule_fact in N. unfold rule_ok in N. rewrite !andb_true_iff in N. tauto.
Qed.

Lemma ready_pop stk ts r : ready stk ts r ->
  exists ts1 ts2 s n below col ex,
    ts = ts1 ++ ts2 /\ map root (rev ts1) = rhs_of r /\ Forall derivation ts1 /\
    pop (length (rhs_of r)) stk [] = Ok (Cell s n :: below, col) /\
    linked (Cell s n :: below) ts2 ex /\ In (r, O) (items_of s) /\
    ex ++ col = concat (map projection (rev ts1)).
Proof.
  intros [(s0 & n0 & b0 & E & L & I)|(t & ts' & s0 & n0 & b0 & d & E & ET & D & L & LN & N & I)].
  - destruct (linked_pop r _ _ _ _ _ _ _ L E I) as
      (ts1 & ts2 & s & n & below & E1 & E2 & E3 & E4 & E5 & E6 & E7).
    rewrite firstn_all in E3.
    exists ts1, ts2, s, n, below, (collect ts1 [] []), (last_under ts1 []).
    repeat (split; [assumption || apply E7|]).
    rewrite (collect_all ts1 [] [] 0 true).
    + rewrite !app_nil_r. reflexivity.
    + exact E4.
    + rewrite <- (rev_involutive ts1), map_rev, E3. apply lossless_rule.
    + intros _. cbn. lia.
    + reflexivity.
  - destruct (linked_pop r _ _ _ _ _ _ _ L eq_refl I) as
      (ts1 & ts2 & s & n & below & E1 & E2 & E3 & E4 & E5 & E6 & E7).
    assert (R : map root (rev (t :: ts1)) = rhs_of r).
    { cbn [rev]. rewrite map_app, E3. cbn [map].
      rewrite <- (firstn_snoc _ _ _ N), <- LN. apply firstn_all. }
    assert (C : collect ts1 (under t) (chain (own t) []) = collect (t :: ts1) [] []).
    { cbn [collect]. rewrite app_nil_r. reflexivity. }
    exists (t :: ts1), ts2, s, n, below, (collect (t :: ts1) [] []), (last_under (t :: ts1) []).
    subst ts ts' stk. split; [reflexivity|]. split; [exact R|]. split; [constructor; assumption|].
    split. { rewrite LN. cbn [pop nodes]. rewrite E7, C. reflexivity. }
    split; [rewrite last_under_cons; exact E5|]. split; [exact E6|].
    rewrite (collect_all (t :: ts1) [] [] 0 true).
    + rewrite !app_nil_r. reflexivity.
    + constructor; assumption.
    + rewrite <- (rev_involutive (t :: ts1)), map_rev, R. apply lossless_rule.
    + intros _. cbn. lia.
    + reflexivity.
Qed.

(* Replacing what the base of a reduction holds. *)
Lemma linked_replace cs ts ex s n below r :
  linked cs ts ex -> cs = Cell s n :: below -> In (r, O) (items_of s) ->
  exists o, n = o ++ ex /\ (name_of r <> "" -> o = []) /\
    forall ex2, linked (Cell s (o ++ ex2) :: below) ts ex2.
Proof.
  intros L E I. subst cs. inversion L as [ex' E1 E2 E3|q t p n' cs' ts' ex' B1 B2 B3 B4 E1 E2 E3]; subst.
  - exists []. split; [reflexivity|]. split; [reflexivity|]. intros ex2. constructor.
  - exists (own t). split; [reflexivity|]. split.
    + intros N. pose proof B2 as EK. unfold edge_ok in EK. rewrite !andb_true_iff in EK.
      destruct EK as [_ EK]. rewrite !orb_true_iff in EK.
      pose proof (root_derived t B3) as RD.
      destruct t as [x w|]; [|reflexivity]. cbn [own projection root] in *.
      destruct EK as [[EK|EK]|EK].
      * rewrite EK. reflexivity.
      * apply Z.leb_le in EK. lia.
      * exfalso. rewrite forallb_forall in EK. specialize (EK _ I). cbn [fst snd] in EK.
        apply String.eqb_eq in EK. contradiction.
    + intros ex2. constructor; assumption.
Qed.

(** * One step *)

(* A state without a default production knows what to do with every symbol
   its scanner accepts. *)
Definition reject_ok (p : Z) : bool :=
  negb (nth (Z.to_nat p) def_prod (-2) =? -1)
  || (nth (Z.to_nat p) dfa_select (-2) =? -1)
  || match nth_error machines (Z.to_nat (nth (Z.to_nat p) dfa_select (-2))) with
     | Some cells => forallb (fun c => (snd c =? 0)
         || match find_entry (row actions p) (snd c - 1) with Some _ => true | None => false end) cells
     | None => false
     end.

Lemma rejects_ok : forallb reject_ok (upto 176) = true.
Proof. vm_compute. reflexivity. Qed.

Lemma reject_fact p : 0 <= p < 176 -> reject_ok p = true.
Proof.
  intros H. pose proof rejects_ok as S. rewrite forallb_forall in S.
  apply S, upto_In. cbn. lia.
Qed.

(* What get_sym can find. *)
Definition sound (s : Z) (text : list ascii) (f : found) : Prop :=
  text = [] /\ f = Found 0 0 0
  \/ text <> [] /\ fsym f = -1 /\ flen f = O
  \/ 1 <= fsym f < 59 /\ (0 < flen f <= length text)%nat /\
     matches (lexeme (fsym f)) (firstn (flen f) text) /\
     exists cells l, 0 <= nth (Z.to_nat s) dfa_select (-2) /\
       nth_error machines (Z.to_nat (nth (Z.to_nat s) dfa_select (-2))) = Some cells /\
       In (l, fsym f + 1) cells.

Lemma machine_exists m : 0 <= m < 70 -> exists cells, nth_error machines (Z.to_nat m) = Some cells.
Proof.
  intros Hm. destruct (nth_error machines (Z.to_nat m)) eqn:N; [eauto|].
  apply nth_error_None in N. assert (L : length machines = 70%nat) by (vm_compute; reflexivity). lia.
Qed.

Lemma get_sym_sound s text : 0 <= s < 176 -> exists f, get_sym s text = Ok f /\ sound s text f.
Proof.
  intros H. unfold get_sym. destruct lengths_ok as (_ & _ & _ & L & _).
  rewrite (nth_rd dfa_select s (-2) L H). cbn [bind].
  destruct text as [|c text]; [eexists; split; [reflexivity|left; auto]|].
  pose proof (state_fact s H) as K. unfold state_ok in K. rewrite !andb_true_iff in K.
  destruct K as [[_ [K1 K2]] _]. apply Z.leb_le in K1. apply Z.ltb_lt in K2.
  set (m := nth (Z.to_nat s) dfa_select (-2)) in *.
  destruct (Z.ltb_spec (-1) m).
  - assert (Hm : 0 <= m < 70) by lia.
    destruct (machine_exists m Hm) as [cells N].
    assert (Z0 : 0 <= 0 < states_of m).
    { unfold states_of. rewrite N. destruct tables_ok as (OK & _). rewrite forallb_forall in OK.
      specialize (OK _ (nth_error_In _ _ N)). unfold row_ok in OK.
      apply andb_true_iff in OK as [_ OK]. apply Z.leb_le in OK. lia. }
    destruct (scan_total m Hm (c :: text) 0 O (-1, O) Z0) as (f & E & _).
    exists f. split; [exact E|].
    destruct (scan_lexeme m _ f Hm E) as [[G1 G2]|(G1 & G2 & G3)].
    + right. left. split; [discriminate|auto].
    + right. right. split; [exact G1|]. split; [exact G2|]. split; [exact G3|].
      destruct (scan_accepts m cells Hm N _ _ _ _ _ Z0 E) as [G|[l G]]; [cbn in G; lia|].
      exists cells, l. fold m. split; [lia|]. split; assumption.
  - eexists. split; [reflexivity|]. right. left. split; [discriminate|auto].
Qed.

Lemma get_act_cases s sym : 0 <= s < 176 ->
  (exists a i, get_act s sym = Ok (Some (a, i)) /\
     (find_entry (row actions s) sym = Some (a, i) /\ entry_ok true s (sym, a, i) = true
      \/ a = 1 /\ complete_ok s i = true /\ i <> 206 /\ i <> 269))
  \/ get_act s sym = Ok None /\ find_entry (row actions s) sym = None /\
     nth (Z.to_nat s) def_prod (-2) = -1.
Proof.
  intros H. destruct lengths_ok as (LA & _ & LD & _).
  pose proof (state_fact s H) as K. unfold state_ok in K. rewrite !andb_true_iff in K.
  destruct K as [[[[K1 _] K2] _] _].
  unfold get_act. rewrite (row_rd actions s LA H). cbn [bind].
  destruct (find_entry (row actions s) sym) as [[a i]|] eqn:F.
  - left. exists a, i. rewrite forallb_forall in K1. specialize (K1 _ (find_entry_In _ _ _ _ F)).
    split; [|left; auto].
    destruct (Z.eqb_spec a 0); [|reflexivity]. subst a. unfold entry_ok in K1.
    rewrite andb_true_iff in K1. destruct K1 as [_ K1]. discriminate.
  - rewrite (nth_rd def_prod s (-2) LD H). cbn [bind].
    set (d := nth (Z.to_nat s) def_prod (-2)) in *. cbv zeta in K2.
    apply orb_true_iff in K2 as [K2|K2].
    + apply Z.eqb_eq in K2. rewrite K2. right. auto.
    + rewrite !andb_true_iff, !negb_true_iff, !Z.eqb_neq in K2. destruct K2 as [[K2 K3] K4].
      left. exists 1, d. pose proof K2 as K2'. unfold complete_ok in K2'.
      rewrite !andb_true_iff, Z.leb_le in K2'. destruct (Z.ltb_spec (-1) d); [|lia].
      split; [reflexivity|]. right. auto.
Qed.

Definition body (ts : list tree) : list ascii := concat (map text_of (rev ts)).

Lemma body_cons t ts : body (t :: ts) = body ts ++ text_of t.
Proof. unfold body. cbn [rev]. rewrite map_app, concat_app. cbn. rewrite app_nil_r. reflexivity. Qed.

Lemma body_app ts1 ts2 : body (ts1 ++ ts2) = body ts2 ++ body ts1.
Proof. unfold body. rewrite rev_app_distr, map_app, concat_app. reflexivity. Qed.

(* The trees on the stack and the remaining text make up the input. *)
Definition inv (all : list ascii) (ts : list tree) (cfg : config) : Prop :=
  body ts ++ text cfg = all /\
  match next cfg with
  | Look => linked (stack cfg) ts []
  | Reduce i => 0 <= i < 270 /\ ready (stack cfg) ts (Z.to_nat i) /\
                (i = 206 \/ i = 269 -> text cfg = [])
  end.

Fixpoint size (t : tree) : nat :=
  match t with
  | Token _ _ => 1
  | Derived _ kids => S (list_sum (map size kids))
  end.

Definition measure (ts : list tree) (cfg : config) : nat :=
  (2 * list_sum (map size ts) + match next cfg with Look => 0 | Reduce _ => 1 end)%nat.

(* How a pushed cell continues. *)
Lemma pushed all t ts s n below a i cfg' terminal :
  linked (Cell s n :: below) ts (under t) -> 0 <= s < 176 -> derivation t ->
  entry_ok terminal s (root t, a, i) = true -> a <> 1 ->
  body (t :: ts) ++ text cfg' = all ->
  stack cfg' = Cell (target a i) (own t) :: Cell s n :: below ->
  next cfg' = after a i ->
  (root t = 0 \/ root t = 120 -> text cfg' = []) ->
  inv all (t :: ts) cfg'.
Proof.
  intros L Hs D E A B SK NX T. unfold entry_ok in E. rewrite andb_true_iff in E. destruct E as [_ E].
  rewrite !orb_true_iff, !andb_true_iff in E.
  split; [exact B|]. rewrite NX, SK.
  destruct E as [[[E1 E2]|[[[E1 E2] E3] E4]]|[[[[E1 _] _] _] _]].
  - apply Z.eqb_eq in E1. subst a. cbn [after target Z.testbit Pos.testbit].
    rewrite <- (app_nil_r (own t)). constructor; assumption.
  - apply Z.eqb_eq in E1. subst a. cbn [after target Z.testbit Pos.testbit].
    unfold last_ok in E2. rewrite !andb_true_iff, Z.leb_le, Z.ltb_lt in E2.
    destruct E2 as [[E2 E2'] E5].
    split; [lia|]. split.
    + right. destruct (length (rhs_of (Z.to_nat i))) as [|d] eqn:LN; [discriminate|].
      apply andb_true_iff in E5 as [E5 E6]. apply item_in_In in E5.
      destruct (nth_error (rhs_of (Z.to_nat i)) d) as [y|] eqn:N; [|discriminate].
      apply Z.eqb_eq in E6. subst y.
      exists t, ts, s, n, below, d. repeat (split; [assumption || reflexivity|]). assumption.
    + intros [ -> | -> ]; apply T.
      * rewrite orb_true_iff in E3. destruct E3 as [E3|E3]; [discriminate|]. apply Z.eqb_eq in E3. auto.
      * rewrite orb_true_iff in E4. destruct E4 as [E4|E4]; [discriminate|]. apply Z.eqb_eq in E4. auto.
  - apply Z.eqb_eq in E1. contradiction.
Qed.

Lemma symbol_names x : 0 <= x < 59 -> exists b, rd symbols x = Ok (token_name x, b).
Proof.
  intros H. destruct (greedy x) as [e E]; [lia|]. exists true. rewrite E.
  pose proof token_names as T. pose proof (rd_ok _ _ _ E) as [_ N].
  apply (f_equal (fun l => nth_error l (Z.to_nat x))) in T. cbv beta in T.
  rewrite !nth_error_map in T.
  assert (N1 : nth_error (upto 59) (Z.to_nat x) = Some x).
  { assert (G : forallb (fun y => match nth_error (upto 59) (Z.to_nat y) with
                                  | Some z => z =? y | None => false end) (upto 59) = true)
      by (vm_compute; reflexivity).
    rewrite forallb_forall in G. specialize (G x (upto_In 59 x H)).
    destruct (nth_error (upto 59) (Z.to_nat x)); [|discriminate].
    apply Z.eqb_eq in G. congruence. }
  rewrite N1 in T.
  assert (N2 : nth_error (firstn 59 symbols) (Z.to_nat x) = Some (e, true)).
  { rewrite <- N. rewrite <- (firstn_skipn 59 symbols) at 2. symmetry. apply nth_error_app1. rewrite firstn_length. assert (length symbols = 234%nat) by (vm_compute; reflexivity). lia. }
  rewrite N2 in T. cbn in T. congruence.
Qed.
