(* Every derivation has a preferred one with the same tokens; which texts are
   accepted. *)
From Coq Require Import ZArith String Ascii List Bool Lia.
From Verif Require Import Base Tables Parser ParserSpec Grammar GrammarSpec LexFacts LexFacts2 ParserCert ParserFacts ParserFacts2 ParserFacts3 ParserFacts8.
From Verif Require Import ParserAhead ParserFacts9 ParserFacts10 ParserFacts11 ParserFacts12.
Import ListNotations.
Open Scope string_scope.
Open Scope list_scope.
Open Scope Z_scope.

(** * Places *)

Lemma suit_all_zero r f d ks : (forall e, kid_place r f e = O) -> suit_all r f d ks = forallb (suits 0) ks.
Proof.
  intros H. revert d. induction ks as [|k ks IH]; intros d; [reflexivity|].
  cbn [suit_all forallb]. rewrite H, IH. reflexivity.
Qed.

(* The productions at which places matter. *)
Definition ordinary (r : nat) : bool := negb (existsb (Nat.eqb r) [4; 13; 19; 28; 107]%nat).

Lemma ordinary_place r f e : ordinary r = true -> (r = 62%nat -> f <> 2%nat) -> kid_place r f e = O.
Proof.
  unfold ordinary, kid_place. cbn [existsb]. rewrite negb_true_iff, !orb_false_iff.
  intros (-> & -> & -> & -> & -> & _) F. cbn [orb andb]. rewrite andb_false_r.
  destruct (Nat.eqb_spec r 62) as [E|]; [|reflexivity].
  destruct (Nat.eqb_spec f 2); [destruct (F E); assumption|reflexivity].
Qed.

Lemma ordinary_suits r kids : ordinary r = true -> suits 0 (Derived r kids) = forallb (suits 0) kids.
Proof.
  intros O. rewrite suits_derived. cbn [allowed Nat.eqb andb orb negb].
  apply suit_all_zero. intros e. apply ordinary_place; [exact O|discriminate].
Qed.

Lemma sentence_suits r k : In r [4; 13; 19; 28]%nat -> suits 0 (Derived r [k]) = suits 1 k.
Proof.
  intros I. rewrite suits_derived. cbn [allowed Nat.eqb andb orb negb suit_all].
  rewrite andb_true_r. f_equal. unfold kid_place. cbn [Nat.eqb andb].
  assert (E : existsb (Nat.eqb r) [4; 13; 19; 28]%nat = true).
  { apply existsb_exists. exists r. split; [exact I|apply Nat.eqb_refl]. }
  rewrite E. reflexivity.
Qed.

Lemma suits_one r kids : r <> 66%nat -> suits 1 (Derived r kids) = suits 0 (Derived r kids).
Proof.
  intros N. rewrite !suits_derived. unfold allowed. destruct (Nat.eqb_spec r 66); [contradiction|].
  cbn [Nat.eqb andb orb negb].
  assert (G : forall d, suit_all r 1 d kids = suit_all r 0 d kids); [|apply G].
  induction kids as [|k kids IH]; intros d; [reflexivity|].
  cbn [suit_all]. rewrite IH. f_equal.
Qed.

Lemma suits_two r kids : r <> 67%nat -> r <> 62%nat -> suits 2 (Derived r kids) = suits 0 (Derived r kids).
Proof.
  intros N N'. rewrite !suits_derived. unfold allowed. destruct (Nat.eqb_spec r 67); [contradiction|].
  cbn [Nat.eqb andb orb negb].
  assert (G : forall d, suit_all r 2 d kids = suit_all r 0 d kids); [|apply G].
  induction kids as [|k kids IH]; intros d; [reflexivity|].
  cbn [suit_all]. rewrite IH. f_equal. unfold kid_place. destruct (Nat.eqb_spec r 62); [contradiction|].
  cbn [andb]. reflexivity.
Qed.

Lemma product_suits p t m q : suits 0 (Derived 107 [p; t; m; q]) = suits 0 p && suits 2 t && suits 0 m && suits 0 q.
Proof.
  rewrite suits_derived. cbn [allowed Nat.eqb andb orb negb suit_all].
  change (kid_place 107 0 0) with 0%nat. change (kid_place 107 0 1) with 2%nat.
  change (kid_place 107 0 2) with 0%nat. change (kid_place 107 0 3) with 0%nat.
  rewrite andb_true_r, !andb_assoc. reflexivity.
Qed.

Lemma term_suits f k : suits f (Derived 62 [k]) = suits (if (f =? 2)%nat then 2 else 0) k.
Proof.
  rewrite suits_derived. unfold allowed. cbn [Nat.eqb suit_all].
  rewrite !andb_false_r. cbn [orb negb]. rewrite andb_true_r.
  unfold kid_place. cbn [Nat.eqb existsb orb andb]. reflexivity.
Qed.

(** * The preferred reading *)

(* The second kind of overlap, where it can be resolved. *)
Definition spoiled (t : tree) : Prop :=
  exists p op m q, t = Derived 107 [p; Derived 62 [Derived 67 [op]]; m; q] /\
    suits 0 p = true /\ suits 0 op = true /\ suits 0 m = true /\ suits 0 q = true.

Definition nearly (t : tree) : Prop :=
  suits 0 t = true \/ root t = 192 /\ spoiled t
  \/ root t = 194 /\ exists u, t = Derived 71 [u] /\ spoiled u.

Definition same_tokens (t t' : tree) : Prop :=
  derivation t' /\ root t' = root t /\ tokens t' = tokens t.

Lemma derived_inv r kids : derivation (Derived r kids) ->
  exists lhs rhs name, nth_error rules r = Some (lhs, rhs, name) /\ map root kids = rhs /\ Forall derivation kids.
Proof. intros D. inversion D; subst. eauto 7. Qed.

Lemma derived_rule r kids lhs rhs name : nth_error rules r = Some (lhs, rhs, name) ->
  derivation (Derived r kids) -> map root kids = rhs /\ Forall derivation kids.
Proof.
  intros N D. destruct (derived_inv _ _ D) as (l & h & n & E & M & F). rewrite N in E.
  injection E as _ <- _. auto.
Qed.

Lemma root_rule t x : derivation t -> root t = x -> 59 <= x ->
  exists r kids, t = Derived r kids /\ In r (nth (Z.to_nat x) choices []).
Proof.
  intros D E H. destruct t as [sy txt|r kids].
  { cbn in E. inversion D; subst. lia. }
  exists r, kids. split; [reflexivity|].
  destruct (derived_inv _ _ D) as (lhs & rhs & name & N & M & F).
  assert (R : (r < 270)%nat).
  { destruct lengths_ok as (_ & _ & _ & _ & _ & LR). rewrite <- LR. apply nth_error_Some. congruence. }
  pose proof (choice_In r R) as C. unfold lhs_of in C. rewrite N in C.
  cbn [root] in E. rewrite N in E. rewrite <- E. exact C.
Qed.

Lemma tree_ind' (P : tree -> Prop) :
  (forall sy txt, P (Token sy txt)) -> (forall r kids, Forall P kids -> P (Derived r kids)) -> forall t, P t.
Proof.
  intros H1 H2. fix IH 1. intros [sy txt|r kids]; [apply H1|]. apply H2.
  induction kids as [|k kids IHk]; constructor; [apply IH|exact IHk].
Qed.

(* A list of arguments, taken as one of an operation. *)
Definition argument (t t' : tree) : Prop :=
  derivation t' /\ root t' = 202 /\ tokens t' = tokens t /\ suits 0 t' = true.

Lemma argument_one a : derivation a -> root a = 165 -> suits 0 a = true ->
  exists a', derivation a' /\ root a' = 203 /\ tokens a' = tokens a /\ suits 0 a' = true.
Proof.
  intros D R S. destruct (root_rule _ _ D R ltac:(lia)) as (r & kids & -> & I).
  vm_compute in I. destruct I as [<-|[]].
  destruct (derived_rule 108 _ _ _ _ eq_refl D) as (M & F).
  exists (Derived 38 kids). split; [|split; [reflexivity|split; [reflexivity|]]].
  - eapply (D_derived 38); [reflexivity|exact M|exact F].
  - rewrite ordinary_suits in S |- * by reflexivity. exact S.
Qed.

Lemma arguments t : derivation t -> root t = 164 -> suits 0 t = true -> exists t', argument t t'.
Proof.
  induction t as [sy txt|r kids IH] using tree_ind'; intros D R S; [inversion D; cbn in R; lia|].
  destruct (root_rule _ _ D R ltac:(lia)) as (r' & kids' & E & I).
  injection E as <- <-. vm_compute in I. destruct I as [<-|[<-|[]]].
  - destruct (derived_rule 109 _ _ _ _ eq_refl D) as (M & F).
    destruct kids as [|m [|a [|]]]; try discriminate. cbn [map] in M. injection M as R1 R2.
    rewrite ordinary_suits in S by reflexivity. cbn [forallb] in S. rewrite !andb_true_iff in S.
    destruct S as (S1 & S2 & _). rewrite !Forall_cons_iff in F. destruct F as (F1 & F2 & _).
    rewrite !Forall_cons_iff in IH. destruct IH as (IH & _).
    destruct (IH F1 R1 S1) as (m' & D1 & D2 & D3 & D4).
    destruct (argument_one a F2 R2 S2) as (a' & A1 & A2 & A3 & A4).
    exists (Derived 39 [m'; a']). split; [|split; [reflexivity|split]].
    + eapply (D_derived 39); [reflexivity| |auto]. cbn [map]. rewrite D2, A2. reflexivity.
    + cbn [tokens map concat]. rewrite D3, A3. reflexivity.
    + rewrite ordinary_suits by reflexivity. cbn [forallb]. rewrite D4, A4. reflexivity.
  - destruct (derived_rule 110 _ _ _ _ eq_refl D) as (M & F).
    destruct kids as [|a [|]]; try discriminate. cbn [map] in M. injection M as R2.
    rewrite ordinary_suits in S by reflexivity. cbn [forallb] in S. rewrite !andb_true_iff in S.
    destruct S as (S2 & _). rewrite !Forall_cons_iff in F. destruct F as (F2 & _).
    destruct (argument_one a F2 R2 S2) as (a' & A1 & A2 & A3 & A4).
    exists (Derived 40 [a']). split; [|split; [reflexivity|split]].
    + eapply (D_derived 40); [reflexivity| |auto]. cbn [map]. rewrite A2. reflexivity.
    + cbn [tokens map concat]. rewrite A3. reflexivity.
    + rewrite ordinary_suits by reflexivity. cbn [forallb]. rewrite A4. reflexivity.
Qed.

(* What is in a rejected product is an operation. *)
Lemma repaired t : derivation t -> spoiled t ->
  exists t', derivation t' /\ root t' = 227 /\ tokens t' = tokens t /\ suits 0 t' = true.
Proof.
  intros D (p & op & m & q & -> & S1 & S2 & S3 & S4).
  destruct (derived_rule 107 _ _ _ _ eq_refl D) as (M & F).
  cbn [map] in M. injection M as R1 R3 R4. rewrite !Forall_cons_iff in F. destruct F as (F1 & F2 & F3 & F4 & _).
  destruct (derived_rule 62 _ _ _ _ eq_refl F2) as (_ & G). rewrite !Forall_cons_iff in G. destruct G as (G & _).
  destruct (derived_rule 67 _ _ _ _ eq_refl G) as (M & F).
  cbn [map] in M. injection M as R2. rewrite !Forall_cons_iff in F. destruct F as (F & _).
  destruct (arguments m F3 R3 S3) as (m' & D1 & D2 & D3 & D4).
  exists (Derived 37 [p; op; Derived 41 [m']; q]). split; [|split; [reflexivity|split]].
  - eapply (D_derived 37); [reflexivity| |].
    + cbn [map]. rewrite R1, R2, R4. reflexivity.
    + repeat constructor; try assumption. eapply (D_derived 41); [reflexivity| |auto]. cbn [map]. rewrite D2. reflexivity.
  - cbn [tokens map concat]. rewrite D3, !app_nil_r. reflexivity.
  - rewrite ordinary_suits by reflexivity. cbn [forallb]. rewrite S1, S2, S4.
    rewrite ordinary_suits by reflexivity. cbn [forallb]. rewrite D4. reflexivity.
Qed.

Lemma rule_kid r : (r < 270)%nat -> ordinary r = true -> r <> 71%nat -> r <> 65%nat ->
  Forall (fun x => x <> 192 /\ x <> 194) (rhs_of r).
Proof.
  intros B O N1 N2.
  assert (K : forallb (fun r => if ordinary r then if (r =? 71)%nat then true else if (r =? 65)%nat then true
    else forallb (fun x => negb (x =? 192) && negb (x =? 194)) (rhs_of r) else true) (seq 0 270) = true)
    by (vm_compute; reflexivity).
  rewrite forallb_forall in K. specialize (K r (proj2 (in_seq 270 0 r) ltac:(lia))).
  cbv beta in K. rewrite O in K. destruct (Nat.eqb_spec r 71); [contradiction|]. destruct (Nat.eqb_spec r 65); [contradiction|].
  rewrite forallb_forall in K. apply Forall_forall. intros x I. specialize (K x I).
  rewrite andb_true_iff, !negb_true_iff, !Z.eqb_neq in K. exact K.
Qed.

Lemma nearly_suits t : nearly t -> root t <> 192 -> root t <> 194 -> suits 0 t = true.
Proof. intros [H|[[H _]|[H _]]] N1 N2; [exact H|contradiction|contradiction]. Qed.

Lemma settled kids : Forall derivation kids ->
  Forall (fun t => derivation t -> exists t', same_tokens t t' /\ nearly t') kids ->
  exists kids', Forall derivation kids' /\ map root kids' = map root kids
    /\ concat (map tokens kids') = concat (map tokens kids) /\ Forall nearly kids'.
Proof.
  induction kids as [|k kids IH]; intros D F; [exists []; auto|].
  rewrite !Forall_cons_iff in D, F. destruct D as (D1 & D2), F as (F1 & F2).
  destruct (F1 D1) as (k' & (K1 & K2 & K3) & K4). destruct (IH D2 F2) as (ks & A1 & A2 & A3 & A4).
  exists (k' :: ks). cbn [map concat]. rewrite K2, K3, A2, A3. auto.
Qed.

Lemma all_suit kids : Forall nearly kids -> Forall (fun x => x <> 192 /\ x <> 194) (map root kids) ->
  forallb (suits 0) kids = true.
Proof.
  induction kids as [|k kids IH]; intros N R; [reflexivity|].
  cbn [map] in R. rewrite !Forall_cons_iff in N, R. destruct N as (N1 & N2), R as ((R1 & R1') & R2).
  cbn [forallb]. rewrite (nearly_suits _ N1 R1 R1'), (IH N2 R2). reflexivity.
Qed.

Lemma preferable t : derivation t -> exists t', same_tokens t t' /\ nearly t'.
Proof.
  induction t as [sy txt|r kids IH] using tree_ind'; intros D.
  { exists (Token sy txt). split; [split; [exact D|split; reflexivity]|]. left. reflexivity. }
  destruct (derived_inv _ _ D) as (lhs & rhs & name & N & M & F).
  destruct (settled kids F IH) as (ks & A1 & A2 & A3 & A4). clear IH.
  assert (D' : derivation (Derived r ks)) by (eapply D_derived; [exact N|congruence|exact A1]).
  assert (ST : same_tokens (Derived r kids) (Derived r ks)).
  { split; [exact D'|split; [reflexivity|exact A3]]. }
  assert (R : (r < 270)%nat).
  { destruct lengths_ok as (_ & _ & _ & _ & _ & LR). rewrite <- LR. apply nth_error_Some. congruence. }
  destruct (ordinary r) eqn:O.
  - destruct (Nat.eq_dec r 71) as [->|N71].
    { destruct (derived_rule 71 _ _ _ _ eq_refl D') as (M' & F'). destruct ks as [|u [|]]; try discriminate.
      injection M' as RU. exists (Derived 71 [u]). split; [exact ST|].
      rewrite Forall_cons_iff in A4. destruct A4 as ([S|[[_ S]|[S _]]] & _).
      - left. rewrite ordinary_suits by reflexivity. cbn [forallb]. rewrite S. reflexivity.
      - right. right. split; [reflexivity|]. eauto.
      - rewrite RU in S. discriminate. }
    destruct (Nat.eq_dec r 65) as [->|N65].
    { destruct (derived_rule 65 _ _ _ _ eq_refl D') as (M' & F'). destruct ks as [|u [|]]; try discriminate.
      injection M' as RU.
      rewrite Forall_cons_iff in A4. destruct A4 as ([S|[[S _]|[_ (v & -> & S)]]] & _).
      - exists (Derived 65 [u]). split; [exact ST|].
        left. rewrite ordinary_suits by reflexivity. cbn [forallb]. rewrite S. reflexivity.
      - rewrite RU in S. discriminate.
      - rewrite Forall_cons_iff in F'. destruct F' as (F' & _).
        destruct (derived_rule 71 _ _ _ _ eq_refl F') as (_ & G). rewrite Forall_cons_iff in G. destruct G as (G & _).
        destruct (repaired v G S) as (w & W1 & W2 & W3 & W4).
        exists (Derived 66 [w]). split; [split; [|split; [reflexivity|]]|].
        + eapply (D_derived 66); [reflexivity| |auto]. cbn [map]. rewrite W2. reflexivity.
        + cbn [tokens map concat] in A3 |- *. rewrite W3, <- A3, !app_nil_r. reflexivity.
        + left. rewrite ordinary_suits by reflexivity. cbn [forallb]. rewrite W4. reflexivity. }
    exists (Derived r ks). split; [exact ST|]. left. rewrite ordinary_suits by exact O.
    apply all_suit; [exact A4|].
    replace (map root ks) with (rhs_of r); [apply rule_kid; assumption|].
    unfold rhs_of. rewrite N. congruence.
  - unfold ordinary in O. rewrite negb_false_iff in O. apply existsb_exists in O. destruct O as (r' & I & E).
    apply Nat.eqb_eq in E. subst r'.
    assert (C : In r [4; 13; 19; 28]%nat \/ r = 107%nat) by (cbn in I |- *; intuition lia). clear I.
    destruct C as [I| ->].
    + assert (NR : exists l, nth_error rules r = Some (l, [228], "") /\ nth_error rules (S r) = Some (l, [227], "") /\ ordinary (S r) = true).
      { cbn in I. destruct I as [<-|[<-|[<-|[<-|[]]]]]; eexists; repeat split. }
      destruct NR as (l & N1 & N2 & N3).
      destruct (derived_rule r _ _ _ _ N1 D') as (M' & F'). destruct ks as [|u [|]]; try discriminate.
      injection M' as RU. rewrite Forall_cons_iff in A4, F'. destruct A4 as (SU & _), F' as (DU & _).
      apply nearly_suits in SU; [|rewrite RU; discriminate|rewrite RU; discriminate].
      destruct (root_rule u _ DU RU ltac:(lia)) as (r' & us & -> & _).
      destruct (Nat.eq_dec r' 66) as [->|NE].
      * destruct (derived_rule 66 _ _ _ _ eq_refl DU) as (M' & F'). destruct us as [|st [|]]; try discriminate.
        injection M' as RS. exists (Derived (S r) [st]). split; [split; [|split]|].
        -- eapply D_derived; [exact N2| |exact F']. cbn [map]. rewrite RS. reflexivity.
        -- cbn [root]. rewrite N1, N2. reflexivity.
        -- cbn [tokens map concat] in A3 |- *. rewrite <- A3, !app_nil_r. reflexivity.
        -- left. rewrite ordinary_suits by exact N3. rewrite ordinary_suits in SU by reflexivity. exact SU.
      * exists (Derived r [Derived r' us]). split; [exact ST|]. left.
        rewrite sentence_suits by exact I. rewrite suits_one by exact NE. exact SU.
    + destruct (derived_rule 107 _ _ _ _ eq_refl D') as (M' & F').
      destruct ks as [|p [|u [|m [|q [|]]]]]; try discriminate. injection M' as R1 R2 R3 R4.
      rewrite !Forall_cons_iff in A4, F'. destruct A4 as (S1 & S2 & S3 & S4 & _), F' as (F1 & F2 & F3 & F4 & _).
      apply nearly_suits in S1; [|rewrite R1; discriminate|rewrite R1; discriminate].
      apply nearly_suits in S2; [|rewrite R2; discriminate|rewrite R2; discriminate].
      apply nearly_suits in S3; [|rewrite R3; discriminate|rewrite R3; discriminate].
      apply nearly_suits in S4; [|rewrite R4; discriminate|rewrite R4; discriminate].
      exists (Derived 107 [p; u; m; q]). split; [exact ST|].
      destruct (root_rule u _ F2 R2 ltac:(lia)) as (r & us & -> & I). vm_compute in I.
      destruct I as [<-|[<-|[]]].
      { left. rewrite product_suits, suits_two by discriminate. rewrite S1, S2, S3, S4. reflexivity. }
      destruct (derived_rule 62 _ _ _ _ eq_refl F2) as (M' & F'). destruct us as [|k [|]]; try discriminate.
      injection M' as RK. rewrite Forall_cons_iff in F'. destruct F' as (FK & _).
      destruct (root_rule k _ FK RK ltac:(lia)) as (r' & us & -> & I).
      rewrite term_suits in S2. cbn [Nat.eqb] in S2.
      destruct (Nat.eq_dec r' 67) as [->|NE].
      * right. left. split; [reflexivity|].
        destruct (derived_rule 67 _ _ _ _ eq_refl FK) as (M' & F'). destruct us as [|op [|]]; try discriminate.
        rewrite ordinary_suits in S2 by reflexivity. cbn [forallb] in S2. rewrite andb_true_r in S2.
        exists p, op, m, q. auto.
      * left. rewrite product_suits, term_suits. cbn [Nat.eqb].
        assert (N62 : r' <> 62%nat).
        { intros ->. vm_compute in I. repeat (destruct I as [I|I]; [discriminate|]). exact I. }
        rewrite suits_two by assumption. rewrite S1, S2, S3, S4. reflexivity.
Qed.

Theorem preferable_goal t : derivation t -> root t = 59 ->
  exists t', derivation t' /\ root t' = 59 /\ tokens t' = tokens t /\ suits 0 t' = true.
Proof.
  intros D R. destruct (preferable t D) as (t' & (D' & R' & T) & N).
  exists t'. rewrite R', R. repeat split; try assumption.
  apply nearly_suits; [exact N|rewrite R', R; discriminate|rewrite R', R; discriminate].
Qed.

(** * Preferred derivations *)

Lemma preferred_kid r kids k : preferred (Derived r kids) -> In k kids -> preferred k.
Proof. intros P I u U. apply P. eapply P_kid; eassumption. Qed.

Lemma preferred_places t : derivation t -> preferred t ->
  suits 0 t = true
  /\ ((forall kids, t <> Derived 66 kids) -> suits 1 t = true)
  /\ ((forall kids, t <> Derived 67 kids) -> (forall kids, t <> Derived 62 [Derived 67 kids]) -> suits 2 t = true).
Proof.
  induction t as [sy txt|r kids IH] using tree_ind'; intros D P; [repeat split|].
  assert (IH' : forall k, In k kids -> derivation k -> suits 0 k = true
    /\ ((forall kids, k <> Derived 66 kids) -> suits 1 k = true)
    /\ ((forall kids, k <> Derived 67 kids) -> (forall kids, k <> Derived 62 [Derived 67 kids]) -> suits 2 k = true)).
  { intros k I DK. rewrite Forall_forall in IH. apply (IH k I DK). eapply preferred_kid; eassumption. }
  clear IH. rename IH' into IH.
  destruct (derived_inv _ _ D) as (lhs & rhs & name & N & M & F).
  assert (Z0 : suits 0 (Derived r kids) = true).
  { destruct (ordinary r) eqn:O.
    - rewrite ordinary_suits by exact O. apply forallb_forall. intros k I. apply (IH k I).
      rewrite Forall_forall in F. apply F, I.
    - unfold ordinary in O. rewrite negb_false_iff in O. apply existsb_exists in O. destruct O as (r' & I & E).
      apply Nat.eqb_eq in E. subst r'.
      assert (C : In r [4; 13; 19; 28]%nat \/ r = 107%nat) by (cbn in I |- *; intuition lia). clear I.
      destruct C as [I| ->].
      + assert (NR : exists l, nth_error rules r = Some (l, [228], "")).
        { cbn in I. destruct I as [<-|[<-|[<-|[<-|[]]]]]; eexists; repeat split. }
        destruct NR as (l & N1).
        destruct (derived_rule r _ _ _ _ N1 D) as (M' & F'). destruct kids as [|u [|]]; try discriminate.
        rewrite sentence_suits by exact I. rewrite Forall_cons_iff in F'.
        apply (IH u); [now left|apply F'|]. intros ks ->.
        apply (P _ (P_whole _)). left. exists r, ks. auto.
      + destruct (derived_rule 107 _ _ _ _ eq_refl D) as (M' & F').
        destruct kids as [|p [|u [|m [|q [|]]]]]; try discriminate. injection M' as R1 R2 R3 R4.
        rewrite !Forall_cons_iff in F'. destruct F' as (F1 & F2 & F3 & F4 & _).
        rewrite product_suits.
        rewrite (proj1 (IH p ltac:(cbn; tauto) F1)), (proj1 (IH m ltac:(cbn; tauto) F3)), (proj1 (IH q ltac:(cbn; tauto) F4)).
        rewrite !andb_true_r. cbn [andb]. apply (IH u); [cbn; tauto|exact F2| |].
        * intros ks ->. discriminate.
        * intros ks ->. apply (P _ (P_whole _)). right. eauto. }
  split; [exact Z0|]. split.
  - intros NE. rewrite suits_one; [exact Z0|]. intros ->. apply (NE kids). reflexivity.
  - intros NE NE2. destruct (Nat.eq_dec r 62) as [->|N62].
    + destruct (derived_rule 62 _ _ _ _ eq_refl D) as (M' & F'). destruct kids as [|u [|]]; try discriminate.
      injection M' as RU. rewrite term_suits. cbn [Nat.eqb]. rewrite Forall_cons_iff in F'.
      apply (IH u); [now left|apply F'| |].
      * intros ks ->. apply (NE2 ks). reflexivity.
      * intros ks ->. discriminate.
    + rewrite suits_two; [exact Z0| |exact N62]. intros ->. apply (NE kids). reflexivity.
Qed.

Lemma suits_zero f t : suits f t = true -> derivation t -> suits 0 t = true.
Proof.
  revert f. induction t as [sy txt|r kids IH] using tree_ind'; intros f S D; [reflexivity|].
  destruct (derived_inv _ _ D) as (lhs & rhs & name & N & M & F).
  rewrite suits_derived in S |- *. rewrite andb_true_iff in S |- *. destruct S as (_ & S).
  split; [reflexivity|]. clear N M D.
  assert (G : forall d, suit_all r f d kids = true -> suit_all r 0 d kids = true); [|apply G, S].
  clear S. induction kids as [|k kids IHk]; intros d S; [reflexivity|].
  cbn [suit_all] in S |- *. rewrite andb_true_iff in S. destruct S as (S1 & S2).
  rewrite !Forall_cons_iff in IH, F. rewrite (IHk (proj2 IH) (proj2 F) _ S2), andb_true_r.
  unfold kid_place in S1 |- *. destruct ((d =? 0)%nat && existsb (Nat.eqb r) [4; 13; 19; 28]%nat); [exact S1|].
  destruct ((r =? 107)%nat && (d =? 1)%nat); [exact S1|].
  cbn [Nat.eqb]. rewrite andb_false_r. exact (proj1 IH _ S1 (proj1 F)).
Qed.

Lemma suits_preferred t : derivation t -> suits 0 t = true -> preferred t.
Proof.
  intros D S u U. induction U as [|r kids t I U IH].
  - destruct u as [sy txt|r kids]; intros [(r' & ks & I & E)|(p & ks & m & E)]; try discriminate.
    + rewrite E in S. rewrite sentence_suits in S by exact I. rewrite suits_derived in S. discriminate.
    + rewrite E in S. rewrite suits_derived in S. cbn [allowed Nat.eqb andb orb negb suit_all] in S.
      change (kid_place 107 0 1) with 2%nat in S. rewrite term_suits in S. cbn [Nat.eqb] in S.
      rewrite !andb_true_iff in S. destruct S as (_ & S & _). rewrite suits_derived in S. discriminate.
  - destruct (derived_inv _ _ D) as (lhs & rhs & name & N & M & F). rewrite Forall_forall in F.
    apply IH; [apply F, I|]. rewrite suits_derived, andb_true_iff in S. destruct S as (_ & S).
    clear IH N M D.
    assert (G : forall d, suit_all r 0 d kids = true -> suits 0 t = true); [|apply (G _ S)].
    clear S. induction kids as [|k kids IHk]; intros d S; [destruct I|].
    cbn [suit_all] in S. rewrite andb_true_iff in S. destruct S as (S1 & S2). destruct I as [->|I].
    + apply (suits_zero _ _ S1). apply F. now left.
    + apply (IHk I (fun x H => F x (or_intror H)) _ S2).
Qed.

(** * Which texts are accepted *)

Theorem preferred_accepted t input : derivation t -> root t = 59 -> preferred t -> spaced (tokens t) ->
  text_of t = line input -> parse unlimited [] input = Ok (Accepted (projection t), []).
Proof.
  intros D R P L T. apply goal_accepted; try assumption. apply (proj1 (preferred_places t D P)).
Qed.

Theorem spaced_accepted t input : derivation t -> root t = 59 -> spaced (tokens t) ->
  text_of t = line input -> exists trees, parse unlimited [] input = Ok (Accepted trees, []).
Proof.
  intros D R L T. destruct (preferable_goal t D R) as (t' & D' & R' & T' & S).
  exists (projection t'). apply goal_accepted; try assumption.
  - rewrite <- flat_tokens, T', flat_tokens. exact T.
  - rewrite T'. exact L.
Qed.
