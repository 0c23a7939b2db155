(* Budgets and truth values of whole tasks. *)
From Coq Require Import ZArith String Ascii List Bool Reals Lra Lia.
From Flocq Require Import Core BinarySingleNaN.
From Verif Require Import Base Enums Term Compound Maps Float FloatFacts Truth Numeral NumeralSpec NumeralFacts.
From Verif Require Import Parser Grammar Actions ActionsSpec AstFacts ActionsFacts ActionsFacts2.
From Verif Require Evidence.
Import ListNotations.
Open Scope string_scope.
Open Scope Z_scope.
Open Scope list_scope.

(* ---- the shape of the nodes ---- *)

Ltac entries_in I :=
  match type of I with
  | In _ (entries ?y) => let x := eval vm_compute in (entries y) in change (entries y) with x in I
  end; cbn [In] in I.

Definition numbers_node (n : ast) (e a b c : string) : Prop :=
  exists p d q, n = Node e (Leaf a p :: optional b d ++ optional c q) /\ (d = None -> q = None) /\
    spelled a p /\ (forall s, d = Some s -> spelled b s) /\ (forall s, q = Some s -> spelled c s).

Lemma numbers_shape e la lb lc a b c y : 
  entries y = [(e, [([la], false); ([la; lb], false); ([la; lb; lc], false)])] ->
  label_eqb la LText = false ->
  (forall n, good n -> label_of n = la -> exists tok, n = Leaf a tok /\ spelled a tok) ->
  (forall n, good n -> label_of n = lb -> exists tok, n = Leaf b tok /\ spelled b tok) ->
  (forall n, good n -> label_of n = lc -> exists tok, n = Leaf c tok /\ spelled c tok) ->
  forall n, good n -> label_of n = y -> numbers_node n e a b c.
Proof.
  intros H T A B C n G L. destruct (good_inv _ _ G L) as (ss & I & X). rewrite H in I. destruct I as [I|[]].
  injection I as Q <-. destruct n as [e' tok|e' kids]; cbn [name_of] in Q; subst e'.
  - exfalso. destruct X as [X _]. members X; injection X as X; subst; discriminate T.
  - destruct X as [X F]. inversion X as [? ? M|? ? X']; subst; clear X; [|inversion X' as [? ? M|? ? X'']; subst; clear X'; [|inversion X'' as [? ? M|? ? X]; subst; clear X''; [|inversion X]]].
    + apply member_fixed in M. destruct kids as [|k [|]]; try discriminate M. cbn in M. injection M as M.
      pose proof (Forall_inv F) as G1. destruct (A _ G1 M) as (p & -> & SP).
      exists p, None, None. cbn [optional app]. split; [reflexivity|]. split; [reflexivity|]. split; [exact SP|]. split; discriminate.
    + apply member_fixed in M. destruct kids as [|k [|k' [|]]]; try discriminate M. cbn in M. injection M as M M'.
      pose proof (Forall_inv F) as G1. pose proof (Forall_inv_tail F) as F1. pose proof (Forall_inv F1) as G2.
      destruct (A _ G1 M) as (p & -> & SP). destruct (B _ G2 M') as (d & -> & SD).
      exists p, (Some d), None. cbn [optional app]. split; [reflexivity|]. split; [reflexivity|]. split; [exact SP|].
      split; [|discriminate]. intros s0 E. injection E as <-. exact SD.
    + apply member_fixed in M. destruct kids as [|k [|k' [|k'' [|]]]]; try discriminate M. cbn in M. injection M as M M' M''.
      pose proof (Forall_inv F) as G1. pose proof (Forall_inv_tail F) as F1. pose proof (Forall_inv F1) as G2. pose proof (Forall_inv_tail F1) as F2. pose proof (Forall_inv F2) as G3.
      destruct (A _ G1 M) as (p & -> & SP). destruct (B _ G2 M') as (d & -> & SD). destruct (C _ G3 M'') as (q & -> & SQ).
      exists p, (Some d), (Some q). cbn [optional app]. split; [reflexivity|]. split; [discriminate|]. split; [exact SP|].
      split; intros s0 E; injection E as <-; assumption.
Qed.

Definition budget_shape := numbers_shape "budget" LPriority LDurability LQuality "priority" "durability" "quality" LBudget
  eq_refl eq_refl priority_node durability_node quality_node.
Definition truth_shape := numbers_shape "truth" LFrequency LConfidence LEvidence "frequency" "confidence" "k_evidence" LTruth
  eq_refl eq_refl frequency_node confidence_node evidence_node.

Lemma time_shape n : good n -> label_of n = LTime -> exists e kids, n = Node e kids /\ tense_name e.
Proof.
  intros G L. destruct (good_inv _ _ G L) as (ss & I & X). entries_in I.
  assert (T : tense_name (name_of n) /\ ~ Exists (member [LText]) ss).
  { destruct I as [I|[I|[I|[I|[]]]]]; injection I as E0 <-; rewrite <- E0; (split; [unfold tense_name; cbn [In]; tauto|]);
      intros E; members E; discriminate E. }
  destruct T as [T N]. destruct n as [e tok|e kids].
  - exfalso. exact (N (proj1 X)).
  - exists e, kids. split; [reflexivity|exact T].
Qed.

(* A sentence: name, content, tense, truth. *)
Lemma sentence_shape n : good n -> label_of n = LSentence ->
  exists p c tense truth, n = Node (sentence_name p) (c :: tense ++ truth) /\ good c /\ label_of c = LTerm /\
    Forall good (tense ++ truth) /\
    (tense = [] \/ exists t, tense = [t] /\ label_of t = LTime) /\
    (truth = [] \/ exists t, truth = [t] /\ label_of t = LTruth /\ (p = Judgement \/ p = Goal)).
Proof.
  intros G L. destruct (good_inv _ _ G L) as (ss & I & X). entries_in I.
  assert (T : exists p, name_of n = sentence_name p /\
     ((p = Judgement \/ p = Goal) /\ ss = [([LTerm], false); ([LTerm; LTime], false); ([LTerm; LTruth], false); ([LTerm; LTime; LTruth], false)]
      \/ ss = [([LTerm], false); ([LTerm; LTime], false)])).
  { destruct I as [I|[I|[I|[I|[]]]]]; injection I as E0 <-; rewrite <- E0.
    - exists Judgement. split; [reflexivity|]. left. auto.
    - exists Goal. split; [reflexivity|]. left. auto.
    - exists Question. split; [reflexivity|]. right. reflexivity.
    - exists Quest. split; [reflexivity|]. right. reflexivity. }
  clear I. destruct T as (p & E & T).
  assert (U : forall l, Exists (member l) ss -> l = [LTerm] \/ l = [LTerm; LTime] \/
     (p = Judgement \/ p = Goal) /\ (l = [LTerm; LTruth] \/ l = [LTerm; LTime; LTruth])).
  { intros l M. destruct T as [[P ->]| ->]; members M; tauto. }
  destruct n as [e tok|e kids]; cbn [name_of] in E; subst e; destruct X as [X F].
  - exfalso. destruct (U _ X) as [Q|[Q|[_ [Q|Q]]]]; discriminate Q.
  - exists p. destruct (U _ X) as [Q|[Q|[P [Q|Q]]]].
    + destruct kids as [|c [|]]; try discriminate Q. cbn in Q. injection Q as Q. pose proof (Forall_inv F) as G1.
      exists c, [], []. cbn [app]. split; [reflexivity|]. split; [exact G1|]. split; [exact Q|]. split; [constructor|].
      split; left; reflexivity.
    + destruct kids as [|c [|t [|]]]; try discriminate Q. cbn in Q. injection Q as Q Q'. pose proof (Forall_inv F) as G1. pose proof (Forall_inv_tail F) as F1.
      exists c, [t], []. cbn [app]. split; [reflexivity|]. split; [exact G1|]. split; [exact Q|]. split; [exact F1|].
      split; [|left; reflexivity]. right. exists t. split; [reflexivity|exact Q'].
    + destruct kids as [|c [|t [|]]]; try discriminate Q. cbn in Q. injection Q as Q Q'. pose proof (Forall_inv F) as G1. pose proof (Forall_inv_tail F) as F1.
      exists c, [], [t]. cbn [app]. split; [reflexivity|]. split; [exact G1|]. split; [exact Q|]. split; [exact F1|].
      split; [left; reflexivity|]. right. exists t. split; [reflexivity|]. split; [exact Q'|exact P].
    + destruct kids as [|c [|t [|t' [|]]]]; try discriminate Q. cbn in Q. injection Q as Q Q' Q''. pose proof (Forall_inv F) as G1. pose proof (Forall_inv_tail F) as F1.
      exists c, [t], [t']. cbn [app]. split; [reflexivity|]. split; [exact G1|]. split; [exact Q|]. split; [exact F1|].
      split; [right; exists t; split; [reflexivity|exact Q']|]. right. exists t'. split; [reflexivity|]. split; [exact Q''|exact P].
Qed.

Lemma task_shape n : good n -> label_of n = LTask ->
  exists b s, n = Node "task" (b ++ [s]) /\ good s /\ label_of s = LSentence /\
    (b = [] \/ exists t, b = [t] /\ good t /\ label_of t = LBudget).
Proof.
  intros G L. destruct (good_inv _ _ G L) as (ss & I & X). entries_in I. destruct I as [I|[]]. injection I as E <-.
  destruct n as [e tok|e kids]; cbn [name_of] in E; subst e; destruct X as [X F].
  - exfalso. members X; discriminate X.
  - inversion X as [? ? M|? ? X']; subst; clear X; [|inversion X' as [? ? M|? ? X'']; subst; clear X'; [|inversion X'']];
      apply member_fixed in M.
    + destruct kids as [|c [|t [|]]]; try discriminate M. cbn in M. injection M as Q Q'. pose proof (Forall_inv F) as G1. pose proof (Forall_inv_tail F) as F1.
      inversion F1; subst. exists [c], t. split; [reflexivity|]. split; [assumption|]. split; [exact Q'|].
      right. exists c. split; [reflexivity|]. split; assumption.
    + destruct kids as [|c [|]]; try discriminate M. cbn in M. injection M as Q. inversion F; subst.
      exists [], c. split; [reflexivity|]. split; [assumption|]. split; [exact Q|]. left. reflexivity.
Qed.

(* ---- evaluating them ---- *)

Lemma ok_eq {A : Type} (a b : A) : Ok a = Ok b -> a = b.
Proof. intros H. injection H as ->. reflexivity. Qed.

Lemma ok_pair {A B : Type} (a a' : A) (b b' : B) : Ok (a, b) = Ok (a', b') -> a = a' /\ b = b'.
Proof. intros H. injection H as -> ->. split; reflexivity. Qed.

Section Told.
Variable ord : list (option connector * list term) -> list (option connector * list term).
Variable fresh : Interning.world -> Z.
Notation transform := (transform ord fresh).
Notation transform_all := (transform_all ord fresh).

Lemma number_leaf e tok st : numeral e -> transform st (Leaf e tok) = bind (stod tok) (fun x => Ok (st, VNumber x)).
Proof.
  unfold numeral. intros I. cbn [In] in I.
  destruct I as [<-|[<-|[<-|[<-|[<-|[<-|[]]]]]]]; reflexivity.
Qed.

Lemma all_cons st n l : transform_all st (n :: l) =
  bind (transform st n) (fun '(st, v) => bind (transform_all st l) (fun '(st, vs) => Ok (st, v :: vs))).
Proof. reflexivity. Qed.

(* What up to three numbers give. *)
Lemma optional_number e s st rest st' vs : numeral e -> (forall t, s = Some t -> spelled e t) ->
  transform_all st (optional e s ++ rest) = Ok (st', vs) ->
  exists x us, transform_all st rest = Ok (st', us) /\
    match s with
    | Some t => stod t = Ok x /\ vs = VNumber x :: us
    | None => vs = us
    end.
Proof.
  intros N S H. destruct s as [t|]; cbn [optional app] in H.
  - rewrite all_cons, (number_leaf _ _ _ N) in H.
    destruct (stod t) as [x| | |] eqn:E; cbn [bind] in H; try discriminate H.
    destruct (transform_all st rest) as [[st1 us]| | |] eqn:R; cbn [bind] in H; try discriminate H.
    injection H as <- <-. exists x, us. repeat split; reflexivity.
  - exists minus_one, vs. split; [exact H|reflexivity].
Qed.

Lemma budget_value n st st' v : good n -> label_of n = LBudget -> transform st n = Ok (st', v) ->
  exists p d q x y z, n = Node "budget" (Leaf "priority" p :: optional "durability" d ++ optional "quality" q) /\
    (d = None -> q = None) /\ st' = st /\ v = VBudget (Budget (to64 (to32 x)) (to64 (to32 y)) (to32 z)) /\
    keeps p (to32 x) /\ positive64 x /\
    match d with Some s => keeps s (to32 y) /\ positive64 y | None => y = minus_one end /\
    match q with Some s => keeps s (to32 z) /\ positive64 z | None => z = minus_one end.
Proof.
  intros G L H. destruct (budget_shape _ G L) as (p & d & q & -> & DQ & SP & SD & SQ).
  rewrite transform_node in H. rewrite all_cons, number_leaf in H by (unfold numeral; cbn; tauto).
  destruct (stod p) as [x| | |] eqn:EP; cbn [bind] in H; try discriminate H.
  assert (KP : keeps p (to32 x) /\ positive64 x) by (apply (stod_keeps "priority" p x); [unfold numeral; cbn; tauto|exact SP|exact EP]).
  destruct (transform_all st (optional "durability" d ++ optional "quality" q)) as [[st1 vs]| | |] eqn:T;
    cbn [bind] in H; try discriminate H.
  destruct (optional_number "durability" d st (optional "quality" q) st1 vs ltac:(unfold numeral; cbn; tauto) SD T) as (y & us & T1 & Y).
  rewrite <- (app_nil_r (optional "quality" q)) in T1.
  destruct (optional_number "quality" q st [] st1 us ltac:(unfold numeral; cbn; tauto) SQ T1) as (z & ws & T2 & W).
  cbn in T2. injection T2 as <- <-.
  exists p, d, q. destruct d as [d|].
  - destruct Y as [ED ->].
    assert (KD : keeps d (to32 y) /\ positive64 y)
      by (apply (stod_keeps "durability" d y); [unfold numeral; cbn; tauto|exact (SD _ eq_refl)|exact ED]).
    destruct q as [q|].
    + destruct W as [EQ ->].
      assert (KQ : keeps q (to32 z) /\ positive64 z)
        by (apply (stod_keeps "quality" q z); [unfold numeral; cbn; tauto|exact (SQ _ eq_refl)|exact EQ]).
      exists x, y, z. split; [reflexivity|]. split; [exact DQ|].
      assert (C : Ok (st, VBudget (new_budget x y z)) = Ok (st', v)) by exact H. destruct (ok_pair _ _ _ _ C) as [<- <-].
      split; [reflexivity|]. split; [reflexivity|]. split; [exact (proj1 KP)|]. split; [exact (proj2 KP)|]. split; [exact KD|exact KQ].
    + subst us. exists x, y, minus_one. split; [reflexivity|]. split; [exact DQ|].
      assert (C : Ok (st, VBudget (new_budget x y minus_one)) = Ok (st', v)) by exact H. destruct (ok_pair _ _ _ _ C) as [<- <-].
      split; [reflexivity|]. split; [reflexivity|]. split; [exact (proj1 KP)|]. split; [exact (proj2 KP)|]. split; [exact KD|reflexivity].
  - subst vs. assert (q = None) as -> by exact (DQ eq_refl). subst us. exists x, minus_one, minus_one. split; [reflexivity|]. split; [exact DQ|].
    assert (C : Ok (st, VBudget (new_budget x minus_one minus_one)) = Ok (st', v)) by exact H. destruct (ok_pair _ _ _ _ C) as [<- <-].
    split; [reflexivity|]. split; [reflexivity|]. split; [exact (proj1 KP)|]. split; [exact (proj2 KP)|]. split; reflexivity.
Qed.

Lemma truth_value n st st' v : good n -> label_of n = LTruth -> transform st n = Ok (st', v) ->
  exists p d q x y z, n = Node "truth" (Leaf "frequency" p :: optional "confidence" d ++ optional "k_evidence" q) /\
    (d = None -> q = None) /\ st' = st /\ v = VTruth (Truth.Truth ieee (to32 x) (to32 y) (to32 z)) /\
    keeps p (to32 x) /\ positive64 x /\
    match d with Some s => keeps s (to32 y) /\ positive64 y | None => y = minus_one end /\
    match q with Some s => keeps s (to32 z) /\ positive64 z | None => z = to64 cfg_k end.
Proof.
  intros G L H. destruct (truth_shape _ G L) as (p & d & q & -> & DQ & SP & SD & SQ).
  rewrite transform_node in H. rewrite all_cons, number_leaf in H by (unfold numeral; cbn; tauto).
  destruct (stod p) as [x| | |] eqn:EP; cbn [bind] in H; try discriminate H.
  assert (KP : keeps p (to32 x) /\ positive64 x) by (apply (stod_keeps "frequency" p x); [unfold numeral; cbn; tauto|exact SP|exact EP]).
  destruct (transform_all st (optional "confidence" d ++ optional "k_evidence" q)) as [[st1 vs]| | |] eqn:T;
    cbn [bind] in H; try discriminate H.
  destruct (optional_number "confidence" d st (optional "k_evidence" q) st1 vs ltac:(unfold numeral; cbn; tauto) SD T) as (y & us & T1 & Y).
  rewrite <- (app_nil_r (optional "k_evidence" q)) in T1.
  destruct (optional_number "k_evidence" q st [] st1 us ltac:(unfold numeral; cbn; tauto) SQ T1) as (z & ws & T2 & W).
  cbn in T2. injection T2 as <- <-.
  exists p, d, q. destruct d as [d|].
  - destruct Y as [ED ->].
    assert (KD : keeps d (to32 y) /\ positive64 y)
      by (apply (stod_keeps "confidence" d y); [unfold numeral; cbn; tauto|exact (SD _ eq_refl)|exact ED]).
    destruct q as [q|].
    + destruct W as [EQ ->].
      assert (KQ : keeps q (to32 z) /\ positive64 z)
        by (apply (stod_keeps "k_evidence" q z); [unfold numeral; cbn; tauto|exact (SQ _ eq_refl)|exact EQ]).
      exists x, y, z. split; [reflexivity|]. split; [exact DQ|].
      assert (C : Ok (st, VTruth (Truth.Truth ieee (to32 x) (to32 y) (to32 z))) = Ok (st', v)) by exact H. destruct (ok_pair _ _ _ _ C) as [<- <-].
      split; [reflexivity|]. split; [reflexivity|]. split; [exact (proj1 KP)|]. split; [exact (proj2 KP)|]. split; [exact KD|exact KQ].
    + subst us. exists x, y, (to64 cfg_k). split; [reflexivity|]. split; [exact DQ|].
      assert (C : Ok (st, VTruth (Truth.Truth ieee (to32 x) (to32 y) (to32 (to64 cfg_k)))) = Ok (st', v)) by exact H. destruct (ok_pair _ _ _ _ C) as [<- <-].
      split; [reflexivity|]. split; [reflexivity|]. split; [exact (proj1 KP)|]. split; [exact (proj2 KP)|]. split; [exact KD|reflexivity].
  - subst vs. assert (q = None) as -> by exact (DQ eq_refl). subst us. exists x, minus_one, (to64 cfg_k). split; [reflexivity|]. split; [exact DQ|].
    assert (C : Ok (st, VTruth (Truth.Truth ieee (to32 x) (to32 minus_one) (to32 (to64 cfg_k)))) = Ok (st', v)) by exact H. destruct (ok_pair _ _ _ _ C) as [<- <-].
    split; [reflexivity|]. split; [reflexivity|]. split; [exact (proj1 KP)|]. split; [exact (proj2 KP)|]. split; reflexivity.
Qed.

Lemma all_app l r : forall st, transform_all st (l ++ r) =
  bind (transform_all st l) (fun '(st, us) => bind (transform_all st r) (fun '(st, ws) => Ok (st, us ++ ws))).
Proof.
  induction l as [|n l IH]; intros st; cbn [app].
  - cbn [Actions.transform_all bind]. destruct (transform_all st r) as [[st1 ws]| | |]; reflexivity.
  - rewrite !all_cons. destruct (transform st n) as [[st1 v]| | |]; cbn [bind]; try reflexivity.
    rewrite IH. destruct (transform_all st1 l) as [[st2 us]| | |]; cbn [bind]; try reflexivity.
    destruct (transform_all st2 r) as [[st3 ws]| | |]; reflexivity.
Qed.

Lemma all_one st n st' vs : transform_all st [n] = Ok (st', vs) -> exists v, vs = [v] /\ transform st n = Ok (st', v).
Proof.
  rewrite all_cons. intros H. destruct (transform st n) as [[st1 v]| | |]; cbn in H; try discriminate H.
  destruct (ok_pair _ _ _ _ H) as [<- <-]. exists v. split; reflexivity.
Qed.

Lemma loop_truth m tv uv m' tr s :
  (tv = [] \/ exists n, tv = [VTime n]) -> (uv = [] \/ exists t, uv = [VTruth t]) ->
  loop_marks m (tv ++ uv) None None = Ok (m', tr, s) ->
  match uv with [] => tr = None | VTruth t :: _ => tr = Some t | _ => True end.
Proof.
  intros T U. destruct T as [->|[n ->]]; destruct U as [->|[t ->]]; cbn [app loop_marks]; intros H.
  - injection H as _ <- _. reflexivity.
  - injection H as _ <- _. reflexivity.
  - destruct (Evidence.stamp5 _ _ _ _ _ _) in H. injection H as _ <- _. reflexivity.
  - destruct (Evidence.stamp5 _ _ _ _ _ _) in H. injection H as _ <- _. reflexivity.
Qed.

Definition belief (p : punctuation) : bool := match p with Judgement | Goal => true | _ => false end.

Lemma call_sentence p st vs st' v : call ord fresh (sentence_name p) st (Some vs) = Ok (st', v) ->
  exists c m tr s, arg vs 0 = Ok (VTerm c) /\ loop_marks (store st) (skipn 1 vs) None None = Ok (m, tr, s) /\
    exists s', v = VSentence (Sentence c p (if belief p then Some (finish_truth tr (literal 9 10)) else None) s').
Proof.
  intros H.
  assert (E : (bind (bind (arg vs 0) as_term) (fun t =>
    bind (loop_marks (store st) (skipn 1 vs) None None) (fun '(m, tr, s) =>
    let '(m, s) := finish_stamp m s in
    Ok (with_store st m, VSentence (Sentence t p (if belief p then Some (finish_truth tr (literal 9 10)) else None) s))))) = Ok (st', v)).
  { destruct p; exact H. }
  clear H. destruct (arg vs 0) as [w| | |]; cbn [bind] in E; try discriminate E.
  destruct w; cbn [as_term bind] in E; try discriminate E.
  destruct (loop_marks (store st) (skipn 1 vs) None None) as [[[m tr] s]| | |]; cbn [bind] in E; try discriminate E.
  destruct (finish_stamp m s) as [m' s'] eqn:FS.
  destruct (ok_pair _ _ _ _ E) as [<- <-]. exists t, m, tr, s. split; [reflexivity|]. split; [reflexivity|].
  exists s'. reflexivity.
Qed.

Lemma k_default : to32 (to64 cfg_k) = literal 1 1.
Proof. apply same32. vm_compute. reflexivity. Qed.

Lemma k_set : unset32 (literal 1 1) = false.
Proof. vm_compute. reflexivity. Qed.

Lemma sentence_value n st st' v : good n -> label_of n = LSentence -> transform st n = Ok (st', v) ->
  exists s c tense truth, v = VSentence s /\ n = Node (sentence_name (punct s)) (c :: tense ++ truth) /\
    (tense = [] \/ exists e l, tense = [Node e l] /\ tense_name e) /\
    if belief (punct s) then
        exists t, truth_of s = Some t /\
        (truth = [] /\ t = Truth.Truth ieee (literal 1 1) (literal 9 10) (literal 1 1) \/
         exists f co k,
           truth = [Node "truth" (Leaf "frequency" f :: optional "confidence" co ++ optional "k_evidence" k)] /\
           (co = None -> k = None) /\
           keeps f (Truth.fr ieee t) /\ kept co (literal 9 10) (Truth.co ieee t) /\
           kept k (literal 1 1) (Truth.kk ieee t))
    else truth = [] /\ truth_of s = None.
Proof.
  intros G L H. destruct (sentence_shape _ G L) as (p & c & tense & truth & -> & GC & LC & GF & TE & TR).
  rewrite transform_node in H.
  destruct (transform_all st (c :: tense ++ truth)) as [[st1 vs]| | |] eqn:T; cbn [bind] in H; try discriminate H.
  rewrite all_cons in T. destruct (transform st c) as [[st2 w]| | |] eqn:TC; cbn [bind] in T; try discriminate T.
  rewrite all_app in T.
  destruct (transform_all st2 tense) as [[st3 us]| | |] eqn:T1; cbn [bind] in T; try discriminate T.
  destruct (transform_all st3 truth) as [[st4 ws]| | |] eqn:T2; cbn [bind] in T; try discriminate T.
  destruct (ok_pair _ _ _ _ T) as [<- <-]. clear T.
  destruct (call_sentence _ _ _ _ _ H) as (t & m & tr & sp & A & LM & s' & ->). cbn [arg nth_error skipn] in A, LM.
  eexists. exists c, tense, truth. split; [reflexivity|]. cbn [punct truth_of]. split; [reflexivity|].
  apply Forall_app in GF. destruct GF as [GT GU].
  assert (TV : us = [] \/ exists n, us = [VTime n]).
  { destruct TE as [->|(n & -> & LN)].
    - cbn in T1. injection T1 as _ <-. left. reflexivity.
    - right. destruct (all_one _ _ _ _ T1) as (v & -> & TN). pose proof (Forall_inv GT) as GN.
      pose proof (good_kinded ord fresh _ GN _ _ _ TN) as K. rewrite LN in K. cbn in K.
      destruct v; try discriminate K. exists n0. reflexivity. }
  split.
  { destruct TE as [->|(n & -> & LN)]; [left; reflexivity|]. right. pose proof (Forall_inv GT) as GN.
    destruct (time_shape _ GN LN) as (e & kids & -> & N). exists e, kids. split; [reflexivity|exact N]. }
  destruct TR as [->|(n & -> & LN & P)].
  - cbn in T2. injection T2 as _ <-. pose proof (loop_truth _ us [] _ _ _ TV (or_introl eq_refl) LM) as Q. cbn in Q. subst tr.
    destruct (belief p); [|split; reflexivity]. eexists. split; [reflexivity|]. left. split; reflexivity.
  - pose proof (Forall_inv GU) as GN. destruct (all_one _ _ _ _ T2) as (v & -> & TN).
    destruct (truth_value _ _ _ _ GN LN TN) as (f & d & k & x & y & z & -> & DK & -> & -> & KF & PX & KY & KZ).
    pose proof (loop_truth _ us [VTruth _] _ _ _ TV (or_intror (ex_intro _ _ eq_refl)) LM) as Q. cbn beta iota in Q. subst tr.
    assert (B : belief p = true) by (destruct P as [->| ->]; reflexivity). rewrite B.
    eexists. split; [reflexivity|]. right. exists f, d, k. split; [reflexivity|]. split; [exact DK|].
    unfold finish_truth. cbn [Truth.fr Truth.co Truth.kk].
    split; [rewrite unset_positive32 by (apply to32_sign; exact PX); exact KF|]. split.
    + destruct d as [d|]; cbn [kept].
      * rewrite unset_positive32 by (apply to32_sign; exact (proj2 KY)). exact (proj1 KY).
      * rewrite KY, unset_minus32. reflexivity.
    + destruct k as [k|]; cbn [kept].
      * rewrite unset_positive32 by (apply to32_sign; exact (proj2 KZ)). exact (proj1 KZ).
      * rewrite KZ, k_default, k_set. reflexivity.
Qed.

Lemma task_told n st st' v : good n -> label_of n = LTask -> transform st n = Ok (st', v) ->
  exists tk, v = VTask tk /\ budget_told n tk /\ truth_told n tk.
Proof.
  intros G L H. destruct (task_shape _ G L) as (b & s & -> & GS & LS & BS).
  rewrite transform_node in H.
  destruct (transform_all st (b ++ [s])) as [[st1 vs]| | |] eqn:T; cbn [bind] in H; try discriminate H.
  rewrite all_app in T.
  destruct (transform_all st b) as [[st2 us]| | |] eqn:T1; cbn [bind] in T; try discriminate T.
  destruct (transform_all st2 [s]) as [[st3 ws]| | |] eqn:T2; cbn [bind] in T; try discriminate T.
  destruct (ok_pair _ _ _ _ T) as [<- <-]. clear T.
  destruct (all_one _ _ _ _ T2) as (w & -> & TS).
  destruct (sentence_value _ _ _ _ GS LS TS) as (sn & c & tense & truth & -> & -> & TN & TT).
  assert (H' : make_task st3 (Some (us ++ [VSentence sn])) = Ok (st', v)) by (destruct b; exact H). clear H.
  assert (TO : forall b', truth_told (Node "task" (b ++ [Node (sentence_name (punct sn)) (c :: tense ++ truth)])) (Task b' sn)).
  { intros b'. exists b, c, tense, truth. cbn [sentence_of]. split; [reflexivity|]. split; [exact TN|].
    destruct (punct sn); exact TT. }
  destruct BS as [->|(bn & -> & GB & LB)].
  - cbn in T1. injection T1 as <- <-. cbn [app] in *. unfold make_task in H'. cbn [all_args bind length Nat.eqb arg nth_error as_sentence] in H'.
    destruct (finish_budget _ sn) as [b'| | |] eqn:F; cbn [bind] in H'; try discriminate H'.
    destruct (ok_pair _ _ _ _ H') as [<- <-]. exists (Task b' sn). split; [reflexivity|]. split; [|apply TO].
    exists (c :: tense ++ truth). left. split; [reflexivity|]. cbn [budget_of].
    assert (U1 : unset64 (to64 cfg_priority) = false) by (vm_compute; reflexivity).
    assert (U2 : unset64 (to64 cfg_durability) = false) by (vm_compute; reflexivity).
    assert (U3 : unset32 cfg_quality = false) by (vm_compute; reflexivity).
    unfold finish_budget, fill_budget in F. cbn [priority durability quality] in F. rewrite U1, U2, U3 in F.
    destruct (punct sn); rewrite <- (ok_eq _ _ F); reflexivity.
  - destruct (all_one _ _ _ _ T1) as (bv & -> & TB).
    destruct (budget_value _ _ _ _ GB LB TB) as (p & d & q & x & y & z & -> & DQ & -> & -> & KP & PX & KY & KZ).
    cbn [app] in *. unfold make_task in H'. cbn [all_args bind length Nat.eqb arg nth_error as_sentence as_budget] in H'.
    destruct (finish_budget _ sn) as [b'| | |] eqn:F; cbn [bind] in H'; try discriminate H'.
    destruct (ok_pair _ _ _ _ H') as [<- <-]. exists (Task b' sn). split; [reflexivity|]. split; [|apply TO].
    exists (c :: tense ++ truth). right.
    exists p, d, q, (to32 x), (match d with Some _ => to32 y | None => default_durability (punct sn) end).
    cbn [budget_of sentence_of]. split; [reflexivity|]. split; [exact DQ|].
    assert (UX : unset64 (to64 (to32 x)) = false) by (apply unset_positive64, to64_sign, to32_sign, PX).
    assert (FB : exists w, b' = Budget (to64 (to32 x))
       (to64 (match d with Some _ => to32 y | None => default_durability (punct sn) end)) w /\
       (w = if unset32 (to32 z) then default_quality sn else to32 z)).
    { assert (UY : forall p', (if unset64 (to64 (to32 y)) then to64 p' else to64 (to32 y)) =
         to64 (match d with Some _ => to32 y | None => p' end)).
      { intros p'. destruct d as [d|].
        - rewrite unset_positive64; [reflexivity|]. apply to64_sign, to32_sign, (proj2 KY).
        - rewrite KY, unset_minus. reflexivity. }
      unfold finish_budget, fill_budget in F. cbn [priority durability quality] in F. rewrite UX in F.
      destruct (punct sn) eqn:PS; cbn [belief] in TT.
      - rewrite UY in F. destruct TT as (t & ET & _). rewrite ET in F. unfold default_quality. rewrite ET.
        destruct (unset32 (to32 z)); injection F as <-; eexists; (split; [reflexivity|reflexivity]).
      - rewrite UY in F. destruct TT as (_ & ET). unfold default_quality. rewrite ET.
        injection F as <-. eexists. split; [reflexivity|]. destruct (unset32 (to32 z)); [|reflexivity].
        apply same32. vm_compute. reflexivity.
      - rewrite UY in F. destruct TT as (t & ET & _). rewrite ET in F. unfold default_quality. rewrite ET.
        destruct (unset32 (to32 z)); injection F as <-; eexists; (split; [reflexivity|reflexivity]).
      - rewrite UY in F. destruct TT as (_ & ET). unfold default_quality. rewrite ET.
        injection F as <-. eexists. split; [reflexivity|]. destruct (unset32 (to32 z)); [|reflexivity].
        apply same32. vm_compute. reflexivity. }
    destruct FB as (w & -> & EW). cbn [priority durability quality].
    split; [reflexivity|]. split; [exact KP|]. split; [reflexivity|]. split.
    + destruct d as [d|]; cbn [kept]; [exact (proj1 KY)|reflexivity].
    + destruct q as [q|]; cbn [kept].
      * rewrite unset_positive32 in EW by (apply to32_sign; exact (proj2 KZ)). rewrite EW. exact (proj1 KZ).
      * rewrite KZ, unset_minus32 in EW. exact EW.
Qed.
End Told.

Lemma parsed_task ord fresh room input trees left st st' vs :
  (match room with Some n => 1 <= n | None => True end)%nat ->
  parse room [] input = Ok (Accepted trees, left) ->
  transform_all ord fresh st trees = Ok (st', vs) ->
  exists n tk, trees = [n] /\ vs = [VTask tk] /\ budget_told n tk /\ truth_told n tk.
Proof.
  intros R P T. destruct (accepted_good _ _ _ _ R P) as (n & -> & G & L).
  destruct (all_one _ _ _ _ _ _ T) as (v & -> & TN).
  destruct (task_told _ _ _ _ _ _ G L TN) as (tk & -> & B & U).
  exists n, tk. split; [reflexivity|]. split; [reflexivity|]. split; assumption.
Qed.
