(* What the semantic actions make of well-formed tasks. *)
From Coq Require Import ZArith String Ascii List Bool Lia Reals.
From Flocq Require Import Core.
From Verif Require Import Base Enums Term Compound CompoundFacts Float Truth Numeral NumeralSpec NumeralFacts Parser ParserSpec Actions ActionsSpec.
From Verif Require Import ActionsFacts ActionsFacts2 ActionsFacts3 ActionsFacts4 ActionsFacts5 ActionsFacts6 PrinterSpec.
From Verif Require Import Forms FormFacts2 FormFacts4 FormFacts5 FormFacts6.
From Verif Require Import Interning InterningSpec.
From Verif Require Evidence.
Import ListNotations.
Open Scope string_scope.
Open Scope list_scope.
Open Scope Z_scope.

Section Tasks.
Variable ord : list (option connector * list term) -> list (option connector * list term).
Hypothesis Horder : any_order ord.
Variable fresh : world -> Z.
Hypothesis Hfresh : careful fresh.
Variable known : string -> Prop.
Variable calls : string -> Prop.
Hypothesis Hops : forall s, calls s -> ~ known s /\ known ("^" ++ s)%string.
Variable room : Z.
Hypothesis Hroom : room < 4294967295.

Notation transform := (transform ord fresh).
Notation transform_all := (transform_all ord fresh).

(** * Numbers *)

Lemma leaf_number e s r st : In e (truth_names ++ budget_names) -> held_numeral r s ->
  exists x, transform st (Leaf e s) = Ok (st, VNumber x).
Proof.
  intros I (_ & v & R & B). destruct (stod_succeeds s v R B) as (x & E). exists x.
  rewrite number_leaf; [rewrite E; reflexivity|]. unfold numeral. cbn in I |- *. tauto.
Qed.

Lemma leaves_numbers names : incl names (truth_names ++ budget_names) -> forall kinds l st, length kinds = length names ->
  numerals kinds l -> exists xs, transform_all st (leaves names l) = Ok (st, map VNumber xs) /\ length xs = length l.
Proof.
  intros I. unfold leaves. induction names as [|e names IH]; intros kinds l st Le N.
  - destruct kinds; [|discriminate Le]. destruct l; [|contradiction]. exists []. split; reflexivity.
  - destruct kinds as [|r kinds]; [discriminate Le|]. injection Le as Le. destruct l as [|s l]; [exists []; split; reflexivity|].
    destruct N as (H & N). cbn [combine map fst snd]. rewrite all_cons.
    destruct (leaf_number e s r st (I e (or_introl eq_refl)) H) as (x & E). rewrite E. cbn [bind].
    destruct (IH (fun a Q => I a (or_intror Q)) kinds l st Le N) as (xs & E2 & L2). rewrite E2. cbn [bind].
    exists (x :: xs). split; [reflexivity|]. cbn [length]. f_equal. exact L2.
Qed.

Lemma numerals_length kinds : forall l, numerals kinds l -> (length l <= length kinds)%nat.
Proof.
  induction kinds as [|r kinds IH]; intros [|s l] N; cbn [length]; try lia; [contradiction|].
  destruct N as (_ & N). apply IH in N. lia.
Qed.

Lemma budget_node l st : numerals [Grammar.unit_number; Grammar.open_number; Grammar.unit_number] l ->
  exists vs, transform_all st (values_node "budget" budget_names l) = Ok (st, vs) /\
    (l = [] /\ vs = [] \/ l <> [] /\ exists b, vs = [VBudget b]).
Proof.
  intros N. pose proof (numerals_length _ _ N) as Le.
  destruct (leaves_numbers budget_names ltac:(intros a; unfold truth_names, budget_names; cbn; tauto) [_; _; _] l st eq_refl N) as (xs & E & L).
  unfold values_node. destruct l as [|p l]; [exists []; auto|].
  rewrite all_cons, transform_node, E. cbn [bind].
  assert (Q : exists q, leaves budget_names (p :: l) = Leaf "priority" p :: q) by (eexists; reflexivity). destruct Q as (q & ->).
  assert (B : exists b, Actions.call ord fresh "budget" st (Some (map VNumber xs)) = Ok (st, VBudget b)).
  { cbn [length] in L, Le. destruct xs as [|x [|y [|z [|? ?]]]]; cbn [length] in L; try lia; eexists; reflexivity. }
  destruct B as (b & ->). cbn [bind Actions.transform_all]. exists [VBudget b]. split; [reflexivity|]. right. split; [discriminate|]. eauto.
Qed.

Lemma truth_node l st : numerals [Grammar.unit_number; Grammar.open_number; Grammar.natural] l ->
  exists vs, transform_all st (values_node "truth" truth_names l) = Ok (st, vs) /\
    (l = [] /\ vs = [] \/ l <> [] /\ exists b, vs = [VTruth b]).
Proof.
  intros N. pose proof (numerals_length _ _ N) as Le.
  destruct (leaves_numbers truth_names ltac:(intros a; unfold truth_names, budget_names; cbn; tauto) [_; _; _] l st eq_refl N) as (xs & E & L).
  unfold values_node. destruct l as [|p l]; [exists []; auto|].
  rewrite all_cons, transform_node, E. cbn [bind].
  assert (Q : exists q, leaves truth_names (p :: l) = Leaf "frequency" p :: q) by (eexists; reflexivity). destruct Q as (q & ->).
  assert (B : exists b, Actions.call ord fresh "truth" st (Some (map VNumber xs)) = Ok (st, VTruth b)).
  { cbn [length] in L, Le. destruct xs as [|x [|y [|z [|? ?]]]]; cbn [length] in L; try lia; eexists; reflexivity. }
  destruct B as (b & ->). cbn [bind Actions.transform_all]. exists [VTruth b]. split; [reflexivity|]. right. split; [discriminate|]. eauto.
Qed.

Lemma tense_value t st : (forall u, t = Some u -> proper_tense u) ->
  exists vs, transform_all st (tense_node t) = Ok (st, vs) /\
    (t = None /\ vs = [] \/ exists u n, t = Some u /\ vs = [VTime n] /\ occurs u n).
Proof.
  intros P. destruct t as [u|]; [|exists []; auto]. specialize (P u eq_refl).
  destruct u as [s| | |]; cbn [tense_node].
  - destruct P as (n & W & R). rewrite all_cons. destruct (time_read ord fresh st s n W) as [E|(B & _)]; [|lia]. rewrite E.
    destruct (Z.leb_spec (-2147483648) n); [|lia]. destruct (Z.leb_spec n 2147483647); [|lia].
    cbn [andb bind Actions.transform_all]. eexists. split; [reflexivity|]. right. exists (Timed s), n. auto.
  - exists [VTime (-5)]. split; [reflexivity|]. right. exists Past, (-5). cbn. auto.
  - exists [VTime 0]. split; [reflexivity|]. right. exists Present, 0. cbn. auto.
  - exists [VTime 5]. split; [reflexivity|]. right. exists Future, 5. cbn. auto.
Qed.

(** * Sentences *)

Lemma marks_value m t tv (l : list string) uv :
  (t = None /\ tv = [] \/ exists u n, t = Some u /\ tv = [VTime n] /\ occurs u n) ->
  (l = [] /\ uv = [] \/ l <> [] /\ exists b : truth ieee, uv = [VTruth b]) ->
  exists m' tr s, loop_marks m (tv ++ uv) None None = Ok (m', tr, s) /\
    stamped (Evidence.to_int (Evidence.time m)) t (snd (finish_stamp m' s)) /\
    Evidence.time (fst (finish_stamp m' s)) = Evidence.time m.
Proof.
  intros T U. destruct T as [( -> & -> )|(u & n & -> & -> & O)]; destruct U as [( -> & -> )|(_ & b & -> )]; cbn [app loop_marks].
  - eexists _, _, _. split; [reflexivity|]. repeat split.
  - eexists _, _, _. split; [reflexivity|]. repeat split.
  - eexists _, _, _. split; [reflexivity|]. split; [split; [reflexivity|split; [reflexivity|exact O]]|reflexivity].
  - eexists _, _, _. split; [reflexivity|]. split; [split; [reflexivity|split; [reflexivity|exact O]]|reflexivity].
Qed.

Lemma sentence_call p st c rest m tr s : loop_marks (store st) rest None None = Ok (m, tr, s) ->
  Actions.call ord fresh (mark_name p) st (Some (VTerm c :: rest)) =
  Ok (with_store st (fst (finish_stamp m s)),
      VSentence (Sentence c p (if belief p then Some (finish_truth tr (literal 9 10)) else None) (snd (finish_stamp m s)))).
Proof.
  intros E. destruct p.
  - change (bind (loop_marks (store st) rest None None) (fun '(m, tr, s) => let '(m, s) := finish_stamp m s in
      Ok (with_store st m, VSentence (Sentence c Judgement (Some (finish_truth tr (literal 9 10))) s))) =
      Ok (with_store st (fst (finish_stamp m s)), VSentence (Sentence c Judgement (Some (finish_truth tr (literal 9 10))) (snd (finish_stamp m s))))).
    rewrite E. cbn [bind]. destruct (finish_stamp m s). reflexivity.
  - change (bind (loop_marks (store st) rest None None) (fun '(m, tr, s) => let '(m, s) := finish_stamp m s in
      Ok (with_store st m, VSentence (Sentence c Question None s))) =
      Ok (with_store st (fst (finish_stamp m s)), VSentence (Sentence c Question None (snd (finish_stamp m s))))).
    rewrite E. cbn [bind]. destruct (finish_stamp m s). reflexivity.
  - change (bind (loop_marks (store st) rest None None) (fun '(m, tr, s) => let '(m, s) := finish_stamp m s in
      Ok (with_store st m, VSentence (Sentence c Goal (Some (finish_truth tr (literal 9 10))) s))) =
      Ok (with_store st (fst (finish_stamp m s)), VSentence (Sentence c Goal (Some (finish_truth tr (literal 9 10))) (snd (finish_stamp m s))))).
    rewrite E. cbn [bind]. destruct (finish_stamp m s). reflexivity.
  - change (bind (loop_marks (store st) rest None None) (fun '(m, tr, s) => let '(m, s) := finish_stamp m s in
      Ok (with_store st m, VSentence (Sentence c Quest None s))) =
      Ok (with_store st (fst (finish_stamp m s)), VSentence (Sentence c Quest None (snd (finish_stamp m s))))).
    rewrite E. cbn [bind]. destruct (finish_stamp m s). reflexivity.
Qed.

Lemma task_call st b vs sen : (vs = [] \/ vs = [VBudget b]) ->
  (truth_of sen = None -> belief (punct sen) = false) ->
  exists b', Actions.call ord fresh "task" st (Some (vs ++ [VSentence sen])) = Ok (st, VTask (Task b' sen)).
Proof.
  intros V T.
  assert (F : forall b, exists b', finish_budget b sen = Ok b').
  { intros b0. unfold finish_budget. destruct (punct sen); cbn in T; try (eexists; reflexivity);
      (destruct (unset32 (quality b0)); [|eexists; reflexivity]); (destruct (truth_of sen); [eexists; reflexivity|]); discriminate (T eq_refl). }
  destruct V as [ -> | -> ].
  - change (exists b', bind (finish_budget (Budget (to64 cfg_priority) (to64 cfg_durability) cfg_quality) sen) (fun b => Ok (st, VTask (Task b sen))) =
      Ok (st, VTask (Task b' sen))). destruct (F (Budget (to64 cfg_priority) (to64 cfg_durability) cfg_quality)) as (b' & ->). exists b'. reflexivity.
  - change (exists b', bind (finish_budget b sen) (fun b => Ok (st, VTask (Task b sen))) = Ok (st, VTask (Task b' sen))).
    destruct (F b) as (b' & ->). exists b'. reflexivity.
Qed.

(** * Tasks *)

Lemma top_evaluates f : proper f -> named_well known calls f -> evaluates ord fresh known calls room f (top_node f).
Proof using Horder Hfresh Hops Hroom.
  intros P N. destruct (forms_evaluate ord Horder fresh Hfresh known calls Hops room Hroom f (or_introl P) N) as (A & B).
  unfold top_node. destruct (is_statement f) eqn:S; [|exact A]. apply B. destruct f; discriminate.
Qed.

Lemma task_evaluated x st : proper_task x -> named_well known calls (body x) ->
  fine known room st (fun _ => []) (count (body x)) ->
  let L := grow (fun _ => []) (fun k => variables k (body x)) in
  (exists st' tk, transform_all st [task_node x] = Ok (st', [VTask tk]) /\
    in_order (atoms st') (operations st') /\ grown (atoms st) (atoms st') /\
    (forall n, known_in (atoms st') n -> known n) /\ population (atoms st') <= room /\
    means ord (handed_out (atoms st')) (numbering L) (body x) (content (sentence_of tk)) /\
    punct (sentence_of tk) = mark x /\
    stamped (Evidence.to_int (Evidence.time (store st))) (tense_part x) (stamp_of (sentence_of tk)) /\
    Evidence.time (store st') = Evidence.time (store st) /\
    ((forall s, ~ calls s) -> (forall n, known n -> known_in (atoms st) n) -> tab (atoms st') = tab (atoms st))) \/
  (transform_all st [task_node x] = UB /\ broken ord st L (body x)).
Proof using Horder Hfresh Hops Hroom.
  intros P N F L. destruct (budget_node (budget_part x) st (task_budget x P)) as (bv & EB & VB).
  unfold task_node. rewrite all_cons, transform_node, all_app, EB. cbn [bind].
  assert (Ne : exists k ks, values_node "budget" budget_names (budget_part x) ++ [sentence_node x] = k :: ks).
  { destruct (values_node "budget" budget_names (budget_part x)) as [|k ks]; eexists _, _; reflexivity. }
  destruct Ne as (k0 & ks0 & Ne). rewrite Ne. unfold sentence_node. rewrite all_cons, transform_node, all_cons.
  rewrite <- (Nat.add_0_r (count (body x))) in F.
  destruct (top_evaluates (body x) (task_body x P) N st _ 0%nat F) as [(st1 & t & R & F1 & La & M)|(R & B)]; rewrite R; cbn [bind].
  2: { right. split; [reflexivity|exact B]. }
  left. rewrite all_app. destruct (tense_value (tense_part x) st1 (task_tense x P)) as (tv & ET & VT). rewrite ET. cbn [bind].
  destruct (truth_node (truth_part x) st1 (task_truth x P)) as (uv & EU & VU). rewrite EU. cbn [bind].
  destruct (marks_value (store st1) _ _ _ _ VT VU) as (m & tr & s & EM & ST & TM).
  rewrite (sentence_call _ _ _ _ _ _ _ EM). cbn [bind Actions.transform_all].
  set (sen := Sentence t (mark x) (if belief (mark x) then Some (finish_truth tr (literal 9 10)) else None) (snd (finish_stamp m s))).
  assert (VB' : exists b, bv = [] \/ bv = [VBudget b]).
  { destruct VB as [(_ & -> )|(_ & b & -> )]; [exists (Budget minus_one minus_one (to32 minus_one))|exists b]; auto. }
  destruct VB' as (b & VB').
  destruct (task_call (with_store st1 (fst (finish_stamp m s))) b bv sen VB') as (b' & EC).
  { cbn. destruct (belief (mark x)); [discriminate|reflexivity]. }
  rewrite EC. cbn [bind]. eexists _, _. split; [reflexivity|]. cbn [sentence_of content punct stamp_of sen with_store atoms operations store].
  destruct F1 as [O1 N1 K1 R1]. destruct La as [G1 S1 P1 Sa].
  split; [exact O1|]. split; [exact G1|]. split; [exact K1|]. split; [lia|]. split; [exact M|]. split; [reflexivity|].
  rewrite <- S1. split; [exact ST|split; [exact TM|exact Sa]].
Qed.

End Tasks.
