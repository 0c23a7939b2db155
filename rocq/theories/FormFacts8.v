(* Reading well-formed tasks, one and many. *)
From Coq Require Import ZArith String Ascii List Bool Lia Permutation.
From Verif Require Import Base Enums Term Compound CompoundFacts Float Truth Parser ParserSpec Actions ActionsSpec.
From Verif Require Import ActionsFacts3 ActionsFacts4 ActionsFacts5 ActionsFacts6 PrinterSpec ParserRuns.
From Verif Require Import Forms FormFacts2 FormFacts4 FormFacts5 FormFacts6 FormFacts7.
From Verif Require Import Interning InterningSpec.
From Verif Require Evidence.
Import ListNotations.
Open Scope string_scope.
Open Scope list_scope.
Open Scope Z_scope.

(** * Truth values and budgets *)

Lemma tense_parts t (tense truth : list ast) l : 
  (tense = [] \/ exists e k, tense = [Node e k] /\ tense_name e) ->
  (truth = [] \/ exists k, truth = [Node "truth" k]) ->
  tense ++ truth = tense_node t ++ values_node "truth" truth_names l -> truth = values_node "truth" truth_names l.
Proof.
  intros T U E.
  assert (V : values_node "truth" truth_names l = [] \/ exists k, values_node "truth" truth_names l = [Node "truth" k]).
  { destruct l; [left; reflexivity|right; eexists; reflexivity]. }
  assert (W : tense_node t = [] \/ exists e k, tense_node t = [Node e k] /\ tense_name e).
  { destruct t as [[s| | |]|]; cbn [tense_node]; [right; eexists _, _; split; [reflexivity|cbn; auto]..|left; reflexivity]. }
  assert (X : forall e, tense_name e -> e <> "truth") by (intros e H ->; cbn in H; intuition discriminate).
  destruct T as [ -> |(e & k & -> & Te)]; destruct U as [ -> |(k' & -> )]; destruct V as [V|(k2 & V)]; rewrite V in *;
    destruct W as [W|(e2 & k3 & W & Te2)]; rewrite W in *; cbn [app] in E; try discriminate E; try reflexivity.
  - injection E as E _. destruct (X _ Te2 (eq_sym E)).
  - injection E as ->. reflexivity.
  - injection E as E _. destruct (X _ Te E).
  - injection E as _ _ ->. reflexivity.
Qed.

Lemma valued_told x tk : proper_task x -> punct (sentence_of tk) = mark x -> truth_told (task_node x) tk ->
  valued (mark x) (truth_part x) (truth_of (sentence_of tk)).
Proof.
  intros P M H. unfold truth_told in H. cbv zeta in H. destruct H as (budget & c & tense & truth & E & T & V). rewrite M in *. unfold task_node in E. injection E as E.
  apply app_inj_tail in E as (_ & E). unfold sentence_node in E. injection E as _ E. symmetry in E.
  assert (U : truth = [] \/ exists k, truth = [Node "truth" k]).
  { destruct (mark x).
    - destruct V as (t & _ & [(V & _)|(f & co & k & V & _)]); [left; exact V|right; eauto].
    - left. apply V.
    - destruct V as (t & _ & [(V & _)|(f & co & k & V & _)]); [left; exact V|right; eauto].
    - left. apply V. }
  apply (tense_parts _ _ _ _ T U) in E. clear U.
  assert (J : (exists t, truth_of (sentence_of tk) = Some t /\
        (truth = [] /\ t = Truth.Truth ieee (literal 1 1) (literal 9 10) (literal 1 1) \/
         exists f co k, truth = [Node "truth" (Leaf "frequency" f :: optional "confidence" co ++ optional "k_evidence" k)] /\
           (co = None -> k = None) /\ keeps f (Truth.fr ieee t) /\ kept co (literal 9 10) (Truth.co ieee t) /\
           kept k (literal 1 1) (Truth.kk ieee t))) ->
     exists v, truth_of (sentence_of tk) = Some v /\
        kept (nth_error (truth_part x) 0) (literal 1 1) (Truth.fr ieee v) /\
        kept (nth_error (truth_part x) 1) (literal 9 10) (Truth.co ieee v) /\
        kept (nth_error (truth_part x) 2) (literal 1 1) (Truth.kk ieee v)).
  { pose proof (numerals_length _ _ (task_truth x P)) as Le. cbn [length] in Le.
    intros (t & S & [(R & -> )|(f & co & k & R & D & A & B & C)]); rewrite R in E; eexists; (split; [exact S|]).
    - destruct (truth_part x); [|discriminate E]. cbn [nth_error kept Truth.fr Truth.co Truth.kk]. repeat split.
    - destruct (truth_part x) as [|a [|b [|d [|? ?]]]]; cbn [length] in Le; [discriminate E| | | |lia].
      + destruct co, k; try discriminate E. injection E as ->. cbn [nth_error kept] in *. repeat split; assumption.
      + destruct co, k; try discriminate E. injection E as -> ->. cbn [nth_error kept] in *. repeat split; assumption.
      + destruct co, k; try discriminate E. injection E as -> -> ->. cbn [nth_error kept] in *. repeat split; assumption. }
  unfold valued. destruct (mark x); [apply J, V|apply V|apply J, V|apply V].
Qed.

Lemma budgeted_told x tk : proper_task x -> budget_told (task_node x) tk -> budgeted (budget_part x) tk.
Proof.
  intros P H. unfold budget_told in H. cbv zeta in H. destruct H as (kids & [(E & B)|(p & d & q & fp & fd & E & D & B)]);
    unfold task_node in E; injection E as E.
  - unfold budgeted. destruct (budget_part x) as [|a l]; [exact B|]. cbn in E. discriminate E.
  - change ([Node "budget" (Leaf "priority" p :: optional "durability" d ++ optional "quality" q); Node (sentence_name (punct (sentence_of tk))) kids])
      with ([Node "budget" (Leaf "priority" p :: optional "durability" d ++ optional "quality" q)] ++ [Node (sentence_name (punct (sentence_of tk))) kids]) in E.
    apply app_inj_tail in E as (E & _).
    pose proof (numerals_length _ _ (task_budget x P)) as Le. cbn [length] in Le.
    unfold budgeted. destruct (budget_part x) as [|a [|b [|c [|? ?]]]]; cbn [length] in Le; [discriminate E| | | |lia]; exists fp, fd.
    + destruct d, q; try discriminate E. injection E as ->. exact B.
    + destruct d, q; try discriminate E. injection E as -> ->. exact B.
    + destruct d, q; try discriminate E. injection E as -> -> ->. exact B.
Qed.

(** * One task *)

Section Reading.
Variable ord : list (option connector * list term) -> list (option connector * list term).
Hypothesis Horder : forall m, Permutation (ord m) m.
Variable fresh : world -> Z.
Hypothesis Hfresh : careful fresh.

(* The state of a parser that can go on. *)
Definition ready (st : state) : Prop := in_order (atoms st) (operations st).

Lemma operand_cases f : proper f \/ operand f -> proper f \/ exists c l, f = Bare c l /\ Forall proper l.
Proof. intros [P|P]; [left; exact P|]. inversion P; subst; [left; assumption|right; eauto]. Qed.

Lemma words_words f : proper f \/ operand f -> (forall s, In s (words f) -> word s) /\ (forall s, In s (operators f) -> word s).
Proof.
  assert (X : forall l, Forall (fun f => proper f \/ operand f -> (forall s, In s (words f) -> word s) /\ (forall s, In s (operators f) -> word s)) l ->
    Forall (fun f => proper f \/ operand f) l ->
    (forall s, In s (concat (map words l)) -> word s) /\ (forall s, In s (concat (map operators l)) -> word s)).
  { intros l F Q. rewrite Forall_forall in F, Q. split; intros s H; apply in_concat in H as (r & A & B); apply in_map_iff in A as (f0 & <- & I);
      [apply (proj1 (F f0 I (Q f0 I)))|apply (proj2 (F f0 I (Q f0 I)))]; exact B. }
  assert (Y : forall l, Forall proper l -> Forall (fun f => proper f \/ operand f) l) by (intros l; apply Forall_impl; auto).
  induction f as [s|k s|s|s|x c a b Ia Ib|s l I|s l I|c l I|f I|c l I|l I|c l I|c l I] using form_ind'; intros P;
    apply operand_cases in P; (destruct P as [P|(c0 & l0 & Q & P)]; [|try discriminate Q]); cbn [words operators].
  - inversion P; subst. split; [intros q [ <- |[]]; assumption|intros q []].
  - split; intros q [].
  - inversion P; subst. split; [intros q []|intros q [ <- |[]]; assumption].
  - split; intros q [].
  - assert (Q : proper a /\ proper b) by (inversion P; auto). destruct Q as (Pa & Pb).
    destruct (Ia (or_introl Pa)) as (A1 & A2). destruct (Ib (or_introl Pb)) as (B1 & B2).
    split; intros q Q; apply in_app_or in Q as [Q|Q]; auto.
  - assert (Q : word s /\ Forall proper l) by (inversion P; auto). destruct Q as (W & Pl).
    destruct (X l I (Y l Pl)) as (A & B). split; [exact A|]. intros q [ <- |Q]; auto.
  - assert (Q : word s /\ Forall proper l) by (inversion P; auto). destruct Q as (W & Pl).
    destruct (X l I (Y l Pl)) as (A & B). split; [exact A|]. intros q [ <- |Q]; auto.
  - inversion P; subst. apply X; [exact I|]. apply Y. assumption.
  - inversion P; subst. apply I. auto.
  - apply X; [exact I|]. inversion P; subst; first [apply Y; assumption | repeat (apply Forall_cons; [auto|]); apply Forall_nil].
  - apply X; [exact I|]. inversion P; subst. apply Y. assumption.
  - apply X; [exact I|]. inversion P; subst; first [apply Y; assumption | repeat (apply Forall_cons; [auto|]); apply Forall_nil].
  - inversion P.
  - injection Q as <- <-. apply X; [exact I|]. apply Y. assumption.
Qed.

Lemma room_parse room text : has_room room text -> parse room [] text = parse unlimited [] text.
Proof. intros [ -> |( -> & L)]; [reflexivity|]. apply short_input, L. Qed.

Theorem task_read room st x lead pads : has_room room (spread lead (spell_task x) pads) -> in_order (atoms st) (operations st) ->
  proper_task x -> length pads = length (spell_task x) ->
  population (atoms st) + 2 * Z.of_nat (mentions (body x)) < 4294967295 ->
  (forall s, In s (operators (body x)) -> ~ In s (words (body x)) /\ check_by_name (tab (atoms st)) s = false) ->
  (exists st' tk, Actions.parse_task ord fresh room st [] (spread lead (spell_task x) pads) = Ok (st', [], Some (VTask tk), false) /\
    says ord (atoms st') (Evidence.to_int (Evidence.time (store st))) x tk /\
    in_order (atoms st') (operations st') /\
    (forall n a, handed_out (atoms st) n a -> handed_out (atoms st') n a) /\
    (forall n, check_by_name (tab (atoms st')) n = true ->
      check_by_name (tab (atoms st)) n = true \/ In n (words (body x)) \/ exists s, In s (operators (body x)) /\ n = ("^" ++ s)%string) /\
    population (atoms st') <= population (atoms st) + 2 * Z.of_nat (mentions (body x)) /\
    Evidence.time (store st') = Evidence.time (store st) /\
    (operators (body x) = [] -> (forall n, In n (words (body x)) -> check_by_name (tab (atoms st)) n = true) ->
      tab (atoms st') = tab (atoms st))) \/
  (Actions.parse_task ord fresh room st [] (spread lead (spell_task x) pads) = UB /\
    exists w ops, in_order w ops /\ (forall n a, handed_out (atoms st) n a -> handed_out w n a) /\
      stuck ord (handed_out w) (by_occurrence (body x)) (body x)).
Proof using Horder Hfresh.
  intros Fi O P Le R U. pose proof (task_accepted x lead pads P Le) as Acc.
  pose proof (eq_trans (room_parse _ _ Fi) Acc) as Acc'.
  set (known := fun n => check_by_name (tab (atoms st)) n = true \/ In n (words (body x)) \/
    exists s, In s (operators (body x)) /\ n = ("^" ++ s)%string).
  set (calls := fun s => In s (operators (body x))).
  set (st0 := with_vars st [] [] []).
  destruct (words_words (body x) (or_introl (task_body x P))) as (_ & Wo).
  assert (Hops : forall s, calls s -> ~ known s /\ known ("^" ++ s)%string).
  { intros s I. destruct (U s I) as (U1 & U2). split; [|right; right; exists s; split; [exact I|reflexivity]].
    intros [K|[K|(s' & _ & K)]]; [congruence|contradiction|]. apply (word_plain_name s (Wo s I)). exists s'. exact K. }
  assert (N : named_well known calls (body x)) by (split; intros s I; [right; left; exact I|exact I]).
  assert (F : fine known (population (atoms st) + 2 * Z.of_nat (mentions (body x))) st0 (fun _ => []) (count (body x))).
  { constructor; [exact O| |left; exact H|cbn; apply Z.le_refl]. intros k. split; [destruct k; reflexivity|]. intros s. destruct k; reflexivity. }
  destruct (task_evaluated ord Horder fresh Hfresh known calls Hops _ R x st0 P N F)
    as [(st' & tk & E & O' & G & K & Po & M & Pu & St & Ti & Sa)|(E & w & ops & O' & G & S)].
  - left. unfold Actions.parse_task. rewrite Acc'. cbn [bind finish]. fold st0. rewrite E. cbn [bind].
    exists (with_pending st' []), tk. split; [reflexivity|].
    destruct (parsed_budget ord fresh unlimited _ _ _ _ _ _ I Acc E) as (n & tk1 & E1 & E2 & TB).
    destruct (parsed_truth ord fresh unlimited _ _ _ _ _ _ I Acc E) as (n2 & tk2 & E3 & E4 & TT).
    injection E1 as <-. injection E2 as <-. injection E3 as <-. injection E4 as <-.
    split; [|split; [exact O'|split; [exact G|split; [exact K|split; [exact Po|split; [exact Ti|]]]]]].
    2: { intros No Kn. apply Sa; [intros s I; unfold calls in I; rewrite No in I; exact I|]. intros n [Q|[Q|(s & Q & _)]]; [exact Q|apply Kn, Q|]. rewrite No in Q. destruct Q. }
    constructor; [exact M|exact Pu|exact St|apply valued_told; assumption|apply budgeted_told; assumption].
  - right. split; [unfold Actions.parse_task; rewrite Acc'; cbn [bind finish]; fold st0; rewrite E; reflexivity|].
    exists w, ops. split; [exact O'|]. split; [exact G|exact S].
Qed.

(** * Many tasks *)

Lemma says_later w w' now x tk : (forall n a, handed_out w n a -> handed_out w' n a) -> says ord w now x tk -> says ord w' now x tk.
Proof. intros G [A B C D E]. constructor; auto. eapply means_more; [exact G|intros k s i H; exact H|exact A]. Qed.

Definition bodies (l : list (task_form * nat * list nat)) : list form := map (fun x => body (task_in x)) l.

Theorem session_read room l : Forall (fun x => has_room room (text_for x)) l -> forall st, in_order (atoms st) (operations st) -> Forall proper_text l ->
  population (atoms st) + 2 * Z.of_nat (list_sum (map mentions (bodies l))) < 4294967295 ->
  (forall s, In s (concat (map operators (bodies l))) ->
    ~ In s (concat (map words (bodies l))) /\ check_by_name (tab (atoms st)) s = false) ->
  (exists st' vs, readings ord fresh room st [] (map text_for l) = Ok (st', [], vs) /\
    in_order (atoms st') (operations st') /\
    (forall n a, handed_out (atoms st) n a -> handed_out (atoms st') n a) /\
    Forall2 (fun x v => exists tk, v = (Some (VTask tk), false) /\
      says ord (atoms st') (Evidence.to_int (Evidence.time (store st))) (task_in x) tk) l vs) \/
  (readings ord fresh room st [] (map text_for l) = UB /\
    exists x w ops, In x (bodies l) /\ in_order w ops /\ stuck ord (handed_out w) (by_occurrence x) x).
Proof using Horder Hfresh.
  induction l as [|[[x lead] pads] l IH]; intros Fi st O F R U.
  - left. exists st, []. split; [reflexivity|]. split; [exact O|]. split; [intros n a H; exact H|constructor].
  - inversion F as [|? ? (P & Le) F']; subst. cbn [task_in fst snd] in P, Le.
    cbn [bodies map list_sum fold_right] in R, U. cbn [task_in fst] in R, U. fold (bodies l) in R, U. cbn [concat] in U.
    fold (list_sum (map mentions (bodies l))) in R.
    cbn [map readings]. change (text_for (x, lead, pads)) with (spread lead (spell_task x) pads).
    inversion Fi as [|? ? Fi1 Fi2]; subst. destruct (task_read room st x lead pads Fi1 O P Le) as [(st1 & tk & E & S & O1 & G & K & Po & Ti & _)|(E & w & ops & O1 & G & S)].
    + unfold list_sum in R. lia.
    + intros s I. destruct (U s (in_or_app _ _ _ (or_introl I))) as (A & B). split; [|exact B].
      intros Q. apply A, in_or_app. left. exact Q.
    + rewrite E. cbn [bind].
      assert (U1 : forall s, In s (concat (map operators (bodies l))) ->
        ~ In s (concat (map words (bodies l))) /\ check_by_name (tab (atoms st1)) s = false).
      { intros s I. destruct (U s (in_or_app _ _ _ (or_intror I))) as (A & B). split.
        - intros Q. apply A, in_or_app. right. exact Q.
        - apply not_true_iff_false. intros C. destruct (K s C) as [C'|[C'|C']]; [congruence|apply A, in_or_app; left; exact C'|].
          destruct C' as (s' & _ & C'). assert (On : operator_name s) by (exists s'; exact C'). clear C'. rename On into C'.
          apply in_concat in I as (r & I1 & I2). apply in_map_iff in I1 as (f & <- & I1).
          unfold bodies in I1. apply in_map_iff in I1 as (y & <- & I1). rewrite Forall_forall in F'. destruct (F' y I1) as (Py & _).
          exact (word_plain_name s (proj2 (words_words _ (or_introl (task_body _ Py))) s I2) C'). }
      destruct (IH Fi2 st1 O1 F' ltac:(unfold list_sum in *; lia) U1) as [(st2 & vs & E2 & O2 & G2 & F2)|(E2 & y & w & ops & I & O2 & S2)]; rewrite E2; cbn [bind].
      * left. exists st2, ((Some (VTask tk), false) :: vs). split; [reflexivity|]. split; [exact O2|].
        split; [intros n a H; apply G2, G, H|]. rewrite Ti in F2. constructor; [|exact F2].
        exists tk. split; [reflexivity|]. eapply says_later; [exact G2|exact S].
      * right. split; [reflexivity|]. exists y, w, ops. split; [right; exact I|]. split; [exact O2|exact S2].
    + rewrite E. cbn [bind]. right. split; [reflexivity|]. exists (body x), w, ops. split; [left; reflexivity|]. split; [exact O1|exact S].
Qed.
End Reading.
