(* Facts about sessions: proper texts, letting go of tasks in between. *)
From Coq Require Import ZArith Lia String Ascii List Bool.
From Verif Require Import Base Enums Term TermFacts Maps MapsFacts Compound CompoundFacts Actions ActionsFacts ActionsFacts3 Printer PrinterSpec PrinterFacts PrinterFacts2 PrinterFacts4.
From Verif Require Import Forms FormFacts8 Sessions SessionsSpec SessionsFacts SessionsFacts2 SessionsFacts3.
From Verif Require Import Interning InterningSpec InterningFacts InterningFacts2 InterningFacts3.
From Verif Require Evidence Parser Truth.
Import ListNotations.
Open Scope string_scope.
Open Scope list_scope.
Local Open Scope Z_scope.

Lemma operator_caret n : operator_name n <-> exists m, n = String "^"%char m.
Proof. split; intros (m & ->); exists m; reflexivity. Qed.

(* Handles that go leave the table in order. *)
Lemma order_fewer w w' ops : in_order w ops -> fit w' -> incl (handles w') (handles w) -> in_order w' ops.
Proof.
  intros O F I. pose proof (fit_sane _ F) as G. constructor.
  - intros n k N E. pose proof (s_inv _ G _ _ E) as D. destruct (fit_tight _ F _ _ D) as (a & K & H).
    destruct (sane_pointer w' _ G H) as (p & E1 & E2 & _). cbn [hat] in E1, E2. exists p, a. rewrite <- K. split; [exact E1|].
    split; [exact E2|]. split; [reflexivity|]. split; [rewrite K; exact D|]. apply I in H.
    destruct (order_handles _ _ O n a N H) as (E3 & q & E4 & E5). destruct (order_names _ _ O n _ N E3) as (q' & b & E6 & E7 & _ & _ & E8).
    rewrite E4 in E6. injection E6 as <-. rewrite E5 in E7. injection E7 as <-. exact E8.
  - intros n a N H. pose proof (s_handles _ G _ H) as D. cbn [hat hname] in D. split.
    + apply (s_names _ G); [|exact D]. intros m E. apply N, operator_caret. eauto.
    + destruct (sane_pointer w' _ G H) as (p & E1 & E2 & _). exists p. split; assumption.
  - intros n a N H. apply (order_operators _ _ O n a N). apply I. exact H.
  - apply G.
  - apply G.
Qed.

Section Proper.
Variable ord : list (option connector * list term) -> list (option connector * list term).
Hypothesis Horder : any_order ord.
Variable fresh : world -> Z.
Hypothesis Hfresh : thoughtful fresh.
Variable room : option nat.

Lemma thoughtful_careful : careful fresh.
Proof using Hfresh. intros w P. apply (Hfresh w P). Qed.

Record settled (d : desk) : Prop := Settled {
  st_tidy : tidy_desk d;
  st_left : leftover d = [];
  st_order : in_order (atoms (reader d)) (operations (reader d))
}.

Definition now (d : desk) : Z := Evidence.to_int (Evidence.time (store (reader d))).

Definition read_well (d : desk) (x : task_form * nat * list nat) (d' : desk) : Prop :=
  exists tk k w, items d' = Kept (VTask tk) k :: items d /\
    says ord w (now d) (task_in x) tk /\ in_order w (operations (reader d')) /\
    incl (handles (atoms (reader d))) (handles w) /\ incl (handles (atoms (reader d'))) (handles w) /\
    (forall n a, handed_out w n a -> In a (addresses (content (sentence_of tk))) -> handed_out (atoms (reader d')) n a).

Definition read_stuck (d : desk) (x : task_form * nat * list nat) : Prop :=
  exists w ops, in_order w ops /\ incl (handles (atoms (reader d))) (handles w) /\
    stuck ord (handed_out w) (by_occurrence (body (task_in x))) (body (task_in x)).

Lemma handles_incl w w' : (forall n a, handed_out w n a -> handed_out w' n a) -> incl (handles w) (handles w').
Proof. intros H [a n] I. exact (H n a I). Qed.

Lemma within_spec keep h : within keep h = true <-> In (hat h) keep.
Proof.
  unfold within. rewrite existsb_exists. split.
  - intros (a & I & E). apply Z.eqb_eq in E. rewrite E. exact I.
  - intros I. exists (hat h). split; [exact I|apply Z.eqb_refl].
Qed.

Lemma settled_read d x : settled d -> allowed room d x ->
  (exists d', read_text ord fresh room d (text_for x) = Ok d' /\ settled d' /\ uncrowded ord fresh room d (Read (text_for x)) /\
     read_well d x d' /\ now d' = now d) \/
  (read_text ord fresh room d (text_for x) = UB /\ read_stuck d x).
Proof using Horder Hfresh.
  destruct x as [[x lead] pads]. intros S (R & (P & Le) & Po & U). destruct S as [T L O]. cbn [task_in fst snd] in *.
  destruct (task_read ord Horder fresh thoughtful_careful room (reader d) x lead pads R O P Le Po U)
    as [(st & tk & E & Sa & O' & G & _ & Pop & Ti & _)|(E & w & ops & O' & G & St)].
  - left. change (spread lead (spell_task x) pads) with (text_for (x, lead, pads)) in E.
    assert (Un : uncrowded ord fresh room d (Read (text_for (x, lead, pads)))).
    { intros st2 rest v b E2. rewrite L, E in E2. injection E2 as <- _ _ _. lia. }
    destruct (parse_own ord Horder fresh _ _ _ _ _ _ _ E) as (hs & Gr & I).
    pose proof (grows_fit fresh Hfresh _ _ _ (td_fit _ T) Gr ltac:(lia)) as F.
    pose proof (grows_handles _ _ _ _ Gr) as Hh.
    destruct (sift_spec (atoms_of (VTask tk)) hs [] (handles (atoms (reader d))) _ F Hh) as (w' & Es & F' & Hw & Dw).
    cbn [app length] in Es, Hw.
    assert (Lh : (length (handles (atoms st)) - length (handles (atoms (reader d))) = length hs)%nat) by (rewrite Hh, app_length; lia).
    assert (Er : read_text ord fresh room d (text_for (x, lead, pads)) =
      Ok (Desk (with_atoms st w' (operations st)) [] (Kept (VTask tk) (length (filter (within (atoms_of (VTask tk))) hs)) :: items d))).
    { unfold read_text. rewrite L, E. cbn [bind]. rewrite Lh, Es. reflexivity. }
    assert (Iw : incl (handles w') (handles (atoms st))).
    { rewrite Hw, Hh. intros h H. apply in_app_or in H as [H|H]; [apply filter_In in H as [H _]|]; apply in_or_app; auto. }
    eexists. split; [exact Er|]. split; [|split; [exact Un|split]].
    + constructor; [|reflexivity|].
      * exact (proj1 (tidy_read ord Horder fresh Hfresh room _ _ _ T Un Er)).
      * cbn [reader with_atoms atoms operations]. apply (order_fewer (atoms st)); assumption.
    + exists tk. eexists. exists (atoms st). split; [reflexivity|]. split; [exact Sa|].
      cbn [reader with_atoms atoms operations]. split; [exact O'|].
      split; [apply handles_incl; exact G|]. split; [exact Iw|].
      intros n a H Ha. unfold handed_out in *. rewrite Hw. rewrite Hh in H. apply in_app_or in H as [H|H]; apply in_or_app; [left|auto].
      apply filter_In. split; [exact H|]. apply within_spec. cbn [hat]. rewrite held_by_atoms. exact Ha.
    + unfold now. cbn [reader with_atoms store]. rewrite Ti. reflexivity.
  - right. change (spread lead (spell_task x) pads) with (text_for (x, lead, pads)) in E. split.
    + unfold read_text. rewrite L, E. reflexivity.
    + exists w, ops. split; [exact O'|]. split; [apply handles_incl; exact G|exact St].
Qed.

Lemma settled_release d i d' : settled d -> release d i = Ok d' -> settled d' /\ now d' = now d /\ items d' = remove_nth i (items d).
Proof.
  intros [T L O] E. destruct (nth_error (items d) i) as [it|] eqn:N; [|unfold release in E; rewrite N in E; discriminate E].
  destruct (tidy_release d i it T N) as (d2 & l & m & r & E2 & T2 & I2 & H1 & H2 & L2 & S2 & _ & Op).
  rewrite E in E2. apply Ok_inj in E2. subst d2. split; [|split; [unfold now; rewrite S2; reflexivity|exact I2]].
  constructor; [exact T2|rewrite L2; exact L|]. rewrite Op. apply (order_fewer (atoms (reader d))); [exact O|exact (td_fit _ T2)|].
  rewrite H1, H2. intros h H. apply in_app_or in H as [H|H]; apply in_or_app; [auto|]. right. apply in_or_app. auto.
Qed.

Lemma settled_start st : atoms st = world0 -> settled (Desk st [] []).
Proof.
  intros E. constructor; [apply tidy_start; exact E|reflexivity|]. cbn [reader]. rewrite E.
  constructor; cbn; try discriminate; try lia; intros n a _ [].
Qed.

Lemma orderly_settled d : orderly ord fresh room d -> settled d /\ reached ord fresh room d.
Proof using Horder Hfresh.
  induction 1 as [st E|d x d' _ [S R] A E|d i d' _ [S R] E].
  - split; [apply settled_start; exact E|constructor; exact E].
  - destruct (settled_read d x S A) as [(d2 & E2 & S2 & U & _)|(E2 & _)]; rewrite E in E2; [|discriminate E2].
    apply Ok_inj in E2. subst d2. split; [exact S2|]. eapply re_step; [exact R|exact U|exact E].
  - split; [exact (proj1 (settled_release _ _ _ S E))|]. eapply (re_step _ _ _ d (Release i)); [exact R|exact I|exact E].
Qed.

(* C127 *)
Theorem proper_sessions d x : orderly ord fresh room d -> allowed room d x ->
  (exists d' tk k w, read_text ord fresh room d (text_for x) = Ok d' /\ items d' = Kept (VTask tk) k :: items d /\
     says ord w (Evidence.to_int (Evidence.time (store (reader d)))) (task_in x) tk /\ in_order w (operations (reader d')) /\
     incl (handles (atoms (reader d))) (handles w) /\ incl (handles (atoms (reader d'))) (handles w) /\
     (forall n a, handed_out w n a -> In a (addresses (content (sentence_of tk))) -> handed_out (atoms (reader d')) n a)) \/
  (read_text ord fresh room d (text_for x) = UB /\
     exists w ops, in_order w ops /\ incl (handles (atoms (reader d))) (handles w) /\
       stuck ord (handed_out w) (by_occurrence (body (task_in x))) (body (task_in x))).
Proof using Horder Hfresh.
  intros Or A. destruct (orderly_settled d Or) as [S _].
  destruct (settled_read d x S A) as [(d' & E & _ & _ & (tk & k & w & W) & _)|(E & St)].
  - left. exists d', tk, k, w. split; [exact E|exact W].
  - right. split; [exact E|exact St].
Qed.

(* ---- reading, printing, letting go ---- *)

Lemma atom_outcome names op a : exists s, interpret names false (Atom op a) = Ok s.
Proof.
  cbn [interpret]. generalize (names (int32 (thash (Atom op a)))). intros [s|]; [eexists; reflexivity|].
  unfold interpret_unknown. destruct op; eexists; cbn; reflexivity.
Qed.

Lemma shadowed_statement names c s p m : names (key (Stmt c s p)) = Some m -> interpret names false (Stmt c s p) = Ok m.
Proof. unfold key. cbn [interpret]. generalize (names (int32 (thash (Stmt c s p)))). intros o ->. reflexivity. Qed.

Lemma shadowed_compound names c l m : names (key (Comp c l)) = Some m -> interpret names false (Comp c l) = Ok m.
Proof. unfold key. cbn [interpret]. generalize (names (int32 (thash (Comp c l)))). intros o ->. reflexivity. Qed.

Definition outcome (names : Z -> option string) (t : term) : Prop :=
  (exists s, interpret names false t = Ok s) \/ interpret names false t = UB.

Lemma texts_outcome names l : Forall (outcome names) l -> (exists v, texts names l = Ok v) \/ texts names l = UB.
Proof.
  induction 1 as [|t l H _ IH]; [left; eexists; reflexivity|].
  change (texts names (t :: l)) with (bind (interpret names false t) (fun s => bind (texts names l) (fun v => Ok (s :: v)))).
  destruct H as [(s & ->)| ->]; [|right; reflexivity]. destruct IH as [(v & ->)| ->]; [left; eexists; reflexivity|right; reflexivity].
Qed.

Lemma statement_outcome names c s p : outcome names s -> match s with Comp _ l => Forall (outcome names) l | _ => True end ->
  outcome names p -> outcome names (Stmt c s p).
Proof.
  intros IHs IHl IHp. unfold outcome. destruct (names (key (Stmt c s p))) as [m|] eqn:E.
  { left. exists m. apply shadowed_statement. exact E. }
  destruct (is_operation p) eqn:O.
  - rewrite (interpret_operation names c s p E O). clear E. destruct IHp as [(u & ->)| ->]; [|right; reflexivity]. cbn [bind].
    destruct s as [| | | |c' l]; try (right; reflexivity). destruct (texts_outcome names l IHl) as [(v & ->)| ->]; [left; eexists; reflexivity|right; reflexivity].
  - rewrite (interpret_statement names c s p E O). clear E. destruct IHs as [(u & ->)| ->]; [|right; reflexivity]. cbn [bind].
    destruct IHp as [(v & ->)| ->]; [left; eexists; reflexivity|right; reflexivity].
Qed.

Lemma compound_outcome names c l : Forall (outcome names) l -> outcome names (Comp c l).
Proof.
  intros IHl. unfold outcome. destruct (names (key (Comp c l))) as [m|] eqn:E.
  { left. exists m. apply shadowed_compound. exact E. }
  destruct l as [|t l]; [right; apply interpret_empty; exact E|].
  rewrite (interpret_compound names c (t :: l) E) by discriminate. clear E.
  destruct (texts_outcome names (t :: l) IHl) as [(v & ->)| ->]; [left; eexists; reflexivity|right; reflexivity].
Qed.

Lemma plain_outcome names : forall t, outcome names t.
Proof.
  apply term_deep.
  - intros op a. left. apply atom_outcome.
  - intros k i. left. eexists. reflexivity.
  - intros n. left. eexists. apply interpret_interval.
  - exact (statement_outcome names).
  - exact (compound_outcome names).
Qed.

Lemma task_outcome names st w n x tk : says ord w n x tk ->
  (exists s, interpret_task names false st tk = Ok s) \/
  interpret names false (content (sentence_of tk)) = UB /\ interpret_task names false st tk = UB.
Proof.
  intros S. destruct (plain_outcome names (content (sentence_of tk))) as [(s & E)|E].
  - left.
    assert (T : exists u, interpret_truth false (sentence_of tk) = Ok u).
    { unfold interpret_truth. pose proof (says_truth _ _ _ _ _ S) as V. rewrite (says_mark _ _ _ _ _ S) in *.
      destruct (mark x); cbn [valued] in V; try (eexists; reflexivity);
        destruct V as (v & -> & _); rewrite format_truth; eexists; reflexivity. }
    destruct T as (u & T).
    assert (X : exists y, interpret_sentence names false st (sentence_of tk) = Ok y).
    { unfold interpret_sentence. rewrite E, T. cbn [bind].
      destruct (Evidence.is_eternal (stamp_of (sentence_of tk))); [|rewrite format_tense]; cbn [bind]; rewrite format_sentence; eexists; reflexivity. }
    destruct X as (y & X). destruct (task_text names st tk y X) as (a & b & c & Y & _). eexists. exact Y.
  - right. split; [exact E|]. unfold interpret_task, interpret_sentence. rewrite E.
    destruct (shows_double (priority (budget_of tk))) as [P [[x1 PC] _]].
    destruct (shows_double (durability (budget_of tk))) as [D [[y1 DC] _]].
    destruct (shows_single (quality (budget_of tk))) as [Q [_ [z1 QC]]].
    rewrite PC, DC, QC. reflexivity.
Qed.

Definition printed (now : Z) (x : task_form * nat * list nat) (out : string) : Prop :=
  exists st tk names, reads_as ord now (task_in x) tk names /\ Evidence.to_int (Evidence.time st) = now /\
    interpret_task names false st tk = Ok out.

Lemma alone_allowed d x : tidy_desk d -> items d = [] -> alone room x -> allowed room d x.
Proof.
  intros [F Ow] I (R & P & M & U). rewrite I in Ow. apply owns_nil in Ow. destruct (fit_empty _ F Ow) as [T H].
  split; [exact R|]. split; [exact P|]. split.
  - unfold population. rewrite H, Ow. cbn [length]. lia.
  - intros s Hs. split; [exact (U s Hs)|]. rewrite T. reflexivity.
Qed.

Lemma well_reads_as d x d' : settled d -> settled d' -> items d = [] -> read_well d x d' ->
  exists tk k, items d' = [Kept (VTask tk) k] /\ reads_as ord (now d) (task_in x) tk (names_at d').
Proof.
  intros [[F Ow] _ _] [[F' Ow'] _ _] E (tk & k & w & I & S & O & H1 & H2 & H3). rewrite E in I. exists tk, k. split; [exact I|].
  exists w, (operations (reader d')). split; [exact O|]. split; [exact S|]. split.
  - intros n a H Ha. exact (s_handles _ (fit_sane _ F') _ (H3 n a H Ha)).
  - intros k0 n Hn. destruct (fit_tight _ F' _ _ Hn) as (a & K & H). exists a.
    rewrite I in Ow'. destruct (owns_owner _ _ _ Ow' H) as (it & [<-|[]] & Ha). cbn [item held_by hat] in Ha.
    split; [exact Ha|]. split; [exact K|apply H2; exact H].
Qed.

Lemma rounds_settled l : Forall (alone room) l -> forall d, settled d -> items d = [] ->
  (exists d' outs, rounds ord fresh room d (map text_for l) = Ok (d', outs) /\ settled d' /\ items d' = [] /\
     Forall2 (printed (now d)) l outs) \/
  (rounds ord fresh room d (map text_for l) = UB /\ exists x, In x l /\
     ((exists w ops, in_order w ops /\ stuck ord (handed_out w) (by_occurrence (body (task_in x))) (body (task_in x))) \/
      (exists tk names, reads_as ord (now d) (task_in x) tk names /\ interpret names false (content (sentence_of tk)) = UB))).
Proof using Horder Hfresh.
  induction 1 as [|x l A _ IH]; intros d S I.
  - left. exists d, []. split; [reflexivity|]. split; [exact S|]. split; [exact I|constructor].
  - cbn [map rounds]. pose proof (alone_allowed d x (st_tidy _ S) I A) as Al.
    destruct (settled_read d x S Al) as [(d1 & E1 & S1 & _ & W & N1)|(E1 & St)].
    + destruct (well_reads_as d x d1 S S1 I W) as (tk & k & I1 & Ra).
      unfold one_round. rewrite E1. cbn [bind]. rewrite I1, I. cbn [length Nat.eqb].
      change (dictionary_of (tab (atoms (reader d1)))) with (names_at d1).
      destruct Ra as (w & ops & Ow & Sa & Ra). destruct (task_outcome (names_at d1) (store (reader d1)) w (now d) (task_in x) tk Sa) as [(s & E2)|(E2 & E3)].
      * rewrite E2. cbn [bind]. destruct (tidy_release d1 0 (Kept (VTask tk) k) (st_tidy _ S1)) as (d2 & _ & _ & _ & E3 & _); [rewrite I1; reflexivity|].
        destruct (settled_release d1 0 d2 S1 E3) as (S2 & N2 & I2). rewrite I1 in I2. cbn [remove_nth] in I2.
        rewrite E3. cbn [bind]. destruct (IH d2 S2 I2) as [(d3 & outs & E4 & S3 & I3 & F3)|(E4 & y & Iy & Hy)].
        -- left. exists d3, (s :: outs). rewrite E4. cbn [bind]. split; [reflexivity|]. split; [exact S3|]. split; [exact I3|].
           rewrite N2, N1 in F3. constructor; [|exact F3].
           exists (store (reader d1)), tk, (names_at d1). split; [exists w, ops; split; [exact Ow|split; [exact Sa|exact Ra]]|].
           split; [rewrite <- N1; reflexivity|exact E2].
        -- right. rewrite E4. cbn [bind]. split; [reflexivity|]. exists y. split; [right; exact Iy|]. rewrite N2, N1 in Hy. exact Hy.
      * right. rewrite E3. cbn [bind]. split; [reflexivity|]. exists x. split; [left; reflexivity|]. right.
        exists tk, (names_at d1). split; [exists w, ops; split; [exact Ow|split; [exact Sa|exact Ra]]|exact E2].
    + right. unfold one_round. rewrite E1. cbn [bind]. split; [reflexivity|]. exists x. split; [left; reflexivity|]. left.
      destruct St as (w & ops & O & _ & St). exists w, ops. split; assumption.
Qed.

(* C128 *)
Theorem rounds_print d l : orderly ord fresh room d -> items d = [] -> Forall (alone room) l ->
  (exists d' outs, rounds ord fresh room d (map text_for l) = Ok (d', outs) /\
     tab (atoms (reader d')) = empty_table /\ held (atoms (reader d')) = [] /\ items d' = [] /\
     Forall2 (fun x out => exists st tk names,
       reads_as ord (Evidence.to_int (Evidence.time (store (reader d)))) (task_in x) tk names /\
       Evidence.to_int (Evidence.time st) = Evidence.to_int (Evidence.time (store (reader d))) /\
       interpret_task names false st tk = Ok out) l outs) \/
  (rounds ord fresh room d (map text_for l) = UB /\ exists x, In x l /\
     ((exists w ops, in_order w ops /\ stuck ord (handed_out w) (by_occurrence (body (task_in x))) (body (task_in x))) \/
      (exists tk names, reads_as ord (Evidence.to_int (Evidence.time (store (reader d)))) (task_in x) tk names /\
        interpret names false (content (sentence_of tk)) = UB))).
Proof using Horder Hfresh.
  intros Or I A. destruct (orderly_settled d Or) as [S _].
  destruct (rounds_settled l A d S I) as [(d' & outs & E & S' & I' & F)|H]; [left|right; exact H].
  exists d', outs. split; [exact E|]. destruct S' as [[F' Ow] _ _]. rewrite I' in Ow. apply owns_nil in Ow.
  destruct (fit_empty _ F' Ow). split; [assumption|]. split; [assumption|]. split; [exact I'|exact F].
Qed.

End Proper.
