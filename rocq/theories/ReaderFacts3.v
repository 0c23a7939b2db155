(* Proper texts in a file, printed with or without colours. *)
From Coq Require Import ZArith Lia String Ascii List Bool.
From Verif Require Import Base Enums Term TermFacts Maps MapsFacts Compound CompoundFacts Actions ActionsFacts ActionsFacts3 Printer PrinterSpec PrinterFacts PrinterFacts2 PrinterFacts4.
From Verif Require Import Forms FormFacts8 Sessions SessionsSpec SessionsFacts SessionsFacts2 SessionsFacts3 SessionsFacts4.
From Verif Require Import Interning InterningSpec InterningFacts InterningFacts2 InterningFacts3.
From Verif Require Import Reader ReaderSpec ReaderFacts.
From Verif Require Evidence Parser Truth.
From Verif Require Import Float.
Import ListNotations.
Open Scope string_scope.
Open Scope list_scope.
Local Open Scope Z_scope.

Lemma ground_ok c x : exists s, bg c " {:.2f} " [AFloat x] = Ok s.
Proof. eexists. unfold bg, styled, format. cbn -[fixed escape]. reflexivity. Qed.

Lemma four_texts a b c d : format "{}{}{} {}" [AText a; AText b; AText c; AText d] = Ok (a ++ b ++ c ++ " " ++ d)%string.
Proof. unfold format. cbn. rewrite app_empty. reflexivity. Qed.

Lemma task_coloured names st t : 
  (exists s, interpret_task names false st t = Ok s) -> exists s, interpret_task names true st t = Ok s.
Proof.
  intros (s & E). unfold interpret_task in *.
  destruct (channel (rounded (to32 (priority (budget_of t))))) as [cp| | |]; cbn [bind] in *; try discriminate.
  destruct (channel (rounded (to32 (durability (budget_of t))))) as [cd| | |]; cbn [bind] in *; try discriminate.
  destruct (channel_quality (rounded (quality (budget_of t)))) as [cq| | |]; cbn [bind] in *; try discriminate.
  destruct (interpret_sentence names false st (sentence_of t)) as [w| | |]; cbn [bind] in *; try discriminate.
  destruct (ground_ok (RGB cp 10 10) (rounded (to32 (priority (budget_of t))))) as (a & ->).
  destruct (ground_ok (RGB 10 cd 10) (rounded (to32 (durability (budget_of t))))) as (b & ->).
  destruct (ground_ok (RGB 10 10 cq) (rounded (quality (budget_of t)))) as (c & ->). cbn [bind].
  rewrite four_texts. eexists. reflexivity.
Qed.

Lemma task_coloured_undefined names st t : interpret_task names false st t = UB ->
  interpret names false (content (sentence_of t)) = UB -> interpret_task names true st t = UB.
Proof.
  intros H E. unfold interpret_task, interpret_sentence in *. rewrite E in *. cbn [bind] in *.
  destruct (channel (rounded (to32 (priority (budget_of t))))); cbn [bind] in *; try exact H.
Qed.

Section Proper.
Variable ord : list (option connector * list term) -> list (option connector * list term).
Hypothesis Horder : any_order ord.
Variable fresh : world -> Z.
Hypothesis Hfresh : thoughtful fresh.
Variable room : option nat.
Variable colored : bool.

Lemma task_outcome_coloured names st w n x tk : says ord w n x tk ->
  (exists s, interpret_task names colored st tk = Ok s) \/
  interpret names false (content (sentence_of tk)) = UB /\ interpret_task names colored st tk = UB.
Proof.
  intros S. destruct (task_outcome ord names st w n x tk S) as [H|[E H]]; destruct colored.
  - left. exact (task_coloured names st tk H).
  - left. exact H.
  - right. split; [exact E|exact (task_coloured_undefined names st tk H E)].
  - right. split; assumption.
Qed.

Definition displayed (now : Z) (x : task_form * nat * list nat) (out : string) : Prop :=
  exists st tk names, reads_as ord now (task_in x) tk names /\ Evidence.to_int (Evidence.time st) = now /\
    interpret_task names colored st tk = Ok out.

Lemma shows_settled l : Forall (alone room) l -> forall d, settled d -> items d = [] ->
  (exists d' outs, in_turn (show ord fresh room colored) d (map text_for l) = Ok (d', outs) /\ settled d' /\ items d' = [] /\
     Forall2 (displayed (now d)) l outs) \/
  (in_turn (show ord fresh room colored) d (map text_for l) = UB /\ exists x, In x l /\
     ((exists w ops, in_order w ops /\ stuck ord (handed_out w) (by_occurrence (body (task_in x))) (body (task_in x))) \/
      (exists tk names, reads_as ord (now d) (task_in x) tk names /\ interpret names false (content (sentence_of tk)) = UB))).
Proof using Horder Hfresh.
  induction 1 as [|x l A _ IH]; intros d S I.
  - left. exists d, []. split; [reflexivity|]. split; [exact S|]. split; [exact I|constructor].
  - cbn [map in_turn]. set (g := in_turn (show ord fresh room colored)) in *. pose proof (alone_allowed room d x (st_tidy _ S) I A) as Al.
    destruct (settled_read ord Horder fresh Hfresh room d x S Al) as [(d1 & E1 & S1 & _ & W & N1)|(E1 & St)].
    + destruct (well_reads_as ord d x d1 S S1 I W) as (tk & k & I1 & Ra).
      unfold show. rewrite E1. cbn [bind]. rewrite I1, I. cbn [List.length Nat.eqb].
      change (dictionary_of (tab (atoms (reader d1)))) with (names_at d1).
      destruct Ra as (w & ops & Ow & Sa & Ra). destruct (task_outcome_coloured (names_at d1) (store (reader d1)) w (now d) (task_in x) tk Sa) as [(s & E2)|(E2 & E3)].
      * rewrite E2. cbn [bind]. destruct (tidy_release d1 0 (Kept (VTask tk) k) (st_tidy _ S1)) as (d2 & _ & _ & _ & E3 & _); [rewrite I1; reflexivity|].
        destruct (settled_release d1 0 d2 S1 E3) as (S2 & N2 & I2). rewrite I1 in I2. cbn [remove_nth] in I2.
        rewrite E3. cbn [bind]. destruct (IH d2 S2 I2) as [(d3 & outs & E4 & S3 & I3 & F3)|(E4 & y & Iy & Hy)].
        -- left. exists d3, (s :: outs). rewrite E4. cbn [bind]. split; [reflexivity|]. split; [exact S3|]. split; [exact I3|].
           rewrite N2, N1 in F3. constructor; [|exact F3].
           exists (store (reader d1)), tk, (names_at d1). split; [exists w, ops; split; [exact Ow|split; [exact Sa|exact Ra]]|].
           split; [rewrite <- N1; reflexivity|exact E2].
        -- right. rewrite E4. cbn [bind]. split; [reflexivity|]. exists y. split; [right; exact Iy|]. rewrite N2, N1 in Hy. exact Hy.
      * right. rewrite E3. cbn [bind]. split; [reflexivity|]. exists x. split; [left; reflexivity|]. right.
        exists tk, (names_at d1). split; [exists w, ops; split; [exact Ow|split; [exact Sa|exact Ra]]|exact E2].
    + right. unfold show. rewrite E1. cbn [bind]. split; [reflexivity|]. exists x. split; [left; reflexivity|]. left.
      destruct St as (w & ops & O & _ & St). exists w, ops. split; assumption.
Qed.

(* C167 *)
Theorem shows_print d l : orderly ord fresh room d -> items d = [] -> Forall (alone room) l ->
  (exists d' outs, in_turn (show ord fresh room colored) d (map text_for l) = Ok (d', outs) /\
     tab (atoms (reader d')) = empty_table /\ held (atoms (reader d')) = [] /\ items d' = [] /\
     Forall2 (fun x out => exists st tk names,
       reads_as ord (Evidence.to_int (Evidence.time (store (reader d)))) (task_in x) tk names /\
       Evidence.to_int (Evidence.time st) = Evidence.to_int (Evidence.time (store (reader d))) /\
       interpret_task names colored st tk = Ok out) l outs) \/
  (in_turn (show ord fresh room colored) d (map text_for l) = UB /\ exists x, In x l /\
     ((exists w ops, in_order w ops /\ stuck ord (handed_out w) (by_occurrence (body (task_in x))) (body (task_in x))) \/
      (exists tk names, reads_as ord (Evidence.to_int (Evidence.time (store (reader d)))) (task_in x) tk names /\
        interpret names false (content (sentence_of tk)) = UB))).
Proof using Horder Hfresh.
  intros Or I A. destruct (orderly_settled ord Horder fresh Hfresh room d Or) as [S _].
  destruct (shows_settled l A d S I) as [(d' & outs & E & S' & I' & F)|H]; [left|right; exact H].
  exists d', outs. split; [exact E|]. destruct S' as [[F' Ow] _ _]. rewrite I' in Ow. apply owns_nil in Ow.
  destruct (fit_empty _ F' Ow). split; [assumption|]. split; [assumption|]. split; [exact I'|exact F].
Qed.


(* C167 *)
Theorem file_prints d content ls l : orderly ord fresh room d -> items d = [] -> Forall (alone room) l ->
  lines_in content ls -> (forall k, In k ls -> ~ offending k) -> picks ls (map text_for l) ->
  (exists d' outs, read_file ord fresh room colored d content = Ok (d', outs) /\
     tab (atoms (reader d')) = empty_table /\ held (atoms (reader d')) = [] /\ items d' = [] /\
     Forall2 (fun x out => exists st tk names,
       reads_as ord (Evidence.to_int (Evidence.time (store (reader d)))) (task_in x) tk names /\
       Evidence.to_int (Evidence.time st) = Evidence.to_int (Evidence.time (store (reader d))) /\
       interpret_task names colored st tk = Ok out) l outs) \/
  (read_file ord fresh room colored d content = UB /\ exists x, In x l /\
     ((exists w ops, in_order w ops /\ stuck ord (handed_out w) (by_occurrence (body (task_in x))) (body (task_in x))) \/
      (exists tk names, reads_as ord (Evidence.to_int (Evidence.time (store (reader d)))) (task_in x) tk names /\
        interpret names false (Actions.content (sentence_of tk)) = UB))).
Proof using Horder Hfresh.
  intros Or I A L N P. rewrite (file_shows ord fresh room colored content ls _ L P N d). exact (shows_print d l Or I A).
Qed.

End Proper.
