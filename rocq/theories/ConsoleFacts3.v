(* Sessions at the console. *)
From Coq Require Import ZArith String Ascii List Bool Arith Lia.
From Verif Require Import Base Tables Parser ParserSpec Buffer BufferSpec BufferFacts BufferFacts3 Term Actions.
From Verif Require Import Console ConsoleSpec ConsoleFacts ConsoleFacts2.
From Verif Require Interning.
Import ListNotations.
Open Scope list_scope.
Open Scope Z_scope.

Lemma line_short s : (length (line s) <= String.length s)%nat.
Proof. induction s as [|c s IH]; cbn [line String.length]; [reflexivity|]. destruct (_ || _); cbn [length]; lia. Qed.

Lemma plain_newline s : plain s -> ~ In 10 (bytes s).
Proof. unfold plain. rewrite Forall_forall. intros F I. destruct (F _ I). congruence. Qed.

Lemma console_read room b s later o : (match room with Some n => 1 <= n | None => True end)%nat -> idle b ->
  plain s -> (String.length s <= 127)%nat -> parse room [] s = Ok (o, []) ->
  exists e b', console room b (typed s ++ later) = Ok (e, b') /\ same o e /\ idle b' /\
    (o <> Rejected -> queue b' = later).
Proof.
  intros RM ID P L E. pose proof (line_short s) as LS.
  destruct (mparse_short room b s RM ID ltac:(lia)) as [[U _]|(o' & e & b' & E1 & E2 & SM & I')]; [congruence|].
  rewrite E in E1. injection E1 as <-.
  pose proof (console_line room b s later RM ID P) as CL. rewrite E2 in CL. cbn [before] in CL.
  eexists _, _. split; [exact CL|]. split; [exact SM|]. split; [exact I'|]. intros NR. cbn [queue].
  unfold typed in CL. rewrite <- app_assoc in CL. cbn [app] in CL.
  destruct (console_left _ _ _ _ _ _ (proj1 ID) (plain_newline s P) CL) as [Q|((p & t & ->) & _)]; [exact Q|].
  destruct o; [destruct SM|congruence].
Qed.

Lemma consoles_read room : (match room with Some n => 1 <= n | None => True end)%nat ->
  forall lines trees b later, idle b -> Forall (fun s => plain s /\ String.length s <= 127)%nat lines ->
  Forall2 (fun s t => parse room [] s = Ok (Accepted t, [])) lines trees ->
  exists b', consoles room (length lines) b (concat (map typed lines) ++ later) = Ok (map Built trees, b') /\
    idle b' /\ queue b' = later.
Proof.
  intros RM. induction lines as [|s lines IH]; intros trees b later ID F F2; inversion F2; subst.
  - eexists. split; [reflexivity|]. split; [exact ID|reflexivity].
  - inversion F as [|? ? [P L] F']; subst. cbn [length map concat consoles]. rewrite <- app_assoc.
    destruct (console_read room b s (concat (map typed lines) ++ later) _ RM ID P L H1) as (e & b1 & E1 & SM & I1 & Q1).
    rewrite E1. cbn [bind]. rewrite Q1 by discriminate.
    destruct (IH l' b1 later I1 F' H3) as (b2 & E2 & I2 & Q2). rewrite E2. cbn [bind].
    destruct e as [t'|]; [|destruct SM]. cbn [same] in SM. subst t'. exists b2. auto.
Qed.

Lemma finish_cleared ord fresh st o : ivars st = [] -> dvars st = [] -> qvars st = [] ->
  finish_input ord fresh st o = finish ord fresh st o.
Proof. intros I D Q. destruct st. cbn in I, D, Q. subst. reflexivity. Qed.

Lemma parse_input_cleared ord fresh room st b s later st' v thrown :
  (match room with Some n => 1 <= n | None => True end)%nat -> idle b -> plain s -> (String.length s <= 127)%nat ->
  ivars st = [] -> dvars st = [] -> qvars st = [] ->
  parse_task ord fresh room st [] s = Ok (st', [], v, thrown) ->
  exists b', parse_input ord fresh room st b (typed s ++ later) = Ok (st', b', v, thrown) /\ idle b'.
Proof.
  intros RM ID P L I D Q E. unfold parse_task in E.
  destruct (parse room [] s) as [[o left]| | |] eqn:EP; cbn [bind] in E; try discriminate.
  destruct (finish ord fresh st o) as [[[st1 v1] th1]| | |] eqn:EF; cbn [bind] in E; try discriminate.
  injection E as -> -> -> ->.
  destruct (console_read room b s later o RM ID P L EP) as (e & b' & E1 & SM & I1 & _).
  exists b'. split; [|exact I1]. unfold parse_input. rewrite E1. cbn [bind].
  replace (outcome_of e) with o by (destruct o, e; cbn in SM; try contradiction; [rewrite SM|]; reflexivity).
  rewrite finish_cleared by assumption. rewrite EF. reflexivity.
Qed.
