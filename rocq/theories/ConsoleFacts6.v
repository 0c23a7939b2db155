(* Sessions at the console with refused lines. *)
From Coq Require Import ZArith String Ascii List Bool Arith Lia.
From Verif Require Import Base Tables Parser ParserSpec ParserFacts3 ParserRuns  Buffer BufferSpec BufferFacts.
From Verif Require Import Console ConsoleSpec ConsoleSpec3 ConsoleFacts ConsoleFacts2 ConsoleFacts3.
Import ListNotations.
Open Scope list_scope.
Open Scope Z_scope.

Lemma consoles_app room : forall es1 es2 b stream b1 b2,
  consoles room (length es1) b stream = Ok (es1, b1) -> consoles room (length es2) b1 (queue b1) = Ok (es2, b2) ->
  consoles room (length (es1 ++ es2)) b stream = Ok (es1 ++ es2, b2).
Proof.
  induction es1 as [|e es1 IH]; intros es2 b stream b1 b2 E1 E2; cbn [length consoles app] in *.
  - injection E1 as <-. cbn [queue] in E2. destruct es2 as [|e2 es2]; cbn [length consoles] in *.
    + injection E2 as <-. reflexivity.
    + exact E2.
  - destruct (console room b stream) as [[e' b']| | |] eqn:E; cbn [bind] in *; try discriminate.
    destruct (consoles room (length es1) b' (queue b')) as [[es' b'']| | |] eqn:E'; cbn [bind] in *; try discriminate.
    injection E1 as <- <- <-. rewrite (IH es2 _ _ _ _ E' E2). reflexivity.
Qed.

Lemma bytes_split s l1 l2 : bytes s = l1 ++ l2 -> exists s1 s2, s = (s1 ++ s2)%string /\ bytes s1 = l1 /\ bytes s2 = l2.
Proof.
  revert l1. induction s as [|c s IH]; intros l1 E.
  - destruct l1; [|discriminate]. exists ""%string, ""%string. cbn in E. subst l2. auto.
  - destruct l1 as [|v l1].
    + exists ""%string, (String c s). auto.
    + cbn in E. injection E as <- E. destruct (IH l1 E) as (s1 & s2 & -> & B1 & B2).
      exists (String c s1), s2. split; [reflexivity|]. split; [cbn; f_equal; exact B1|exact B2].
Qed.

Lemma bytes_length s : length (bytes s) = String.length s.
Proof. unfold bytes. rewrite map_length. induction s; [reflexivity|]. cbn. f_equal. assumption. Qed.

Lemma short_parse room s : short_line room s -> (match room with Some n => 1 <= n | None => True end)%nat /\ (String.length s <= 127)%nat /\
  (parse room [] s = Ok (Rejected, []) \/ exists t, parse room [] s = Ok (Accepted t, [])).
Proof.
  intros [[-> L]|[-> L]].
  - split; [exact I|]. split; [exact L|]. destruct (parse_total [] s) as [E|(t & E & _)]; eauto.
  - split; [cbn; lia|]. split; [lia|]. destruct (short_input s L) as [_ [E|(t & E)]]; eauto.
Qed.

Lemma line_answered room : forall n s b later, (String.length s < n)%nat -> idle b -> plain s -> short_line room s ->
  exists es b', consoles room (length es) b (typed s ++ later) = Ok (es, b') /\ answers room s es /\ idle b' /\ queue b' = later.
Proof.
  induction n as [|n IH]; intros s b later Ln ID P SL; [lia|].
  destruct (short_parse room s SL) as (RM & L & [E|(t & E)]).
  - destruct (console_read room b s later _ RM ID P L E) as (e & b1 & E1 & SM & I1 & _).
    destruct e as [t|p token]; [destruct SM|].
    assert (E2 := E1). unfold typed in E2. rewrite <- app_assoc in E2. cbn [app] in E2.
    destruct (console_left _ _ _ _ _ _ (proj1 ID) (plain_newline s P) E2) as [Q|(_ & l1 & l2 & X & Q)].
    + exists [Failed p token], (Buf (cells b1) (used b1) (queue b1) (ended b1)). cbn [length consoles].
      rewrite E1. cbn [bind]. split; [reflexivity|]. split; [apply A_refused; exact E|]. split; [exact I1|exact Q].
    + pose proof (console_progress _ _ _ _ _ (proj1 ID) E2 ltac:(destruct (bytes s); discriminate)) as PR.
      destruct (bytes_split _ _ _ X) as (s1 & s2 & -> & B1 & B2).
      assert (N1 : s1 <> ""%string).
      { intros ->. cbn in B1. subst l1. cbn [app] in X. rewrite Q, X in PR. lia. }
      assert (LL : (String.length s2 < String.length (s1 ++ s2))%nat).
      { rewrite <- !bytes_length, X, B2, app_length, <- B1, bytes_length. destruct s1; [congruence|]. cbn. lia. }
      destruct (IH s2 b1 later) as (es & b2 & E3 & A & I2 & Q2); [lia|exact I1| | |].
      * unfold plain in *. rewrite X in P. apply Forall_app in P. rewrite B2. apply P.
      * destruct SL as [[R K]|[R K]]; [left|right]; (split; [exact R|lia]).
      * exists (Failed p token :: es), b2. cbn [length consoles]. rewrite E1. cbn [bind]. rewrite Q.
        replace (l2 ++ 10 :: later) with (typed s2 ++ later) by (unfold typed; rewrite B2, <- app_assoc; reflexivity).
        rewrite E3. cbn [bind]. split; [reflexivity|]. split; [|auto]. exact (A_again room _ s1 s2 p token es E eq_refl N1 A).
  - destruct (console_read room b s later _ RM ID P L E) as (e & b1 & E1 & SM & I1 & Q).
    destruct e as [t'|p token]; [|destruct SM]. cbn [same] in SM. subst t'.
    exists [Built t], (Buf (cells b1) (used b1) (queue b1) (ended b1)). cbn [length consoles].
    rewrite E1. cbn [bind]. split; [reflexivity|]. split; [apply A_read; exact E|]. split; [exact I1|]. apply Q. discriminate.
Qed.

Theorem lines_answered room : forall lines b later, idle b -> Forall (fun s => plain s /\ short_line room s) lines ->
  exists groups b', consoles room (length (concat groups)) b (concat (map typed lines) ++ later) = Ok (concat groups, b') /\
    Forall2 (answers room) lines groups /\ idle b' /\ queue b' = later.
Proof.
  induction lines as [|s lines IH]; intros b later ID F.
  - exists []. eexists. split; [reflexivity|]. split; [constructor|]. split; [exact ID|reflexivity].
  - inversion F as [|? ? [P L] F']; subst. cbn [map concat]. rewrite <- app_assoc.
    destruct (line_answered room (S (String.length s)) s b (concat (map typed lines) ++ later) ltac:(lia) ID P L) as (es & b1 & E1 & A & I1 & Q1).
    destruct (IH b1 later I1 F') as (groups & b2 & E2 & AA & I2 & Q2).
    exists (es :: groups), b2. cbn [concat]. split; [|split; [constructor; assumption|auto]].
    apply consoles_app with b1; [exact E1|]. rewrite Q1. exact E2.
Qed.

(* As many calls as the line has characters and one *)
Lemma answers_length room s es : answers room s es -> (1 <= length es <= S (String.length s))%nat.
Proof.
  induction 1 as [| |s s1 s2 p token es E -> N A IH]; cbn [length]; [lia|lia|].
  rewrite <- !bytes_length in *. assert (X : bytes (s1 ++ s2) = bytes s1 ++ bytes s2).
  { clear. induction s1 as [|c s1 IH]; [reflexivity|]. cbn. f_equal. exact IH. }
  rewrite X, app_length. destruct s1; [congruence|]. cbn. lia.
Qed.

Lemma answers_built room s es t : answers room s es -> parse room [] s = Ok (Accepted t, []) -> es = [Built t].
Proof. intros A E. inversion A; subst; congruence. Qed.
