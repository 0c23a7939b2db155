(* Proofs about the memory of the semantic actions: sessions *)
From Coq Require Import ZArith String Ascii List Bool Lia Permutation.
From Verif Require Import Base Enums Term Terms Compound Maps Float Truth Numeral Actions ActionsSpec ActionsFacts ActionsFacts2 ActionsFacts3.
From Verif Require Import Parser AstFacts Storage StorageSpec StorageFacts StorageFacts2 StorageFacts3 StorageFacts4 BufferFacts3.
From Verif Require Interning Evidence.
Import ListNotations.
Open Scope string_scope.
Open Scope Z_scope.
Open Scope list_scope.

Section Session.
Variable ord : list (option connector * list term) -> list (option connector * list term).
Variable fresh : Interning.world -> Z.
Variable room : option nat.
Hypothesis R : (match room with Some n => 1 <= n | None => True end)%nat.

Definition waiting (l : list ast) : Prop := l = [] \/ exists n, l = [n] /\ good n /\ label_of n = LTask.

Lemma finish_memory st o st' v thrown h :
  waiting (match o with Accepted l => l | Rejected => pending st end) -> waiting (pending st) -> sound h ->
  finish ord fresh st o = Ok (st', v, thrown) ->
  exists h' p l, pfinish false ord fresh st o h = (h', Ok (st', p, thrown)) /\ sound h' /\ adds h h' l /\
    waiting (pending st') /\
    match v with
    | Some w => thrown = false /\ exists tk, w = VTask tk /\ stored p w l
    | None => p = Null /\ (thrown = false -> l = [])
    end.
Proof.
  intros W V S E. unfold finish in E. unfold pfinish.
  change (pending (with_vars st [] [] [])) with (pending st) in *.
  destruct W as [W|(n & W & G & L)]; rewrite W in *.
  - injection E as <- <- <-. exists h, Null, []. split; [reflexivity|]. split; [exact S|]. split; [apply Permutation_refl|].
    split; [exact V|split; [reflexivity|trivial]].
  - pose proof (does_evaluate false ord fresh (with_vars st [] [] []) n G (or_introl eq_refl) h (live h) S (Permutation_refl _)) as D.
    pose proof (good_kinded ord fresh n G (with_vars st [] [] [])) as Q.
    cbn [transform_all] in E. destruct (transform ord fresh (with_vars st [] [] []) n) as [[st1 w]| | |]; cbn [bind] in E; try discriminate E.
    + injection E as <- <- <-. destruct D as (h' & [st2 p] & post & EE & S' & [E' SR] & A). cbn [fst snd] in *. subst st2.
      specialize (Q _ _ eq_refl). rewrite L in Q. cbn [coarse] in Q. destruct w as [| | | | | | | | | |tk|]; try discriminate Q.
      rewrite EE. exists h', p, post. split; [reflexivity|]. split; [exact S'|]. split; [exact A|]. split; [left; reflexivity|].
      split; [reflexivity|]. exists tk. split; [reflexivity|exact SR].
    + injection E as <- <- <-. destruct D as (h' & lost & EE & S' & A). rewrite EE. exists h', Null, lost.
      split; [reflexivity|]. split; [exact S'|]. split; [exact A|]. split; [right; exists n; auto|]. split; [reflexivity|discriminate].
Qed.

Lemma serve_memory inputs : forall st left st' left' thrown h, waiting (pending st) -> sound h -> left = [] ->
  history ord fresh room st left inputs = Ok (st', left', thrown) ->
  exists h' lost, serve false ord fresh room st inputs h = (h', Ok (st', thrown)) /\ sound h' /\ adds h h' lost /\
    (thrown = false -> lost = []).
Proof.
  induction inputs as [|s inputs IH]; intros st left st' left' thrown h V S -> E; cbn [history serve] in *.
  - injection E as <- <- <-. exists h, []. split; [reflexivity|]. split; [exact S|]. split; [apply Permutation_refl|trivial].
  - unfold parse_task in E. destruct (parse_ways room s R) as [U|[o P]]; [rewrite U in E; discriminate E|].
    rewrite P in *. cbn [bind] in E.
    destruct (finish ord fresh st o) as [[[st1 v] t1]| | |] eqn:Fi; cbn [bind] in E; try discriminate E.
    destruct (history ord fresh room st1 [] inputs) as [[[st2 l2] t2]| | |] eqn:H; cbn [bind] in E; try discriminate E.
    injection E as <- <- <-.
    assert (W : waiting (match o with Accepted l => l | Rejected => pending st end)).
    { destruct o as [l|]; [|exact V]. destruct (accepted_good _ _ _ _ R P) as (n & -> & G & L). right. exists n. auto. }
    destruct (finish_memory st o st1 v t1 h W V S Fi) as (h1 & p & l & E1 & S1 & A1 & V1 & K).
    unfold lift at 1. unfold mbind at 1. cbn [fst]. unfold mbind at 1. rewrite E1. unfold mbind at 1.
    assert (X : exists h2 lost, release false p h1 = (h2, Ok tt) /\ sound h2 /\ adds h h2 lost /\ (t1 = false -> lost = [])).
    { destruct v as [w|].
      - destruct K as (-> & tk & -> & ST). destruct (release_back h h1 p tk l S1 ST A1) as (h2 & E2 & S2 & A2).
        exists h2, []. split; [exact E2|]. split; [exact S2|]. split; [exact A2|trivial].
      - destruct K as [-> K]. exists h1, l. split; [reflexivity|]. split; [exact S1|]. split; [exact A1|exact K]. }
    destruct X as (h2 & lost & E2 & S2 & A2 & K2). rewrite E2.
    destruct (IH _ _ _ _ _ h2 V1 S2 eq_refl H) as (h3 & lost' & E3 & S3 & A3 & K3).
    unfold mbind. rewrite E3. exists h3, (lost' ++ lost). split; [reflexivity|]. split; [exact S3|]. split.
    + unfold adds in *. rewrite <- app_assoc. eapply Permutation_trans; [exact A3|]. apply Permutation_app_head. exact A2.
    + intros O. apply orb_false_iff in O. destruct O as [O1 O2]. rewrite (K2 O1), (K3 O2). reflexivity.
Qed.
End Session.
