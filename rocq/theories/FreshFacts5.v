(* The first allocation is enough for short inputs whatever error_delay is. *)
From Coq Require Import ZArith String Ascii List Bool Lia.
From Verif Require Import Base Tables Parser ParserSpec Grammar GrammarSpec LexFacts ParserFacts ParserFacts2 ParserFacts3 ParserRuns
  Fresh FreshSpec FreshSpec2 FreshSpec3 FreshFacts FreshFacts3 FreshFacts4.
Import ListNotations.
Open Scope string_scope.
Open Scope list_scope.
Open Scope Z_scope.

Lemma resume_ideal : forall d c c1, resume d c = Ok c1 ->
  resume d (ideal c) = Ok (ideal c1) /\ room c1 = room c /\ stack c1 = stack c /\ next c1 = next c.
Proof.
  intros d c c1 E. unfold resume in *. cbn [ideal stack text held len room next].
  destruct (d =? error_delay_start); [|injection E as <-; auto].
  destruct (stack c) as [|top below] eqn:SK; [discriminate|].
  destruct (skip (S (length (text c))) (state top) (text c) (held c)) as [[t h]| | |]; cbn [bind] in *; try discriminate.
  injection E as <-. cbn [room stack next]. unfold ideal. cbn [stack text held len next]. auto.
Qed.

Lemma resume_back : forall d c c1, resume d (ideal c) = Ok c1 -> exists c2, resume d c = Ok c2.
Proof.
  intros d c c1 E. unfold resume in *. cbn [ideal stack text held len room next] in E.
  destruct (d =? error_delay_start); [|eauto].
  destruct (stack c) as [|top below] eqn:SK; [discriminate|].
  destruct (skip (S (length (text c))) (state top) (text c) (held c)) as [[t h]| | |]; cbn [bind] in *; try discriminate.
  eauto.
Qed.

(* What the stack holds is bounded by the input. *)
Lemma step_short all ts c n c' : room c = Some n -> (length (stack c) <= n)%nat -> inv all ts (ideal c) ->
  (13 <= n)%nat -> (length all + 5 <= n)%nat -> step (ideal c) = Ok (inl c') ->
  step c = Ok (inl (limit c' n)) /\ (length (stack c') <= n)%nat.
Proof.
  intros R L I N1 N2 E. pose proof (step_limited c n R L) as SL. rewrite E in SL.
  destruct SL as [[_ D]|SL]; [|exact SL].
  destruct (step_progress _ ts (ideal c) eq_refl I) as [c1 ts' E' R' I' M CS|E'|t E' D' RT TX LX TN];
    rewrite E in E'; inversion E'; subst.
  destruct (inv_bounds _ _ _ I') as [_ [B|B]]; lia.
Qed.

Lemma drun_short : forall fuel n all ts d c, room c = Some n -> (length (stack c) <= n)%nat -> inv all ts (ideal c) ->
  (13 <= n)%nat -> (length all + 5 <= n)%nat -> drun fuel d c = drun fuel d (ideal c).
Proof.
  induction fuel as [|fuel IH]; intros n all ts d c R L I N1 N2; [reflexivity|].
  cbn [drun]. unfold dstep. cbn [ideal next]. destruct (next c) eqn:NX.
  - unfold dlook.
    destruct (resume_total all ts d (ideal c) eq_refl NX I) as (c1 & all1 & E1 & R1 & NX1 & I1 & RM & _).
    destruct (resume_back _ _ _ E1) as [c2 E2]. destruct (resume_ideal _ _ _ E2) as (E3 & R2 & S2 & NX2).
    rewrite E3 in E1. injection E1 as <-.
    assert (ID : Config (stack c) (text c) (held c) (len c) None Look = ideal c) by (unfold ideal; rewrite NX; reflexivity).
    rewrite ?ID, E2, E3. cbn [bind].
    pose proof (remains_length _ _ RM) as LR. rewrite NX in NX2.
    assert (ST : step c2 = look c2) by (unfold step; rewrite NX2; reflexivity).
    assert (ST' : step (ideal c2) = look (ideal c2)) by (unfold step; cbn [ideal next]; rewrite NX2; reflexivity).
    rewrite <- ST, <- ST'. rewrite <- R2 in R. rewrite <- S2 in L.
    destruct (step_progress all1 ts (ideal c2) eq_refl I1) as [c' ts' E R' I' M CS|E|t E D RT TX LX TN].
    + destruct (step_short all1 ts c2 n c' R L I1 N1 ltac:(lia) E) as [E' L']. rewrite E, E'. cbn [bind limit stack ideal].
      assert (ID' : ideal (limit c' n) = c') by (destruct c'; cbn in *; rewrite R'; reflexivity).
      rewrite (IH n all1 ts' _ (limit c' n) eq_refl L'); [rewrite ID'; reflexivity|rewrite ID'; exact I'|exact N1|lia].
    + pose proof (step_limited c2 n R L) as SL. rewrite E in SL. rewrite E, SL. reflexivity.
    + pose proof (step_limited c2 n R L) as SL. rewrite E in SL. rewrite E, SL. reflexivity.
  - assert (ST : step c = reduce idx c) by (unfold step; rewrite NX; reflexivity).
    assert (ST' : step (ideal c) = reduce idx (ideal c)) by (unfold step; cbn [ideal next]; rewrite NX; reflexivity).
    assert (ID : Config (stack c) (text c) (held c) (len c) None (Reduce idx) = ideal c) by (unfold ideal; rewrite NX; reflexivity).
    rewrite ?ID, <- ST, <- ST'.
    destruct (step_progress all ts (ideal c) eq_refl I) as [c' ts' E R' I' M CS|E|t E D RT TX LX TN].
    + destruct (step_short all ts c n c' R L I N1 N2 E) as [E' L']. rewrite E, E'. cbn [bind].
      assert (ID' : ideal (limit c' n) = c') by (destruct c'; cbn in *; rewrite R'; reflexivity).
      rewrite (IH n all ts' d (limit c' n) eq_refl L'); [rewrite ID'; reflexivity|rewrite ID'; exact I'|exact N1|exact N2].
    + pose proof (step_limited c n R L) as SL. rewrite E in SL. rewrite E, SL. reflexivity.
    + pose proof (step_limited c n R L) as SL. rewrite E in SL. rewrite E, SL. reflexivity.
Qed.

Lemma dparse_short : forall d input, (String.length input <= 123)%nat ->
  dparse allocated d [] input = dparse unlimited d [] input.
Proof.
  intros d input H. unfold dparse.
  pose proof (line_length input) as LL.
  apply (drun_short _ 128%nat (line input) [] d (start allocated [] input)); cbn [stack start length]; try lia; try reflexivity.
  exact (start_inv None [] input).
Qed.

Lemma dsession_short : forall inputs d, Forall (fun s => String.length s <= 123)%nat inputs ->
  dsession allocated d [] inputs = dsession unlimited d [] inputs.
Proof.
  intros inputs d F. revert d. induction F as [|s inputs H F IH]; intros d; [reflexivity|].
  cbn [dsession]. rewrite (dparse_short d s H).
  destruct (dparse_split d [] s) as (d' & o & E & _). rewrite E. cbn [bind]. rewrite IH. reflexivity.
Qed.

Lemma dsession_answers : forall inputs d, Forall (fun s => String.length s <= 123)%nat inputs ->
  exists outs, dsession allocated d [] inputs = Ok (outs, []) /\
  Forall2 (fun o input => o = Rejected \/ exists t, o = Accepted (projection t) /\ derivation t /\ root t = 59 /\
    remains (line input) (text_of t)) outs inputs.
Proof. intros inputs d F. rewrite (dsession_short inputs d F). apply dsession_total. Qed.

Lemma short_case : Forall (fun s => String.length s <= 123)%nat ["]<a --> b>."; "])"; "<a --> b>?"] /\
  exists a c, dsession allocated 3 [] ["]<a --> b>."; "])"; "<a --> b>?"] = Ok ([Accepted a; Rejected; Accepted c], []).
Proof.
  split; [repeat constructor; cbn; lia|].
  assert (E : match dsession allocated 3 [] ["]<a --> b>."; "])"; "<a --> b>?"] with
              | Ok ([Accepted _; Rejected; Accepted _], []) => true | _ => false end = true) by (vm_compute; reflexivity).
  destruct (dsession allocated 3 [] ["]<a --> b>."; "])"; "<a --> b>?"]) as [[[|[a|] [|[b|] [|[c|] [|]]]] [|]]| | |];
    try discriminate.
  exists a, c. reflexivity.
Qed.
