(* Whatever error_delay is, the parser ends and builds derivation trees. *)
From Coq Require Import ZArith String Ascii List Bool Lia.
From Verif Require Import Base Tables Parser ParserSpec Grammar GrammarSpec LexFacts ParserFacts ParserFacts2 ParserFacts3
  Fresh FreshSpec FreshSpec2 FreshSpec3 FreshFacts FreshFacts3.
Import ListNotations.
Open Scope string_scope.
Open Scope list_scope.
Open Scope Z_scope.

Lemma remains_refl : forall l, remains l l.
Proof. induction l; constructor; assumption. Qed.

Lemma remains_trans : forall l1 l2 l3, remains l1 l2 -> remains l2 l3 -> remains l1 l3.
Proof.
  intros l1 l2 l3 H. revert l3. induction H as [|c l l' H IH|c l l' H IH]; intros l3 H3.
  - exact H3.
  - inversion H3; subst; [apply R_kept|apply R_gone]; auto.
  - apply R_gone. auto.
Qed.

Lemma remains_skip : forall front b t, remains (b ++ front ++ t) (b ++ t).
Proof.
  intros front b t. induction b as [|c b IH]; [|apply R_kept; exact IH].
  cbn [app]. induction front as [|c front IH]; [apply remains_refl|apply R_gone; exact IH].
Qed.

Lemma remains_length : forall l l', remains l l' -> (length l' <= length l)%nat.
Proof. induction 1; cbn [length]; lia. Qed.

Lemma skip_total : forall s, 0 <= s < 176 -> forall t fuel h, (length t < fuel)%nat ->
  exists front t' h', skip fuel s t h = Ok (t', h') /\ t = front ++ t'.
Proof.
  intros s Hs. induction t as [|c t IH]; intros fuel h L; (destruct fuel as [|fuel]; [lia|]); cbn [skip].
  - destruct (get_sym_sound s [] Hs) as (f & E & S0). rewrite E. cbn [bind].
    destruct S0 as [[_ ->]|[[N _]|(P & L' & _)]].
    + exists [], [], (Nat.max h 0). split; reflexivity.
    + contradiction.
    + cbn [length] in L'. lia.
  - destruct (get_sym_sound s (c :: t) Hs) as (f & E & _). rewrite E. cbn [bind].
    destruct (-1 <? fsym f); [exists [], (c :: t), (Nat.max h (fread f)); split; reflexivity|].
    cbn [clear_input skipn].
    destruct (IH fuel (Nat.max h (fread f) - 1)%nat) as (front & t' & h' & E' & ET); [cbn [length] in L; lia|].
    exists (c :: front), t', h'. split; [exact E'|]. rewrite ET. reflexivity.
Qed.

(* Characters can be dropped wherever a token is looked for. *)
Lemma resume_total : forall all ts d cfg, room cfg = None -> next cfg = Look -> inv all ts cfg ->
  exists cfg' all', resume d cfg = Ok cfg' /\ room cfg' = None /\ next cfg' = Look /\ inv all' ts cfg' /\
    remains all all' /\ measure ts cfg' = measure ts cfg.
Proof.
  intros all ts d cfg R NX [B I]. rewrite NX in I.
  destruct (linked_state _ _ _ I) as (s & n & below & SK & Hs).
  unfold resume. destruct (d =? error_delay_start).
  - rewrite SK. cbn [state].
    destruct (skip_total s Hs (text cfg) (S (length (text cfg))) (held cfg)) as (front & t' & h' & E & ET); [lia|].
    rewrite E. cbn [bind]. eexists. exists (body ts ++ t'). split; [reflexivity|].
    split; [exact R|]. split; [exact NX|]. split; [|split].
    + split; [reflexivity|]. cbn [next stack]. rewrite NX, <- SK. exact I.
    + rewrite <- B, ET. apply remains_skip.
    + unfold measure. cbn [next]. reflexivity.
  - exists cfg, all. split; [reflexivity|]. split; [exact R|]. split; [exact NX|].
    split; [split; [exact B|rewrite NX; exact I]|]. split; [apply remains_refl|reflexivity].
Qed.

Lemma drun_total : forall fuel all ts d cfg, room cfg = None -> inv all ts cfg ->
  (18 * length all + 5 < fuel + measure ts cfg)%nat ->
  exists d', drun fuel d cfg = Ok (d', (Rejected, []))
  \/ exists t, drun fuel d cfg = Ok (d', (Accepted (projection t), [])) /\ derivation t /\ root t = 59 /\
       remains all (text_of t).
Proof.
  induction fuel as [|fuel IH]; intros all ts d cfg R I F.
  - pose proof (measure_bound _ _ _ I). lia.
  - cbn [drun]. destruct (next cfg) eqn:NX.
    + destruct (resume_total _ _ d _ R NX I) as (cfg1 & all1 & E1 & R1 & NX1 & I1 & RM & M1).
      unfold dstep. rewrite NX. unfold dlook. rewrite E1. cbn [bind].
      assert (ST : step cfg1 = look cfg1) by (unfold step; rewrite NX1; reflexivity). rewrite <- ST.
      pose proof (remains_length _ _ RM) as LR.
      destruct (step_progress all1 ts cfg1 R1 I1) as [cfg' ts' E R' I' M CS|E|t E D RT TX LX TN];
        rewrite E; cbn [bind].
      * match goal with |- exists d', drun fuel ?dd _ = _ \/ _ => destruct (IH all1 ts' dd cfg' R' I') as [d' [G|(t & G & D & RT & RR)]] end;
          [lia| |]; exists d'; [left; exact G|right; exists t].
        split; [exact G|]. split; [exact D|]. split; [exact RT|]. exact (remains_trans _ _ _ RM RR).
      * exists d. left. reflexivity.
      * exists d. right. exists t. split; [reflexivity|]. split; [exact D|]. split; [exact RT|]. rewrite TX. exact RM.
    + unfold dstep. rewrite NX.
      assert (ST : step cfg = reduce idx cfg) by (unfold step; rewrite NX; reflexivity). rewrite <- ST.
      destruct (step_progress all ts cfg R I) as [cfg' ts' E R' I' M CS|E|t E D RT TX LX TN];
        rewrite E; cbn [bind].
      * destruct (IH all ts' d cfg' R' I') as [d' G]; [lia|]. exists d'. exact G.
      * exists d. left. reflexivity.
      * exists d. right. exists t. split; [reflexivity|]. split; [exact D|]. split; [exact RT|]. rewrite TX. apply remains_refl.
Qed.

Lemma dparse_total : forall d left input,
  plain (dparse unlimited d left input) = Ok (Rejected, [])
  \/ exists t, plain (dparse unlimited d left input) = Ok (Accepted (projection t), []) /\ derivation t /\
       root t = 59 /\ remains (left ++ line input) (text_of t).
Proof.
  intros d left input. unfold dparse.
  destruct (drun_total (enough (length left + length (line input))) (left ++ line input) [] d (start unlimited left input))
    as [d' [E|(t & E & G)]].
  - reflexivity.
  - apply start_inv.
  - unfold measure. cbn [map list_sum fold_right start next]. rewrite app_length.
    pose proof (enough_steps (length left + length (line input))). unfold enough in *. lia.
  - left. rewrite E. reflexivity.
  - right. exists t. rewrite E. split; [reflexivity|exact G].
Qed.

Lemma dparse_split : forall d left input, exists d' o, dparse unlimited d left input = Ok (d', (o, [])) /\
  (o = Rejected \/ exists t, o = Accepted (projection t) /\ derivation t /\ root t = 59 /\
     remains (left ++ line input) (text_of t)).
Proof.
  intros d left input. pose proof (dparse_total d left input) as G. unfold plain in G.
  destruct (dparse unlimited d left input) as [[d' [o kept]]| | |]; cbn [bind snd] in G;
    try (destruct G as [G|(t & G & _)]; discriminate G).
  destruct G as [G|(t & G & H)]; injection G as -> ->; [exists d', Rejected|exists d', (Accepted (projection t))];
    (split; [reflexivity|]); [left; reflexivity|right]. exists t. split; [reflexivity|exact H].
Qed.

Lemma dsession_total : forall inputs d, exists outs, dsession unlimited d [] inputs = Ok (outs, []) /\
  Forall2 (fun o input => o = Rejected \/ exists t, o = Accepted (projection t) /\ derivation t /\ root t = 59 /\
    remains (line input) (text_of t)) outs inputs.
Proof.
  induction inputs as [|s inputs IH]; intros d; [exists []; split; [reflexivity|constructor]|].
  destruct (dparse_split d [] s) as (d' & o & E & G). destruct (IH d') as (outs & E' & G').
  exists (o :: outs). cbn [dsession]. rewrite E. cbn [bind]. rewrite E'. cbn [bind fst snd].
  split; [reflexivity|]. constructor; assumption.
Qed.

Lemma dropped_always : forall front s, Forall stray front ->
  dparse unlimited 3 [] (string_of_list_ascii front ++ s)%string = dparse unlimited 3 [] s.
Proof.
  intros front s F. destruct (dparse_split 3 [] s) as (d' & o & E & _). rewrite E.
  exact (stray_dropped unlimited front s _ F E).
Qed.

Lemma all_delays_case : exists trees d,
  dparse unlimited 3 [] "]<a --> b>." = Ok (d, (Accepted trees, [])) /\
  dparse unlimited 3 [] "a ] b." = Ok (1, (Rejected, [])) /\
  remains (line "]<a --> b>.") (line "<a --> b>.").
Proof.
  assert (E : match dparse unlimited 3 [] "]<a --> b>." with Ok (_, (Accepted _, [])) => true | _ => false end = true)
    by (vm_compute; reflexivity).
  destruct (dparse unlimited 3 [] "]<a --> b>.") as [[d [[trees|] [|]]]| | |]; try discriminate.
  exists trees, d. split; [reflexivity|]. split; [vm_compute; reflexivity|].
  apply R_gone. apply remains_refl.
Qed.
