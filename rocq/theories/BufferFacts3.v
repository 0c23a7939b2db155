(* The parser on the buffer does what the parser on the text does: steps and
   runs. *)
From Coq Require Import ZArith String Ascii List Bool Arith Lia.
From Verif Require Import Base Tables Parser ParserSpec ParserFacts3 ParserFacts8 Buffer BufferSpec BufferFacts
  BufferFacts2.
Import ListNotations.
Open Scope list_scope.
Open Scope Z_scope.

(* Putting a NUL behind the token, taking the token, and putting the character
   back. *)
Lemma shift_ok b text n len : holds b text n -> (len <= n)%nat -> cells b <> [] ->
  (n = O -> ended b = true) -> Forall (fun c => 0 <= code c) (firstn len text) ->
  exists keep cs v, load (cells b) len = Ok keep /\ store (cells b) len 0 = Ok cs /\
    get_input 0 (Buf cs (used b) (queue b) (ended b)) = Ok (v, Buf cs (used b) (queue b) (ended b)) /\
    lexem cs = Ok (map code (firstn len text)) /\ store cs len keep = Ok (cells b).
Proof.
  intros H L NE ED FP. destruct H as [U LE CL SZ CH EN Q].
  destruct SZ as [[C _]|(k & LC & LN)]; [contradiction|].
  assert (KE : exists keep, nth_error (cells b) len = Some (Some keep)).
  { destruct (Nat.eq_dec len n) as [->|N].
    - destruct (EN NE) as (v & EV & _). eauto.
    - rewrite CH by lia. destruct (nth_some text len) as [c EC]; [lia|]. rewrite EC. cbn. eauto. }
  destruct KE as [keep KE].
  destruct (store_ok (cells b) len 0) as (cs & S1 & S2 & S3 & S4); [lia|].
  exists keep, cs.
  assert (V : exists v, nth_error cs 0 = Some (Some v)).
  { destruct len as [|len']; [eauto|]. rewrite S4 by lia. rewrite CH by lia.
    destruct (nth_some text 0) as [c EC]; [lia|]. rewrite EC. cbn. eauto. }
  destruct V as [v EV].
  destruct (store_ok cs len keep) as (cs' & T1 & T2 & T3 & T4); [lia|].
  assert (CS : cs' = cells b).
  { apply nth_error_ext_eq. intros i. destruct (Nat.eq_dec i len) as [->|N].
    - rewrite T3, KE. reflexivity.
    - rewrite T4, S4 by exact N. reflexivity. }
  assert (G : exists v', get_input 0 (Buf cs (used b) (queue b) (ended b)) =
    Ok (v', Buf cs (used b) (queue b) (ended b))).
  { unfold get_input. cbn [get_loop used]. rewrite U. destruct n as [|n].
    - cbn [Nat.leb]. unfold refill, enlarge. cbn [cells used ended queue].
      destruct cs as [|c0 cs0] eqn:EC; [discriminate|]. rewrite <- EC in *.
      replace len with O in S3 by lia. rewrite (load_ok _ _ _ S3). cbn [bind Z.eqb negb andb].
      rewrite (ED eq_refl). cbn [ended bind]. eauto.
    - cbn [Nat.leb cells]. rewrite (load_ok _ _ _ EV). cbn [bind]. eauto. }
  destruct G as [v' G]. exists v'.
  split; [apply load_ok; exact KE|]. split; [exact S1|]. split; [exact G|]. split.
  - apply lexem_ok.
    + exact FP.
    + rewrite <- (firstn_skipn len text) in CL. apply Forall_app in CL. apply CL.
    + rewrite firstn_length. replace (Nat.min len (length text)) with len by lia.
      intros i Hi. rewrite S4 by lia. rewrite firstn_nth by lia. apply CH. lia.
    + rewrite firstn_length. replace (Nat.min len (length text)) with len by lia. exact S3.
  - rewrite T1. f_equal. exact CS.
Qed.

(* The two parsers are at the same point. *)
Record agrees (all : list ascii) (c : config) (m : machine) : Prop := {
  a_stack : mstack m = stack c;
  a_len : mlen m = len c;
  a_room : mroom m = room c;
  a_next : mnext m = next c;
  a_held : (len c <= held c)%nat;
  a_buf : holds (mbuf m) (text c) (held c);
  a_line : fst (mplace m) = 1%nat;
  a_column : exists k, snd (mplace m) = S k /\ (k <= length all)%nat /\ text c = skipn k all
}.

(* They make the same step, and report the error in the same place. *)
Definition reports (all : list ascii) (c : config) (e : ending) : Prop :=
  match e with
  | Built _ => True
  | Failed p token =>
      (exists k, p = (1%nat, S k) /\ (k <= length all)%nat /\ text c = skipn k all) /\
      ((looked c < length (text c))%nat -> Forall (fun x => 0 <= code x) (firstn (looked c) (text c)) ->
       token = Ok (map code (firstn (looked c) (text c))))
  end.

Definition alike (all : list ascii) (c : config) (r : config + outcome * list ascii)
  (r' : machine + ending * buffer) : Prop :=
  match r, r' with
  | inl c', inl m' => agrees all c' m'
  | inr (o, l), inr (e, b) => (l = [] -> idle b) /\ same o e /\ reports all c e
  | _, _ => False
  end.

Lemma holds_cells b text n : holds b text n -> (0 < n)%nat \/ ended b = true -> cells b <> [].
Proof.
  intros [U LE CL SZ CH EN Q] [N|E].
  - destruct SZ as [[_ Z]|(k & LC & _)]; [lia|]. intros C. rewrite C in LC. discriminate.
  - rewrite E in Q. apply Q.
Qed.

Lemma look_sim all c m : agrees all c m -> next c = Look ->
  sim (128 <= looked c)%nat (alike all c) (look c) (mlook m).
Proof.
  intros [AS AL AR AN AH AB AP AC] EN. unfold look, mlook. rewrite AS.
  destruct (stack c) as [|top below] eqn:ES; [exact I|].
  pose proof (next_sym_sim (state top) (mbuf m) (text c) (held c) AB) as NS.
  destruct (get_sym (state top) (text c)) as [f| | |] eqn:EG;
    destruct (next_sym (state top) (mbuf m)) as [[[sym len] b]| | |]; cbn [sim] in NS; try contradiction; try exact I.
  cbn [bind fst snd] in *. destruct NS as (-> & -> & HB & ED).
  assert (LK : looked c = Nat.max (held c) (fread f)) by (unfold looked; rewrite EN, ES, EG; reflexivity).
  rewrite <- LK in *. destruct (get_sym_found _ _ _ EG) as (F1 & F2 & F3 & F4).
  apply sim_same. intros o EO. destruct o as [[act idx]|].
  - destruct (Z.testbit act 1).
    + assert (ED' : looked c = 0%nat -> ended b = true).
      { intros Z. apply ED. destruct (text c) as [|a t]; [reflexivity|]. specialize (F4 ltac:(discriminate)). lia. }
      assert (NE : cells b <> []).
      { apply (holds_cells _ _ _ HB). destruct (Nat.eq_dec (looked c) 0); [right; auto|left; lia]. }
      destruct (shift_ok b (text c) (looked c) (flen f) HB ltac:(lia) NE ED' F1) as (keep & cs & v & S1 & S2 & S3 & S4 & S5).
      rewrite S1. cbn [bind]. rewrite S2. cbn [bind]. rewrite S3. cbn [bind].
      apply sim_same. intros s Es. cbn [cells]. rewrite S4. cbn [bind used queue ended].
      rewrite (chars_back _ F1).
      assert (LF : (if (fst s =? "")%string then Ok []
                    else Ok [Leaf (fst s) (string_of_list_ascii (firstn (flen f) (text c)))]) =
                   Ok (if (fst s =? "")%string then []
                       else [Leaf (fst s) (string_of_list_ascii (firstn (flen f) (text c)))])).
      { destruct (fst s =? "")%string; reflexivity. }
      rewrite LF. cbn [bind]. rewrite AR. apply sim_same. intros stk Estk. rewrite S5. cbn [bind].
      rewrite buf_eta.
      destruct ((fsym f =? 0) || (fsym f =? -1)) eqn:ENS.
      * cbn [sim alike]. constructor; cbn; auto. lia.
      * destruct (get_sym_length _ _ _ EG) as [Z|[Z|Z]].
        { rewrite Z in ENS. discriminate. }
        { rewrite Z in ENS. discriminate. }
        assert (CI : Parser.clear_input (text c) (looked c) (flen f) =
                     (skipn (flen f) (text c), (looked c - flen f)%nat)).
        { unfold Parser.clear_input. destruct (flen f); [lia|reflexivity]. }
        rewrite CI.
        destruct (clear_some b (text c) (looked c) (flen f) (mplace m) HB) as [(b' & EC & HB')|[EC L]]; [lia| |].
        -- rewrite EC. cbn [bind sim alike]. constructor; cbn; auto; [lia|].
           destruct AC as (k & K1 & K2 & K3). exists (k + flen f)%nat. split; [lia|].
           assert (LT : length (text c) = (length all - k)%nat) by (rewrite K3, skipn_length; reflexivity).
           split; [lia|]. rewrite K3. apply nth_error_ext_eq. intros i. rewrite !skipn_nth. f_equal. lia.
        -- rewrite EC. cbn [bind sim]. exact L.
    + cbn [sim alike]. constructor; cbn; auto. lia.
  - assert (TK : forall b, holds b (text c) (looked c) -> reports all c (Failed (mplace m) (lexem (cells b)))).
    { clear b HB ED. intros b HB. cbn [reports]. split.
      { destruct AC as (k & K1 & K2 & K3). exists k. split; [|auto]. destruct (mplace m); cbn in *. congruence. }
      intros LT FP.
      destruct (text c) as [|a t] eqn:ET; [cbn in LT; lia|]. rewrite <- ET in *.
      specialize (F4 ltac:(rewrite ET; discriminate)).
      pose proof (holds_cells _ _ _ HB ltac:(left; lia)) as NE.
      destruct HB as [U LE CL SZ CH EB Q]. destruct (EB NE) as (v & EV & VZ).
      assert (ED : ended b = false) by (destruct (ended b); [destruct Q; lia|reflexivity]).
      rewrite VZ in EV by (auto; lia).
      assert (LW : length (firstn (looked c) (text c)) = looked c) by (rewrite firstn_length; lia).
      apply lexem_ok; try rewrite LW; auto.
      - rewrite <- (firstn_skipn (looked c) (text c)) in CL. apply Forall_app in CL. apply CL.
      - intros i Hi. rewrite firstn_nth by lia. apply CH. exact Hi. }
    destruct (flen f) as [|l] eqn:EL.
    + destruct (clear_all _ _ _ (mplace m) HB) as (b' & EC & IB). rewrite EC. cbn [bind sim alike].
      split; [auto|]. split; [exact I|]. apply TK. exact HB.
    + rewrite <- EL in *. destruct (clear_some b (text c) (looked c) (flen f) (mplace m) HB) as [(b' & EC & HB')|[EC L]]; [lia| |].
      * rewrite EC. cbn [bind sim alike]. split; [|split; [exact I|apply TK; exact HB]].
        unfold rest, Parser.clear_input. destruct (flen f) as [|l0] eqn:EL0; [lia|]. rewrite <- EL0 in *. intros E.
        apply (f_equal (@length _)) in E. rewrite firstn_length, skipn_length in E. cbn [length] in E.
        pose proof (h_le _ _ _ HB). replace (looked c - flen f)%nat with O in HB' by lia.
        exact (holds_idle _ _ HB').
      * rewrite EC. cbn [bind sim]. exact L.
Qed.

Lemma reduce_sim all c m i : agrees all c m -> next c = Reduce i ->
  sim (128 <= looked c)%nat (alike all c) (reduce i c) (mreduce i m).
Proof.
  intros [AS AL AR AN AH AB AP AC] EN. unfold reduce, mreduce. rewrite AS, AL, AR.
  assert (LK : looked c = held c) by (unfold looked; rewrite EN; reflexivity).
  apply sim_same. intros [[emit n] lhs] _. apply sim_same. intros [stk collected] _.
  destruct stk as [|[s own] below]; [exact I|]. cbv zeta.
  destruct ((lhs =? 59) && match below with [] => true | _ => false end).
  - destruct (len c) as [|l] eqn:EL.
    + destruct (clear_all _ _ _ (mplace m) AB) as (b' & EC & IB). rewrite EC. cbn [bind].
      destruct (clear_idle b' (mplace m) IB) as (b2 & EC2 & IB2). rewrite EC2. cbn [bind sim alike].
      split; [auto|]. split; reflexivity.
    + rewrite <- EL in *.
      destruct (clear_some (mbuf m) (text c) (held c) (len c) (mplace m) AB) as [(b' & EC & HB')|[EC L]]; [lia| |].
      * rewrite EC. cbn [bind]. destruct (clear_all _ _ _ (fst (mplace m), (snd (mplace m) + len c)%nat) HB') as (b2 & EC2 & IB2).
        rewrite EC2. cbn [bind sim alike]. split; [auto|]. split; reflexivity.
      * rewrite EC. cbn [bind sim]. lia.
  - apply sim_same. intros o _. destruct (match o with Some e => e | None => (1, i) end) as [act j].
    apply sim_same. intros stk' _. cbn [sim alike]. constructor; cbn; auto.
Qed.

Lemma step_sim all c m : agrees all c m ->
  sim (128 <= looked c)%nat (alike all c) (step c) (mstep m).
Proof.
  intros A. unfold step, mstep. rewrite (a_next _ _ _ A). destruct (next c) as [|i] eqn:EN.
  - apply look_sim; assumption.
  - apply reduce_sim; assumption.
Qed.

(* How the runs end. *)
Definition ends (room : option nat) (input : string) (r : outcome * list ascii) (r' : ending * buffer) : Prop :=
  (snd r = [] -> idle (snd r')) /\ same (fst r) (fst r') /\
  exists c, reached room [] input c /\ step c = Ok (inr r) /\ reports (line input) c (fst r').

Lemma looked_le all c m : agrees all c m -> (looked c <= length all)%nat.
Proof.
  intros A. assert (L : (looked c <= length (text c))%nat).
  { unfold looked. pose proof (h_le _ _ _ (a_buf _ _ _ A)) as LE. destruct (next c); [|exact LE].
    destruct (stack c) as [|top below]; [exact LE|]. destruct (get_sym (state top) (text c)) as [f| | |] eqn:E; try exact LE.
    destruct (get_sym_found _ _ _ E) as (_ & _ & F & _). lia. }
  destruct (a_column _ _ _ A) as (k & _ & _ & T). rewrite T, skipn_length in L. lia.
Qed.

Lemma run_sim room input : forall fuel c m, reached room [] input c ->
  agrees (line input) c m ->
  sim (exists c, reached room [] input c /\ (128 <= looked c <= length (line input))%nat) (ends room input) (run fuel c) (mrun fuel m).
Proof.
  induction fuel as [|fuel IH]; intros c m R A; [exact I|]. cbn [run mrun].
  pose proof (step_sim _ _ _ A) as S. pose proof (looked_le _ _ _ A) as LA.
  destruct (step c) as [[c'|[o l]]| | |] eqn:EC; destruct (mstep m) as [[m'|[e b]]| | |]; cbn [sim alike] in S;
    try contradiction; try exact I; cbn [bind].
  - apply IH; [exact (R_step _ _ _ _ _ R EC)|exact S].
  - destruct (run fuel c'); cbn [sim]; try exact I; eauto.
  - destruct S as (S1 & S2 & S3). cbn [sim]. split; [exact S1|]. split; [exact S2|]. exists c. auto.
  - cbn [sim]. eauto.
  - cbn [sim]. eauto.
  - cbn [sim]. eauto.
Qed.

Lemma run_more : forall f c f', run f c <> OutOfFuel -> (f <= f')%nat -> run f' c = run f c.
Proof.
  induction f as [|f IH]; intros c f' N L; [contradiction N; reflexivity|].
  destruct f' as [|f']; [lia|]. cbn [run] in *. destruct (step c) as [[c'|r]| | |]; cbn [bind] in *; auto.
  apply IH; [exact N|lia].
Qed.

(* One parse. *)
Lemma parse_sim room b input : (match room with Some n => 1 <= n | None => True end)%nat -> idle b ->
  sim (exists c, reached room [] input c /\ (128 <= looked c <= length (line input))%nat) (ends room input)
    (parse room [] input) (mparse room b input).
Proof.
  intros RM ID. pose proof (line_clean input) as CL. destruct (fill_line input CL) as [junk EF].
  unfold parse, mparse. cbn [length plus].
  assert (T : run (enough (length (line input))) (start room [] input) <> OutOfFuel).
  { assert (SAME : run (enough (length (line input))) (start room [] input) =
              parse room [] input) by reflexivity.
    rewrite SAME. exact (parse_steps room [] input RM). }
  rewrite <- (run_more _ _ (enough (used b + length (fill input))) T).
  - apply run_sim; [constructor|]. unfold start, mstart.
    constructor; cbn [mstack mbuf mlen mroom mnext mplace stack text held len Parser.room next app length fst snd]; auto.
    + rewrite EF. apply idle_holds; assumption.
    + exists O. split; [reflexivity|]. split; [lia|reflexivity].
  - rewrite EF, app_length, map_length. cbn [length]. unfold enough. lia.
Qed.

(* Without a buffer: rejected, accepted, or out of stack. *)
Lemma parse_ways rm input : (match rm with Some n => 1 <= n | None => True end)%nat ->
  parse rm [] input = UB \/ exists o, parse rm [] input = Ok (o, []).
Proof.
  intros RM. assert (U : exists o, parse unlimited [] input = Ok (o, [])).
  { destruct (parse_total [] input) as [E|(t & E & _)]; rewrite E; eauto. }
  destruct rm as [n|]; [|right; exact U].
  destruct (parse_limited n [] input RM) as [G|[G _]]; rewrite G; auto.
Qed.

Lemma mparse_outcomes rm b input : (match rm with Some n => 1 <= n | None => True end)%nat -> idle b ->
  (mparse rm b input = UB /\
   (parse rm [] input = UB \/
    exists c, reached rm [] input c /\ (128 <= looked c <= length (line input))%nat)) \/
  (exists o e b', parse rm [] input = Ok (o, []) /\ mparse rm b input = Ok (e, b') /\ same o e /\ idle b').
Proof.
  intros RM ID. pose proof (parse_sim rm b input RM ID) as S.
  destruct (parse_ways rm input RM) as [E|[o E]]; rewrite E in *;
    destruct (mparse rm b input) as [[e b']| | |]; cbn [sim] in S; try contradiction; try (left; split; auto; fail).
  destruct S as (S1 & S2 & _). right. exists o, e, b'. auto.
Qed.

Lemma mparse_short rm b input : (match rm with Some n => 1 <= n | None => True end)%nat -> idle b ->
  (length (line input) <= 127)%nat ->
  (parse rm [] input = UB /\ mparse rm b input = UB) \/
  (exists o e b', parse rm [] input = Ok (o, []) /\ mparse rm b input = Ok (e, b') /\ same o e /\ idle b').
Proof.
  intros RM ID L. destruct (mparse_outcomes rm b input RM ID) as [[E [U|(c & _ & B)]]|H]; auto. lia.
Qed.

(* Several inputs. *)
Lemma msession_short rm : (match rm with Some n => 1 <= n | None => True end)%nat ->
  forall inputs b outs, idle b -> Forall (fun s => length (line s) <= 127)%nat inputs ->
  Forall2 (fun s o => parse rm [] s = Ok (o, [])) inputs outs ->
  exists es b', msession rm b inputs = Ok (es, b') /\ Forall2 same outs es /\ idle b'.
Proof.
  intros RM. induction inputs as [|s inputs IH]; intros b outs ID FL F2.
  - inversion F2; subst. exists [], b. cbn. auto.
  - inversion FL; subst. inversion F2; subst. cbn [msession].
    destruct (mparse_short rm b s RM ID) as [[E _]|(o & e & b1 & E1 & E2 & SM & I1)]; auto; [congruence|].
    destruct (IH b1 l' I1) as (es & b' & ES & FS & I'); auto.
    rewrite E2. cbn [bind fst snd]. rewrite ES. cbn [bind fst snd].
    exists (e :: es), b'. split; [reflexivity|]. split; [|exact I']. constructor; [|exact FS]. congruence.
Qed.

(* The place and the token of an error. *)
Lemma mparse_report rm b input p token b' : (match rm with Some n => 1 <= n | None => True end)%nat -> idle b ->
  mparse rm b input = Ok (Failed p token, b') ->
  exists c k, reached rm [] input c /\ step c = Ok (inr (Rejected, [])) /\
    p = (1%nat, S k) /\ (k <= length (line input))%nat /\ text c = skipn k (line input) /\
    ((looked c < length (text c))%nat -> Forall (fun x => 0 <= code x) (firstn (looked c) (text c)) ->
     token = Ok (map code (firstn (looked c) (text c)))).
Proof.
  intros RM ID E. pose proof (parse_sim rm b input RM ID) as S. rewrite E in S.
  destruct (parse_ways rm input RM) as [EP|[o EP]]; rewrite EP in S; cbn [sim] in S; [contradiction|].
  destruct S as (_ & SM & c & RC & ST & (k & K1 & K2 & K3) & TK). cbn [fst] in *.
  destruct o as [t|]; [contradiction|]. exists c, k. repeat split; auto.
Qed.
