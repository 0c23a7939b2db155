(* Every action keeps all terms well made. *)
From Coq Require Import String ZArith List Bool Arith Lia.
From Verif Require Import Base Lifetimes LifetimesSpec LifetimesFacts LifetimesFacts2 LifetimesFacts3 LifetimesFacts4 LifetimesFacts7 LifetimesFacts9 LifetimesFacts10 LifetimesFacts11 LifetimesFacts8 LifetimesFacts12.
Import ListNotations.

Lemma terms_body : forall L W m m' t l, firm2 L W m m' -> has_body m t (BTerms l) -> has_body m' t (BTerms l).
Proof. intros L W m m' t l F B. eapply firm_body; [exact F|right; reflexivity|exact B]. Qed.

Lemma alike_on : forall L W m m1 m2 n r, firm2 L W m1 m2 -> alike m m1 n r -> alike m m2 n r.
Proof. intros L W m m1 m2 n r F (f & A & B). exists f. split; [assumption|eapply flagged_firm; eassumption]. Qed.

Lemma alike_back : forall L W m m1 m2 n r, firm2 L W m m1 -> n < length m -> alike m1 m2 n r -> alike m m2 n r.
Proof.
  intros L W m m1 m2 n r F Ln (f & (c & a & b & t & x & y & z & A) & B). exists f. split; [|assumption].
  exists c, a, b, t, x, y, z. eapply term_back; [exact F|exact Ln|reflexivity|exact A].
Qed.

Lemma finish_sound : forall m m1 m2 m3 m4 a b c parts f d s p t, new_lists m = (m1, (a, b, c)) -> firm [] m1 m2 -> all_unbuilt m2 a b c -> sound m2 ->
  join_lists false m2 (a, b, c) parts = Ok m3 -> build_lists false m3 (a, b, c) f = Ok m4 ->
  (lists_of (fst (alloc m4 (BTerm d f s p t a b c))) f a b c parts -> whole (fst (alloc m4 (BTerm d f s p t a b c))) (BTerm d f s p t a b c)) ->
  sound (fst (alloc m4 (BTerm d f s p t a b c))).
Proof.
  intros m m1 m2 m3 m4 a b c parts f d s p t N F1 U Sd J Bl Wh.
  destruct (finish_made m m1 m2 m3 m4 a b c parts f d s p t N F1 U J Bl) as (_ & _ & _ & _ & Ls & _).
  destruct (new_lists_made _ _ _ _ _ N) as (F0 & Ea & Eb & Ec & L1 & Su).
  assert (ND : NoDup [a; b; c]) by (subst a b c; repeat constructor; simpl; lia).
  assert (Uu : forall q, In q [a; b; c] -> unbuilt m2 q) by (destruct U as (Ua & Ub & Uc); intros q [<-|[<-|[<-|[]]]]; assumption).
  assert (F3 : firm [a; b; c] m2 m3).
  { apply (join_lists_firm parts m2 a b c m3 [] ND J). intros k I. eapply firm_su; [exact F1|intros []|]. auto. }
  assert (S3 : sound m3) by (eapply sound_step; [exact F3|exact Uu|exact Sd|]; intros n x Ln B; apply has_lt in B; rewrite (join_same _ _ _ _ J) in B; lia).
  assert (S4 : sound m4) by (eapply sound_plain; [exact (build_lists_firm _ _ _ _ Bl)|eapply build_lists_plain; exact Bl|exact S3]).
  apply sound_alloc; [exact S4|]. apply Wh. exact Ls.
Qed.

Section Sounds.
Variable choose : mem -> list nat -> list nat.
Hypothesis proper : proper_choice choose.

Definition sounds (cl : mem -> nat -> res (mem * nat)) : Prop :=
  forall m n m' r, shut m -> sound m -> n < length m -> cl m n = Ok (m', r) -> firm [] m m' /\ sound m' /\ alike m m' n r.

Lemma clones_sound : forall cl, sounds cl -> tame cl -> forall l m m' rs, shut m -> sound m -> (forall n, In n l -> n < length m) ->
  clones cl m l = Ok (m', rs) -> firm [] m m' /\ sound m' /\ Forall2 (alike m m') l rs.
Proof.
  intros cl Sc T. induction l as [|n l IH]; intros m m' rs Sh Sd Ln E; simpl in E.
  - injection E as <- <-. split; [apply firm_refl|]. split; [assumption|constructor].
  - step E r1 E1. step E r2 E2. injection E as <- <-. destruct r1 as [m1 r1], r2 as [m2 r2]. simpl fst in *. simpl snd in *.
    pose proof (Ln n (or_introl eq_refl)) as L1. destruct (Sc _ _ _ _ Sh Sd L1 E1) as (F1 & S1 & A1).
    destruct (tame_shut _ _ _ _ _ T Sh L1 E1) as [Sh1 _]. pose proof (f_len _ _ _ _ F1) as Le.
    destruct (IH m1 m2 r2 Sh1 S1) as (F2 & S2 & A2); [intros q I; pose proof (Ln q (or_intror I)); lia|exact E2|].
    split; [exact (firm_trans _ _ _ _ F1 F2)|]. split; [assumption|]. constructor; [eapply alike_on; eassumption|].
    assert (Lt : forall q, In q l -> q < length m) by (intros q I; apply Ln; right; exact I). clear -F1 A2 Lt.
    induction A2 as [|q r l rs A Q IH]; constructor; [eapply alike_back; [exact F1|apply Lt; left; reflexivity|exact A]|apply IH; intros k I; apply Lt; right; exact I].
Qed.

Lemma statement_copy_sound : forall cl m f s p m' r, sounds cl -> tame cl -> shut m -> sound m -> s < length m -> p < length m -> flags_of m [s; p] f ->
  statement_copy false cl m f s p = Ok (m', r) -> firm [] m m' /\ sound m' /\ flagged m' r f.
Proof.
  intros cl m f s p m' r Sc T Sh Sd Ls Lp Fl E. unfold statement_copy in E. destruct (new_lists m) as [m1 [[a b] c]] eqn:N.
  destruct (new_lists_made _ _ _ _ _ N) as (F1 & Ea & Eb & Ec & L1 & _). destruct (new_lists_unbuilt _ _ _ _ _ Sh N) as [U1 Sh1].
  pose proof (sound_plain _ _ F1 (new_lists_plain _ _ _ N) Sd) as S1.
  step E r1 E1. destruct r1 as [m2 s']. simpl fst in *. simpl snd in *. step E r2 E2. destruct r2 as [m3 p']. simpl fst in *. simpl snd in *. step E m4 J. step E m5 Bl.
  assert (Ls1 : s < length m1) by lia. destruct (Sc _ _ _ _ Sh1 S1 Ls1 E1) as (F2 & S2 & A1). destruct (tame_shut _ _ _ _ _ T Sh1 Ls1 E1) as [Sh2 _].
  pose proof (f_len _ _ _ _ F2) as Le2. assert (Lp2 : p < length m2) by lia. destruct (Sc _ _ _ _ Sh2 S2 Lp2 E2) as (F3 & S3 & A2).
  assert (O : (s < a /\ s < b /\ s < c) /\ (p < a /\ p < b /\ p < c)) by lia. destruct O as ((O1 & O2 & O3) & (O4 & O5 & O6)).
  pose proof (pairs_unbuilt _ _ _ _ _ a b c T U1 O1 O2 O3 E1) as U2. pose proof (pairs_unbuilt _ _ _ _ _ a b c T U2 O4 O5 O6 E2) as U3.
  pose proof (firm_trans _ _ _ _ F2 F3) as F23.
  destruct (finish_made m m1 m3 m4 m5 a b c [s'; p'] f CStatement (Some s') (Some p') None N F23 U3 J Bl) as (Q1 & Q2 & Q3 & Q4 & Q5 & _).
  assert (Fl3 : flags_of m3 [s'; p'] f).
  { eapply alike_flags; [|exact Fl]. pose proof (firm_trans _ _ _ _ F1 F2) as F12. constructor; [|constructor; [|constructor]].
    - eapply alike_on; [exact F3|]. eapply alike_back; [exact F1|exact Ls|exact A1].
    - eapply alike_back; [exact F12|exact Lp|exact A2]. }
  assert (Ss : sound (fst (alloc m5 (BTerm CStatement f (Some s') (Some p') None a b c)))).
  { eapply (finish_sound m m1 m3 m4 m5 a b c [s'; p']); [exact N|exact F23|exact U3|exact S3|exact J|exact Bl|]. intros Lq.
    exists s', p'. split; [reflexivity|]. split; [reflexivity|]. split; [reflexivity|]. split; [|exact Lq].
    eapply flags_of_firm; [exact Q2| |exact Fl3]. intros n I. destruct A1 as (f1 & _ & g1). destruct A2 as (f2 & _ & g2). apply (flagged_firm _ _ _ _ _ _ F3) in g1.
    destruct g1 as (c1 & a1 & b1 & t1 & x1 & y1 & z1 & B1). destruct g2 as (c2 & a2 & b2 & t2 & x2 & y2 & z2 & B2). destruct I as [<-|[<-|[]]]; eauto. }
  injection E as <- <-. split; [exact Q1|]. split; [exact Ss|]. exists CStatement, (Some s'), (Some p'), None, a, b, c. exact Q3.
Qed.

Lemma terms_unbuilt_any : forall cl (same : bool) m t m' t' k, tame cl -> unbuilt m k ->
  (if same then bind (acquire m t) (fun m1 => Ok (m1, t))
   else bind (terms_at m t) (fun l => bind (clones cl m l) (fun r => fill false choose (fst r) (snd r)))) = Ok (m', t') ->
  unbuilt m' k.
Proof.
  intros cl same m t m' t' k T U E. destruct same.
  - step E m1 A. injection E as <- <-. eapply acquire_unbuilt; eassumption.
  - step E l Q. apply terms_at_has in Q. step E r Ec. destruct r as [m1 rs]. simpl fst in *. simpl snd in *.
    assert (Nl : ~ In k l) by (intros I; destruct Q as (s & Es & Bs); apply (proj1 U t s Es k); [rewrite Bs; exact I|reflexivity]).
    destruct (clones_unbuilt _ _ _ _ _ _ T U Nl Ec) as [U1 N1]. eapply fill_unbuilt; eassumption.
Qed.

(* The Terms of a compound or of its copy. *)
Lemma terms_sound : forall cl (same : bool) m t m' t', sounds cl -> tame cl -> shut m -> sound m -> t < length m ->
  (if same then bind (acquire m t) (fun m1 => Ok (m1, t))
   else bind (terms_at m t) (fun l => bind (clones cl m l) (fun r => fill false choose (fst r) (snd r)))) = Ok (m', t') ->
  firm [] m m' /\ sound m' /\ shut m' /\ t' < length m' /\
  forall l l', has_body m t (BTerms l) -> has_body m' t' (BTerms l') -> forall g, any_of m' g l' -> any_of m g l.
Proof.
  intros cl same m t m' t' Sc T Sh Sd Lt E. destruct same.
  - step E m1 A. injection E as <- <-. pose proof (acquire_firm _ _ _ A) as F. split; [exact F|].
    split; [eapply sound_plain; [exact F|apply plain_same; eapply acquire_same; exact A|exact Sd]|]. split; [eapply acquire_shut; eassumption|].
    split; [rewrite (acquire_same _ _ _ A); exact Lt|]. intros l l' B B' g (n & c & f & a & b & u & x & y & z & I & Bn & Q).
    pose proof (has_same _ _ _ _ (terms_body _ _ _ _ _ _ F B) B') as X. injection X as <-.
    exists n, c, f, a, b, u, x, y, z. split; [assumption|]. split; [|assumption]. eapply term_back; [exact F| |reflexivity|exact Bn].
    eapply shut_parts; [exact Sh|exact B|exact I].
  - step E l0 Q. apply terms_at_has in Q. step E r Ec. destruct r as [m1 rs]. simpl fst in *. simpl snd in *.
    assert (Ln : forall n, In n l0 -> n < length m) by (intros n I; eapply shut_parts; [exact Sh|exact Q|exact I]).
    destruct (clones_sound cl Sc T _ _ _ _ Sh Sd Ln Ec) as (F1 & S1 & A1). pose proof (clones_shut _ _ _ _ _ T Sh Ln Ec) as Sh1.
    destruct (fill_made choose proper _ _ _ _ E) as (F2 & T1 & T2 & pick & P1 & P2 & P3).
    destruct (fill_shut _ _ _ _ _ Sh1 (clones_bound _ _ _ _ _ T Sh Ln Ec) E) as [Sh2 Lt'].
    split; [exact (firm_trans _ _ _ _ F1 F2)|]. split; [eapply sound_plain; [exact F2|eapply fill_plain; exact E|exact S1]|].
    split; [exact Sh2|]. split; [exact Lt'|]. intros l l' B B' g An. pose proof (has_same _ _ _ _ Q B) as X. injection X as <-.
    pose proof (has_same _ _ _ _ P3 B') as X. injection X as <-. apply (alike_any _ _ _ _ g A1).
    eapply any_back; [exact F2| |eapply any_incl; [|exact An]; intros q I; eapply picked_in; exact I].
    intros n I. clear -A1 I. induction A1 as [|q r l rs (f & _ & (c & a & b & t & x & y & z & B)) A IH]; [destruct I|]. destruct I as [<-|I]; [eauto|auto].
Qed.

Lemma compound_copy_sound : forall cl m f t l m' r, sounds cl -> tame cl -> shut m -> sound m -> has_body m t (BTerms l) ->
  (any_of m f_var l -> f_var f = true) -> (any_of m f_ivar l -> f_ivar f = true) -> (any_of m f_dvar l -> f_dvar f = true) -> (any_of m f_qvar l -> f_qvar f = true) ->
  compound_copy false choose cl m f t = Ok (m', r) -> firm [] m m' /\ sound m' /\ flagged m' r f.
Proof.
  intros cl m f t l m' r Sc T Sh Sd Bt C1 C2 C3 C4 E. unfold compound_copy in E. destruct (new_lists m) as [m1 [[a b] c]] eqn:N.
  destruct (new_lists_made _ _ _ _ _ N) as (F1 & Ea & Eb & Ec & L1 & _). destruct (new_lists_unbuilt _ _ _ _ _ Sh N) as [U1 Sh1].
  pose proof (sound_plain _ _ F1 (new_lists_plain _ _ _ N) Sd) as S1. pose proof (has_lt _ _ _ Bt) as Lt.
  step E r0 E0. destruct r0 as [m3 t']. simpl fst in *. simpl snd in *. step E l' E3. apply terms_at_has in E3. step E m5 J. step E m6 Bl.
  pose proof (terms_body _ _ _ _ _ _ F1 Bt) as Bt1.
  assert (E0' : (if negb (f_var f) then bind (acquire m1 t) (fun m1 => Ok (m1, t))
        else bind (terms_at m1 t) (fun l => bind (clones cl m1 l) (fun r => fill false choose (fst r) (snd r)))) = Ok (m3, t')).
  { destruct (f_var f); exact E0. }
  assert (Lt1 : t < length m1) by lia. destruct (terms_sound cl _ m1 t m3 t' Sc T Sh1 S1 Lt1 E0') as (F2 & S3 & Sh3 & Lt' & An).
  assert (U3 : all_unbuilt m3 a b c) by (destruct U1 as (Ua & Ubb & Uc); repeat split; eapply terms_unbuilt_any; eassumption).
  destruct (finish_made m m1 m3 m5 m6 a b c l' f CCompound None None (Some t') N F2 U3 J Bl) as (Q1 & Q2 & Q3 & Q4 & Q5 & _).
  assert (Ss : sound (fst (alloc m6 (BTerm CCompound f None None (Some t') a b c)))).
  { eapply (finish_sound m m1 m3 m5 m6 a b c l'); [exact N|exact F2|exact U3|exact S3|exact J|exact Bl|]. intros Lq.
    exists t', l'. split; [reflexivity|]. split; [reflexivity|]. split; [reflexivity|]. split; [eapply firm_body; [exact Q2|right; reflexivity|exact E3]|]. split; [exact Lq|].
    assert (Bk : forall g, any_of (fst (alloc m6 (BTerm CCompound f None None (Some t') a b c))) g l' -> any_of m g l).
    { intros g A. assert (A3 : any_of m3 g l').
      { destruct A as (n & d & h & u & v & w & x & y & z & I & Bn & Q). exists n, d, h, u, v, w, x, y, z. split; [assumption|]. split; [|assumption].
        eapply term_back; [exact Q2|eapply shut_parts; [exact Sh3|exact E3|exact I]|reflexivity|exact Bn]. }
      apply (An l l' Bt1 E3) in A3. destruct A3 as (n & d & h & u & v & w & x & y & z & I & Bn & Q). exists n, d, h, u, v, w, x, y, z. split; [assumption|]. split; [|assumption].
      eapply term_back; [exact F1|eapply shut_parts; [exact Sh|exact Bt|exact I]|reflexivity|exact Bn]. }
    split; [|split; [|split]]; intros A; [apply C1|apply C2|apply C3|apply C4]; apply Bk; exact A. }
  injection E as <- <-. split; [exact Q1|]. split; [exact Ss|]. exists CCompound, None, None, (Some t'), a, b, c. exact Q3.
Qed.

Lemma copy_variable_sound : forall m name f x y z m' r, shut m -> sound m -> (forall n, In n [x; y; z] -> n < length m) -> well_made m (CVariable name) f None None None x y z ->
  copy_variable m (CVariable name) f (x, y, z) = Ok (m', r) -> firm [] m m' /\ sound m' /\ flagged m' r f.
Proof.
  intros m name f x y z m' r Sh Sd Ln Wm E. destruct (copy_variable_sizes m m name f x y z m' r (firm_refl _ _) E) as (F & x' & y' & z' & B & Nw & Sz).
  split; [exact F|]. split; [|exists (CVariable name), None, None, None, x', y', z'; exact B].
  unfold copy_variable in E. step E r1 E1. step E r2 E2. step E r3 E3. destruct r1 as [m1 x1], r2 as [m2 x2], r3 as [m3 x3]. simpl fst in *. simpl snd in *.
  pose proof (copy_list_plain _ _ _ E1) as P1. pose proof (copy_list_plain _ _ _ E2) as P2. pose proof (copy_list_plain _ _ _ E3) as P3. simpl fst in *.
  destruct (copy_list_made _ _ _ E1) as (F1 & _). destruct (copy_list_made _ _ _ E2) as (F2 & _). destruct (copy_list_made _ _ _ E3) as (F3 & _). simpl fst in *.
  pose proof (sound_plain _ _ F3 P3 (sound_plain _ _ F2 P2 (sound_plain _ _ F1 P1 Sd))) as S3.
  assert (Em : m' = fst (alloc m3 (BTerm (CVariable name) f None None None x1 x2 x3)) /\ r = length m3) by (injection E; intros; subst; auto). destruct Em as [-> ->]. clear E.
  apply sound_alloc; [exact S3|]. pose proof (has_same _ _ _ _ B (alloc_body _ _)) as X. injection X as <- <- <-.
  destruct Wm as (_ & _ & _ & k & Fk & W1 & W2 & W3). split; [reflexivity|]. split; [reflexivity|]. split; [reflexivity|]. exists k. split; [exact Fk|].
  assert (Go : forall m' u v n, same_size m m' u v -> bare_list m u n -> bare_list m' v n).
  { intros m' u v n Sm (xu & i & b & Bu & Li). destruct (Sm xu i [] b Bu (or_intror eq_refl)) as (xv & iv & bv & Bv & Lv & _). exists xv, iv, bv. split; [exact Bv|]. lia. }
  inversion Sz as [|? ? ? ? Z1 Sz1]; subst. inversion Sz1 as [|? ? ? ? Z2 Sz2]; subst. inversion Sz2 as [|? ? ? ? Z3 _]; subst.
  split; [|split]; eapply Go; eassumption.
Qed.

Lemma clone_sounds : forall fuel, sounds (clone false choose fuel).
Proof.
  induction fuel as [|fuel IH]; intros m n m' r Sh Sd Ln E; [discriminate|]. simpl in E. step E q Q.
  destruct q as [[[[[c f] s] p] t] [[x y] z]]. apply term_at_has in Q. pose proof (Sd _ _ Q) as Wh. simpl in Wh.
  assert (Fl : flagged m n f) by (exists c, s, p, t, x, y, z; exact Q).
  assert (Rf : forall k, In k (opt s ++ opt p ++ opt t ++ [x; y; z]) -> k < length m) by (intros k I; eapply shut_parts; [exact Sh|exact Q|exact I]).
  assert (Fin : firm [] m m' /\ sound m' /\ flagged m' r f -> firm [] m m' /\ sound m' /\ alike m m' n r) by (intros (A & B & C); split; [assumption|]; split; [assumption|]; exists f; auto).
  destruct (f_var f) eqn:Vf.
  - destruct c as [| | |name| |].
    1-3: destruct Wh as (-> & _); discriminate.
    + apply Fin. destruct Wh as (-> & -> & -> & k & Wk). eapply copy_variable_sound; [exact Sh|exact Sd|exact Rf| |exact E].
      split; [reflexivity|]. split; [reflexivity|]. split; [reflexivity|]. exists k. exact Wk.
    + destruct Wh as (s' & p' & -> & -> & -> & Fo & _). apply Fin.
      eapply (statement_copy_sound _ m f s' p'); [exact IH|apply clone_tame|exact Sh|exact Sd|apply Rf; simpl; auto|apply Rf; simpl; auto|exact Fo|exact E].
    + destruct Wh as (t' & l & -> & -> & -> & Bt & _ & C1 & C2 & C3 & C4). apply Fin.
      eapply compound_copy_sound; [exact IH|apply clone_tame|exact Sh|exact Sd|exact Bt|exact C1|exact C2|exact C3|exact C4|exact E].
  - step E m1 A. injection E as <- <-. pose proof (acquire_firm _ _ _ A) as F. apply Fin. split; [exact F|].
    split; [eapply sound_plain; [exact F|apply plain_same; eapply acquire_same; exact A|exact Sd]|]. eapply flagged_firm; eassumption.
Qed.

Lemma clone_of_sounds : sounds (clone_of false choose).
Proof. intros m n m' r. apply clone_sounds. Qed.

Lemma part_sound : forall i m n m' r, shut m -> sound m -> n < length m -> part false choose i m n = Ok (m', r) -> firm [] m m' /\ sound m' /\ shut m' /\ r < length m'.
Proof.
  intros i m n m' r Sh Sd Ln E. destruct (tame_shut _ _ _ _ _ (part_tame choose i) Sh Ln E) as [Sh1 L1]. unfold part in E. destruct i.
  - step E m1 A. injection E as <- <-. pose proof (acquire_firm _ _ _ A) as F. split; [exact F|]. split; [|auto].
    eapply sound_plain; [exact F|apply plain_same; eapply acquire_same; exact A|exact Sd].
  - destruct (clone_of_sounds _ _ _ _ Sh Sd Ln E) as (F & S1 & _). auto.
Qed.

Lemma statement_sound : forall m s p i m' r, shut m -> sound m -> s < length m -> p < length m ->
  statement false choose m s p i = Ok (m', r) -> shut m' /\ sound m'.
Proof.
  intros m s p i m' r Sh Sd Ls Lp E. unfold statement in E. destruct (new_lists m) as [m1 [[a b] c]] eqn:N.
  destruct (new_lists_made _ _ _ _ _ N) as (F1 & Ea & Eb & Ec & L1 & _). destruct (new_lists_unbuilt _ _ _ _ _ Sh N) as [U1 Sh1].
  pose proof (sound_plain _ _ F1 (new_lists_plain _ _ _ N) Sd) as S1.
  step E r1 E1. destruct r1 as [m2 s']. simpl fst in *. simpl snd in *. step E r2 E2. destruct r2 as [m3 p']. simpl fst in *. simpl snd in *.
  step E m4 Hs. step E f Af. step E m5 J. step E m6 Bl.
  assert (Ls1 : s < length m1) by lia. destruct (part_sound _ _ _ _ _ Sh1 S1 Ls1 E1) as (F2 & S2 & Sh2 & Ls').
  pose proof (f_len _ _ _ _ F2) as Le2. assert (Lp2 : p < length m2) by lia. destruct (part_sound _ _ _ _ _ Sh2 S2 Lp2 E2) as (F3 & S3 & Sh3 & Lp').
  pose proof (f_len _ _ _ _ F3) as Le3.
  assert (O : (s < a /\ s < b /\ s < c) /\ (p < a /\ p < b /\ p < c)) by lia. destruct O as ((O1 & O2 & O3) & (O4 & O5 & O6)).
  pose proof (pairs_unbuilt _ _ _ _ _ a b c (part_tame choose i) U1 O1 O2 O3 E1) as U2. pose proof (pairs_unbuilt _ _ _ _ _ a b c (part_tame choose i) U2 O4 O5 O6 E2) as U3.
  assert (U4 : all_unbuilt m4 a b c) by (destruct U3 as (Ua & Ub & Uc); repeat split; eapply hash_unbuilt; eassumption).
  assert (Ll : a < length m3 /\ b < length m3 /\ c < length m3) by lia. destruct Ll as (La & Lb & Lc).
  pose proof (hash_shut _ _ _ _ _ Sh3 La Lb Lc Hs) as Sh4. pose proof (hash_lists_firm _ _ _ Hs) as F4. pose proof (f_len _ _ _ _ F4) as Le4.
  pose proof (sound_plain _ _ F4 (hash_plain _ _ _ Hs) S3) as S4.
  pose proof (firm_trans _ _ _ _ (firm_trans _ _ _ _ F2 F3) F4) as F24.
  destruct (finish_made m m1 m4 m5 m6 a b c [s'; p'] f CStatement (Some s') (Some p') None N F24 U4 J Bl) as (Q1 & Q2 & Q3 & Q4 & Q5 & Q6).
  assert (Ll4 : a < length m4 /\ b < length m4 /\ c < length m4) by lia. destruct Ll4 as (La4 & Lb4 & Lc4).
  pose proof (join_shut _ _ _ _ _ _ Sh4 La4 Lb4 Lc4 J) as Sh5. pose proof (join_same _ _ _ _ J) as Le5. rewrite <- Le5 in La4, Lb4, Lc4.
  pose proof (build_lists_shut _ _ _ _ _ _ Sh5 La4 Lb4 Lc4 Bl) as Sh6. pose proof (f_len _ _ _ _ (build_lists_firm _ _ _ _ Bl)) as Le6.
  assert (Em : m' = fst (alloc m6 (BTerm CStatement f (Some s') (Some p') None a b c))) by (injection E; intros; subst; reflexivity). rewrite Em. split.
  - apply alloc_shut; [exact Sh6|]. intros q I. simpl in I. destruct I as [<-|[<-|[<-|[<-|[<-|[]]]]]]; lia.
  - eapply (finish_sound m m1 m4 m5 m6 a b c [s'; p']); [exact N|exact F24|exact U4|exact S4|exact J|exact Bl|]. intros Lq.
    exists s', p'. split; [reflexivity|]. split; [reflexivity|]. split; [reflexivity|]. split; [|exact Lq].
    eapply flags_of_firm; [exact Q2|exact (any_flags_parts _ _ _ Af)|exact (any_flags_of _ _ _ Af)].
Qed.

Lemma compound_sound : forall m t i m' r, shut m -> sound m -> t < length m ->
  compound false choose m t i = Ok (m', r) -> shut m' /\ sound m'.
Proof.
  intros m t i m' r Sh Sd Lt E. unfold compound in E. destruct (new_lists m) as [m1 [[a b] c]] eqn:N.
  destruct (new_lists_made _ _ _ _ _ N) as (F1 & Ea & Eb & Ec & L1 & _). destruct (new_lists_unbuilt _ _ _ _ _ Sh N) as [U1 Sh1].
  pose proof (sound_plain _ _ F1 (new_lists_plain _ _ _ N) Sd) as S1.
  step E r0 E0. destruct r0 as [m3 t']. simpl fst in *. simpl snd in *. step E l E3. apply terms_at_has in E3. step E m4 Hs. step E f Af. step E m5 J. step E m6 Bl.
  assert (Lt1 : t < length m1) by lia. destruct (terms_sound _ _ m1 t m3 t' clone_of_sounds (clone_of_tame choose) Sh1 S1 Lt1 E0) as (F2 & S3 & Sh3 & Lt' & _).
  pose proof (f_len _ _ _ _ F2) as Le2.
  assert (U3 : all_unbuilt m3 a b c) by (destruct U1 as (Ua & Ub & Uc); repeat split; eapply terms_unbuilt_any; try apply (clone_of_tame choose); eassumption).
  assert (U4 : all_unbuilt m4 a b c) by (destruct U3 as (Ua & Ub & Uc); repeat split; eapply hash_unbuilt; eassumption).
  assert (Ll : a < length m3 /\ b < length m3 /\ c < length m3) by lia. destruct Ll as (La & Lb & Lc).
  pose proof (hash_shut _ _ _ _ _ Sh3 La Lb Lc Hs) as Sh4. pose proof (hash_lists_firm _ _ _ Hs) as F4. pose proof (f_len _ _ _ _ F4) as Le4.
  pose proof (sound_plain _ _ F4 (hash_plain _ _ _ Hs) S3) as S4.
  pose proof (firm_trans _ _ _ _ F2 F4) as F24.
  destruct (finish_made m m1 m4 m5 m6 a b c l f CCompound None None (Some t') N F24 U4 J Bl) as (Q1 & Q2 & Q3 & Q4 & Q5 & Q6).
  assert (Ll4 : a < length m4 /\ b < length m4 /\ c < length m4) by lia. destruct Ll4 as (La4 & Lb4 & Lc4).
  pose proof (join_shut _ _ _ _ _ _ Sh4 La4 Lb4 Lc4 J) as Sh5. pose proof (join_same _ _ _ _ J) as Le5. rewrite <- Le5 in La4, Lb4, Lc4.
  pose proof (build_lists_shut _ _ _ _ _ _ Sh5 La4 Lb4 Lc4 Bl) as Sh6. pose proof (f_len _ _ _ _ (build_lists_firm _ _ _ _ Bl)) as Le6.
  assert (Em : m' = fst (alloc m6 (BTerm CCompound f None None (Some t') a b c))) by (injection E; intros; subst; reflexivity). rewrite Em. split.
  - apply alloc_shut; [exact Sh6|]. intros q I. simpl in I. destruct I as [<-|[<-|[<-|[<-|[]]]]]; lia.
  - eapply (finish_sound m m1 m4 m5 m6 a b c l); [exact N|exact F24|exact U4|exact S4|exact J|exact Bl|]. intros Lq.
    pose proof (terms_body _ _ _ _ _ _ F4 E3) as E4.
    exists t', l. split; [reflexivity|]. split; [reflexivity|]. split; [reflexivity|]. split; [eapply firm_body; [exact Q2|right; reflexivity|exact E4]|]. split; [exact Lq|].
    pose proof (flags_of_firm _ _ _ _ _ Q2 (any_flags_parts _ _ _ Af) (any_flags_of _ _ _ Af)) as (A1 & A2 & A3 & A4).
    split; [|split; [|split]]; [apply A1|apply A2|apply A3|apply A4].
Qed.

Lemma simple_sound : forall m c m' r, shut m -> sound m -> c = CPlain \/ c = COperation \/ c = CInterval -> simple m c = (m', r) -> shut m' /\ sound m'.
Proof.
  intros m c m' r Sh Sd Hc E. destruct (simple_made _ _ _ _ E) as [_ (x & y & z & B & Nw & Fr)]. unfold simple in E. destruct (new_lists m) as [m1 [[a b] d]] eqn:N.
  destruct (new_lists_made _ _ _ _ _ N) as (F1 & Ea & Eb & Ec & L1 & Su). destruct (new_lists_unbuilt _ _ _ _ _ Sh N) as [U1 Sh1].
  pose proof (sound_plain _ _ F1 (new_lists_plain _ _ _ N) Sd) as S1.
  assert (Em : m' = fst (alloc m1 (BTerm c (Flags false false false false) None None None a b d)) /\ r = length m1) by (injection E; intros; subst; auto).
  destruct Em as [-> ->]. clear E. pose proof (has_same _ _ _ _ B (alloc_body _ _)) as X. injection X as -> -> ->. split.
  - apply alloc_shut; [exact Sh1|]. intros q I. simpl in I. destruct I as [<-|[<-|[<-|[]]]]; lia.
  - apply sound_alloc; [exact S1|]. assert (Bl : forall k, In k [a; b; d] -> bare_list (fst (alloc m1 (BTerm c (Flags false false false false) None None None a b d))) k 0).
    { intros k I. destruct (Fr k I) as (i & Bk & Lk). exists None, i, false. split; [exact Bk|lia]. }
    destruct Hc as [Hc|[Hc|Hc]]; rewrite Hc in *; simpl; auto.
Qed.

Lemma write_term : forall m n x i l k m' q b, write m n (BIndex x i l k) = Ok m' -> kind_of b = KTerm -> has_body m' q b -> has_body m q b.
Proof.
  intros m n x i l k m' q b W K B. destruct (Nat.eq_dec q n) as [->|Ne].
  - pose proof (has_same _ _ _ _ B (write_body _ _ _ _ W)) as ->. discriminate.
  - unfold write in W. step W s Q. injection W as <-. destruct B as (s' & E & Bs). exists s'. split; [|exact Bs].
    rewrite set_nth_other in E by congruence. exact E.
Qed.

Lemma variable_sound : forall m k name i m' r, shut m -> sound m -> variable m k name i = Ok (m', r) -> shut m' /\ sound m'.
Proof.
  intros m k name i m' r Sh Sd E. destruct (variable_made _ _ _ _ _ _ E) as [F (x & y & z & B & Nw & Fx & Fy & Fz)]. unfold variable in E.
  destruct (new_lists m) as [m1 [[a b] c]] eqn:N. destruct (new_lists_made _ _ _ _ _ N) as (F1 & Ea & Eb & Ec & L1 & _). destruct (new_lists_unbuilt _ _ _ _ _ Sh N) as [U1 Sh1].
  change (match k with Independent => Flags true true false false | Dependent => Flags true false true false | Query => Flags true false false true end) with (flags_of_kind k) in E.
  pose proof (alloc_shut m1 (BTerm (CVariable name) (flags_of_kind k) None None None a b c) Sh1) as Sh2. pose proof (alloc_firm m1 (BTerm (CVariable name) (flags_of_kind k) None None None a b c)) as F2.
  pose proof (alloc_body m1 (BTerm (CVariable name) (flags_of_kind k) None None None a b c)) as B2.
  assert (L2 : length (fst (alloc m1 (BTerm (CVariable name) (flags_of_kind k) None None None a b c))) = S (length m1)) by (simpl; rewrite app_length; simpl; lia).
  assert (Wt : whole m' (BTerm (CVariable name) (flags_of_kind k) None None None x y z)).
  { split; [reflexivity|]. split; [reflexivity|]. split; [reflexivity|]. exists k. split; [reflexivity|].
    split; [destruct Fx as (j & Bj & Lj)|split; [destruct Fy as (j & Bj & Lj)|destruct Fz as (j & Bj & Lj)]]; exists None, j, false; (split; [exact Bj|]); rewrite Lj; destruct k, i; lia. }
  destruct (alloc m1 (BTerm (CVariable name) (flags_of_kind k) None None None a b c)) as [m2 t] eqn:Al. simpl fst in *.
  assert (Et : t = length m1) by (unfold alloc in Al; congruence).
  assert (Sh2' : shut m2) by (apply Sh2; intros q I; simpl in I; destruct I as [<-|[<-|[<-|[]]]]; lia). clear Sh2.
  assert (Er : r = length m1) by (destruct i; [destruct (alloc m2 BInt); step E m4 W|]; congruence). subst r.
  assert (Only : forall n b0, length m <= n -> has_body m2 n b0 -> kind_of b0 = KTerm -> n = length m1).
  { intros n b0 Ln Bn K. pose proof (has_lt _ _ _ Bn) as Lt. destruct (Nat.eq_dec n (length m1)) as [|Ne]; [assumption|]. exfalso.
    apply (new_lists_plain _ _ _ N n b0 Ln); [|exact K]. eapply term_back; [exact F2|lia|exact K|exact Bn]. }
  assert (Sg : (forall n b0, length m <= n -> has_body m' n b0 -> kind_of b0 = KTerm -> n = length m1) -> sound m').
  { intros On. eapply sound_step; [exact F|intros q []|exact Sd|]. intros n b0 Ln Bn K. assert (n = length m1) by (eapply On; eassumption). subst n.
    pose proof (has_same _ _ _ _ B Bn) as <-. exact Wt. }
  destruct i; [|injection E as <- _; split; [exact Sh2'|apply Sg; exact Only]].
  pose proof (alloc_shut m2 BInt Sh2' (fun q (I : In q []) => match I with end)) as Sh3. pose proof (alloc_firm m2 BInt) as F3. pose proof (alloc_plain m2 BInt ltac:(discriminate)) as P3.
  assert (L3 : length (fst (alloc m2 BInt)) = S (length m2)) by (simpl; rewrite app_length; simpl; lia).
  destruct (alloc m2 BInt) as [m3 j] eqn:Aj. simpl fst in *. assert (Ej : j = length m2) by (unfold alloc in Aj; congruence). step E m4 W. injection E as <- _. split.
  - eapply shut_calm; [exact Sh3|rewrite (write_same _ _ _ _ W); lia|]. intros q Lq A _. rewrite (write_same _ _ _ _ W) in Lq.
    eapply write_calm; [exact A| | |exact W]; [destruct k; lia|]. intros v I. simpl in I. destruct I as [<-|[]]. lia.
  - apply Sg. intros n b0 Ln Bn K. apply (Only n b0 Ln); [|exact K]. pose proof (write_term _ _ _ _ _ _ _ _ _ W K Bn) as B3.
    destruct (Nat.lt_ge_cases n (length m2)) as [Lt|Ge]; [eapply term_back; [exact F3|exact Lt|exact K|exact B3]|]. exfalso. exact (P3 n b0 Ge B3 K).
Qed.

Lemma statement_copy_shut : forall m f s p m' r, shut m -> s < length m -> p < length m -> firm [] m m' -> statement_copy false (clone_of false choose) m f s p = Ok (m', r) -> shut m'.
Proof.
  intros m f s p m' r Sh Ls Lp F E. pose proof (f_len _ _ _ _ F) as Le. eapply shut_calm; [exact Sh|exact Le|]. intros k Lk A Sp.
  eapply statement_copy_calm; [exact (proj1 (clone_of_tame choose))|exact (proj2 (clone_of_tame choose) (eq k))|exact E|lia|lia|exact A|exact Sp].
Qed.

Lemma compound_copy_shut : forall m f t m' r, shut m -> t < length m -> firm [] m m' -> compound_copy false choose (clone_of false choose) m f t = Ok (m', r) -> shut m'.
Proof.
  intros m f t m' r Sh Lt F E. pose proof (f_len _ _ _ _ F) as Le. eapply shut_calm; [exact Sh|exact Le|]. intros k Lk A Sp.
  eapply compound_copy_calm; [exact (proj1 (clone_of_tame choose))|exact (proj2 (clone_of_tame choose) (eq k))|exact E|lia|exact A|exact Sp].
Qed.

Lemma duplicate_sound : forall m n d m' r, shut m -> sound m -> duplicate false choose m n d = Ok (m', r) -> shut m' /\ sound m'.
Proof.
  intros m n d m' r Sh Sd E. unfold duplicate in E. step E q Q. destruct q as [[[[[c f] s] p] t] [[x y] z]]. apply term_at_has in Q. pose proof (Sd _ _ Q) as Wh.
  assert (Rf : forall k, In k (opt s ++ opt p ++ opt t ++ [x; y; z]) -> k < length m) by (intros k I; eapply shut_parts; [exact Sh|exact Q|exact I]).
  destruct d.
  - destruct c as [| | |name| |]; try (destruct s, p, t; discriminate); simpl in Wh.
    + destruct Wh as (-> & -> & -> & k & Wk). split; [eapply copy_variable_shut; eassumption|].
      apply (copy_variable_sound m name f x y z m' r Sh Sd Rf); [|exact E]. split; [reflexivity|]. split; [reflexivity|]. split; [reflexivity|]. exists k. exact Wk.
    + destruct Wh as (s' & p' & -> & -> & -> & Fo & _). assert (Ls : s' < length m) by (apply Rf; simpl; auto). assert (Lp : p' < length m) by (apply Rf; simpl; auto).
      destruct (statement_copy_sound _ m f s' p' m' r clone_of_sounds (clone_of_tame choose) Sh Sd Ls Lp Fo E) as (F & S1 & _).
      split; [eapply (statement_copy_shut m f s' p'); eassumption|exact S1].
    + destruct Wh as (t' & l & -> & -> & -> & Bt & _ & C1 & C2 & C3 & C4).
      destruct (compound_copy_sound _ m f t' l m' r clone_of_sounds (clone_of_tame choose) Sh Sd Bt C1 C2 C3 C4 E) as (F & S1 & _).
      split; [|exact S1]. eapply (compound_copy_shut m f t'); [exact Sh|apply Rf; simpl; auto|exact F|exact E].
  - destruct (new_lists m) as [m1 [[a b] e]] eqn:N. destruct (new_lists_made _ _ _ _ _ N) as (F1 & Ea & Eb & Ec & L1 & _). destruct (new_lists_unbuilt _ _ _ _ _ Sh N) as [_ Sh1].
    step E m2 Ac. step E m3 D. pose proof (acquire_all_firm _ _ _ Ac) as F2. pose proof (drop_all_firm _ _ _ D) as F3.
    pose proof (sound_plain _ _ F1 (new_lists_plain _ _ _ N) Sd) as S1.
    assert (S2 : sound m2) by (eapply sound_plain; [exact F2|apply plain_same; eapply acquire_all_same; exact Ac|exact S1]).
    assert (S3 : sound m3) by (eapply sound_plain; [exact F3|apply plain_same; eapply drop_all_same; exact D|exact S2]).
    pose proof (acquire_all_shut _ _ _ Sh1 Ac) as Sh2. pose proof (drop_all_shut _ _ _ Sh2 D) as Sh3.
    pose proof (firm_trans _ _ _ _ F1 (firm_trans _ _ _ _ F2 F3)) as F.
    assert (Em : m' = fst (alloc m3 (BTerm c f s p t x y z))) by (injection E; intros; subst; reflexivity). rewrite Em. split.
    + apply alloc_shut; [exact Sh3|]. intros q I. apply Rf in I. pose proof (f_len _ _ _ _ F). lia.
    + apply sound_alloc; [exact S3|]. eapply whole_firm; [exact (firm_trans _ _ _ _ F (alloc_firm m3 _))|intros q []|intros q []|exact Wh].
Qed.

Lemma act_sound : forall m held a m' held', shut m -> sound m -> (forall n, In n held -> n < length m) -> allowed m held a ->
  act false choose m held a = Ok (m', held') -> shut m' /\ sound m'.
Proof.
  intros m held a m' held' Sh Sd Lv Al E.
  assert (Kp : forall x, bind x (fun q : mem * nat => Ok (fst q, snd q :: held)) = Ok (m', held') -> exists r, x = Ok (m', r) /\ held' = r :: held).
  { intros x Ex. step Ex q Q. injection Ex as <- <-. exists (snd q). split; [destruct q; reflexivity|reflexivity]. }
  assert (Sm : forall m1, firm [] m m1 -> length m1 = length m -> sound m1) by (intros m1 F L; eapply sound_plain; [exact F|apply plain_same; exact L|exact Sd]).
  destruct a; simpl in Al; unfold act in E; try (apply Kp in E; destruct E as (r0 & E & ->)).
  - assert (Es : simple m c = (m', r0)) by congruence. eapply simple_sound; eassumption.
  - eapply variable_sound; eassumption.
  - step E m1 Ac. pose proof (acquire_all_firm _ _ _ Ac) as F1. pose proof (acquire_all_same _ _ _ Ac) as L1.
    assert (Ll : forall n, In n l -> n < length m1) by (intros n I; rewrite L1; apply Lv; apply Al; exact I).
    split; [exact (proj1 (fill_shut _ _ _ _ _ (acquire_all_shut _ _ _ Sh Ac) Ll E))|].
    destruct (fill_made choose proper _ _ _ _ E) as (F2 & _). eapply sound_plain; [exact F2|eapply fill_plain; exact E|apply Sm; assumption].
  - destruct Al as (Is & Ip & _). eapply (statement_sound m s p); [exact Sh|exact Sd|apply Lv; exact Is|apply Lv; exact Ip|exact E].
  - destruct Al as (It & _). eapply (compound_sound m t); [exact Sh|exact Sd|apply Lv; exact It|exact E].
  - destruct Al as (In1 & _). pose proof (Lv _ In1) as Ln. split; [exact (proj1 (tame_shut _ _ _ _ _ (clone_of_tame choose) Sh Ln E))|].
    exact (proj1 (proj2 (clone_of_sounds _ _ _ _ Sh Sd Ln E))).
  - eapply duplicate_sound; eassumption.
  - step E m1 Ac. injection E as <- <-. split; [eapply acquire_shut; eassumption|]. apply Sm; [exact (acquire_firm _ _ _ Ac)|eapply acquire_same; exact Ac].
  - step E m1 Ac. injection E as <- <-. split; [eapply acquire_shut; eassumption|]. apply Sm; [exact (acquire_firm _ _ _ Ac)|eapply acquire_same; exact Ac].
  - step E m1 D. injection E as <- <-. split; [eapply drop_shut; eassumption|]. apply Sm; [exact (release_firm _ _ _ _ D)|eapply release_same; exact D].
Qed.

Lemma reached_sound : forall m held, reached choose m held -> shut m /\ sound m.
Proof.
  induction 1 as [|m held a m' held' R IH Al E].
  - split; [intros k _ n s En; destruct n; discriminate|]. intros n b (s & En & _). destruct n; discriminate.
  - destruct IH as [Sh Sd]. pose proof (reached_good choose proper m held R) as G.
    eapply (act_sound m held a); [exact Sh|exact Sd| |exact Al|exact E].
    intros n I. apply (alive_lt m m n (firm_refl _ _)). apply (good_alive m [] held n G). simpl. rewrite in_app_iff. auto.
Qed.

(* ---- statements ---- *)
Theorem actions_make : forall m held a m' held', reached choose m held -> allowed m held a -> act false choose m held a = Ok (m', held') ->
  exists r, holds a held held' r /\ makes m m' a r.
Proof. intros m held a m' held' R Al E. exact (proj2 (act_made choose proper m held a m' held' R (proj1 (reached_sound _ _ R)) Al E)). Qed.

Theorem components_stay : forall m held a m' held' n x i l b, reached choose m held -> allowed m held a -> act false choose m held a = Ok (m', held') ->
  has_body m n (BIndex x i l b) -> exists x' i' b', has_body m' n (BIndex x' i' l b') /\ (b = true \/ l = [] -> i' = i).
Proof.
  intros m held a m' held' n x i l b R Al E B. destruct (act_made choose proper m held a m' held' R (proj1 (reached_sound _ _ R)) Al E) as [F _].
  exact (kept_list [] m m' n x i l b F (fun q => q) B).
Qed.

Theorem terms_well_made : forall m held n c f a b t x y z, reached choose m held -> has_body m n (BTerm c f a b t x y z) -> well_made m c f a b t x y z.
Proof. intros m held n c f a b t x y z R B. exact (proj2 (reached_sound _ _ R) n _ B). Qed.
End Sounds.
