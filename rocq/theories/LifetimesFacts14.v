(* The flags of terms tell of the variables inside of them, and copies have
   variables of their own. *)
From Coq Require Import String ZArith List Bool Arith Lia.
From Verif Require Import Base Lifetimes LifetimesSpec LifetimesFacts LifetimesFacts2 LifetimesFacts3 LifetimesFacts4 LifetimesFacts7 LifetimesFacts9 LifetimesFacts10 LifetimesFacts11 LifetimesFacts8 LifetimesFacts12 LifetimesFacts13.
Import ListNotations.

Definition under (f g : flags) : Prop :=
  (f_var f = true -> f_var g = true) /\ (f_ivar f = true -> f_ivar g = true) /\ (f_dvar f = true -> f_dvar g = true) /\ (f_qvar f = true -> f_qvar g = true).

Lemma under_trans : forall f g h, under f g -> under g h -> under f h.
Proof. unfold under. intuition. Qed.

Lemma part_under : forall m n c f a b t x y z k g, sound m -> has_body m n (BTerm c f a b t x y z) -> flagged m k g ->
  a = Some k \/ b = Some k \/ (exists u l, t = Some u /\ has_body m u (BTerms l) /\ In k l) -> under g f.
Proof.
  intros m n c f a b t x y z k g Sd B (c' & a' & b' & t' & x' & y' & z' & Bk) Hk. pose proof (Sd _ _ B) as Wh. simpl in Wh.
  assert (An : forall l (h : flags -> bool), In k l -> h g = true -> any_of m h l) by (intros l h I Q; exists k, c', g, a', b', t', x', y', z'; auto).
  unfold under. destruct c as [| | |name| |].
  1-3: destruct Wh as (_ & -> & -> & -> & _); destruct Hk as [Hk|[Hk|(u & l & Hk & _)]]; discriminate.
  - destruct Wh as (-> & -> & -> & _). destruct Hk as [Hk|[Hk|(u & l & Hk & _)]]; discriminate.
  - destruct Wh as (s & p & -> & -> & -> & (F1 & F2 & F3 & F4) & _).
    assert (I : In k [s; p]) by (destruct Hk as [Hk|[Hk|(u & l & Hk & _)]]; [injection Hk as ->; left; reflexivity|injection Hk as ->; right; left; reflexivity|discriminate]).
    repeat split; intros Q; [apply F1|apply F2|apply F3|apply F4]; (eapply An; [exact I|exact Q]).
  - destruct Wh as (t0 & l0 & -> & -> & -> & Bt & _ & C1 & C2 & C3 & C4).
    assert (I : In k l0) by (destruct Hk as [Hk|[Hk|(u & l & Hk & Bu & I)]]; [discriminate|discriminate|injection Hk as <-; pose proof (has_same _ _ _ _ Bt Bu) as X; injection X as <-; exact I]).
    repeat split; intros Q; [apply C1|apply C2|apply C3|apply C4]; (eapply An; [exact I|exact Q]).
Qed.

Lemma inside_flagged : forall m n v, inside m n v -> exists f, flagged m n f.
Proof. intros m n v H. destruct H; eexists; (do 7 eexists); eassumption. Qed.

Lemma inside_under : forall m n v, sound m -> inside m n v -> forall f g, flagged m n f -> flagged m v g -> under g f.
Proof.
  intros m n v Sd H. induction H as [v name f a b t x y z B|n v c f s b t x y z B H IH|n v c f a p t x y z B H IH|n v c f a b t l k x y z B Bt I H IH]; intros f' g Ff Fg.
  - rewrite (flagged_one _ _ _ _ Ff Fg). unfold under. auto.
  - destruct (inside_flagged _ _ _ H) as (h & Fh). eapply under_trans; [exact (IH h g Fh Fg)|].
    assert (Fn : flagged m n f) by (exists c, (Some s), b, t, x, y, z; exact B). rewrite (flagged_one _ _ _ _ Ff Fn). eapply part_under; [exact Sd|exact B|exact Fh|auto].
  - destruct (inside_flagged _ _ _ H) as (h & Fh). eapply under_trans; [exact (IH h g Fh Fg)|].
    assert (Fn : flagged m n f) by (exists c, a, (Some p), t, x, y, z; exact B). rewrite (flagged_one _ _ _ _ Ff Fn). eapply part_under; [exact Sd|exact B|exact Fh|auto].
  - destruct (inside_flagged _ _ _ H) as (h & Fh). eapply under_trans; [exact (IH h g Fh Fg)|].
    assert (Fn : flagged m n f) by (exists c, a, b, (Some t), x, y, z; exact B). rewrite (flagged_one _ _ _ _ Ff Fn). eapply part_under; [exact Sd|exact B|exact Fh|eauto 8].
Qed.

Lemma inside_variable : forall m n v, inside m n v -> exists name f a b t x y z, has_body m v (BTerm (CVariable name) f a b t x y z).
Proof. intros m n v H. induction H; [do 8 eexists; eassumption|assumption..]. Qed.

Lemma no_variables : forall m n v f, sound m -> flagged m n f -> f_var f = false -> ~ inside m n v.
Proof.
  intros m n v f Sd Fl Nf H. destruct (inside_variable _ _ _ H) as (name & g & a & b & t & x & y & z & B).
  destruct (inside_under _ _ _ Sd H f g Fl) as [U _]; [exists (CVariable name), a, b, t, x, y, z; exact B|].
  pose proof (Sd _ _ B) as (_ & _ & _ & k & -> & _). rewrite U in Nf; [discriminate|destruct k; reflexivity].
Qed.

(* v and the lists and ints of v are new. *)
Definition own (m m' : mem) (v : nat) : Prop :=
  length m <= v /\ exists name f x y z, has_body m' v (BTerm (CVariable name) f None None None x y z)
    /\ forall k, In k [x; y; z] -> length m <= k /\ forall u i l b, has_body m' k (BIndex u i l b) -> forall q, In q i -> length m <= q.

Lemma variable_own : forall m m' n r name f x y z x' y' z', sound m -> has_body m n (BTerm (CVariable name) f None None None x y z) ->
  has_body m' r (BTerm (CVariable name) f None None None x' y' z') -> new m [x'; y'; z'; r] -> sizes m m' [x; y; z] [x'; y'; z'] ->
  forall v, inside m' r v -> own m m' v.
Proof.
  intros m m' n r name f x y z x' y' z' Sd B B' [_ Nw] Sz v H.
  assert (Ev : v = r) by (inversion H as [v0 n0 f0 a0 b0 t0 x0 y0 z0 B0|n0 v0 c0 f0 s0 b0 t0 x0 y0 z0 B0|n0 v0 c0 f0 a0 p0 t0 x0 y0 z0 B0|n0 v0 c0 f0 a0 b0 t0 l0 k0 x0 y0 z0 B0];
    [reflexivity|pose proof (has_same _ _ _ _ B' B0); discriminate..]). subst v.
  split; [apply Nw; simpl; auto|]. exists name, f, x', y', z'. split; [exact B'|]. intros k I. split; [apply Nw; simpl in *; intuition|]. intros u i l b Bk q Iq.
  pose proof (Sd _ _ B) as (_ & _ & _ & kk & _ & L1 & L2 & L3).
  assert (Go : forall a c w, same_size m m' a c -> bare_list m a w -> k = c -> length m <= q).
  { intros a c w Ss (ua & ia & ba & Ba & _) ->. destruct (Ss ua ia [] ba Ba (or_intror eq_refl)) as (n' & i' & b' & Bc & _ & [_ Nc]).
    pose proof (has_same _ _ _ _ Bc Bk) as X. injection X as <- <- <- <-. apply Nc. exact Iq. }
  inversion Sz as [|? ? ? ? Z1 Sz1]; subst. inversion Sz1 as [|? ? ? ? Z2 Sz2]; subst. inversion Sz2 as [|? ? ? ? Z3 _]; subst.
  destruct I as [<-|[<-|[<-|[]]]]; [eapply Go; [exact Z1|exact L1|reflexivity]|eapply Go; [exact Z2|exact L2|reflexivity]|eapply Go; [exact Z3|exact L3|reflexivity]].
Qed.

Lemma statement_inside : forall m' r f s p x y z v, has_body m' r (BTerm CStatement f (Some s) (Some p) None x y z) -> inside m' r v -> inside m' s v \/ inside m' p v.
Proof.
  intros m' r f s p x y z v B H. inversion H as [v0 n0 f0 a0 b0 t0 x0 y0 z0 B0|n0 v0 c0 f0 s0 b0 t0 x0 y0 z0 B0 H0|n0 v0 c0 f0 a0 p0 t0 x0 y0 z0 B0 H0|n0 v0 c0 f0 a0 b0 t0 l0 k0 x0 y0 z0 B0]; subst;
    pose proof (has_same _ _ _ _ B B0) as X; try discriminate; injection X; intros; subst; auto.
Qed.

Lemma compound_inside : forall m' r f t l x y z v, has_body m' r (BTerm CCompound f None None (Some t) x y z) -> has_body m' t (BTerms l) -> inside m' r v ->
  exists k, In k l /\ inside m' k v.
Proof.
  intros m' r f t l x y z v B Bt H. inversion H as [v0 n0 f0 a0 b0 t0 x0 y0 z0 B0|n0 v0 c0 f0 s0 b0 t0 x0 y0 z0 B0 H0|n0 v0 c0 f0 a0 p0 t0 x0 y0 z0 B0 H0|n0 v0 c0 f0 a0 b0 t0 l0 k0 x0 y0 z0 B0 B1 I1 H1]; subst;
    pose proof (has_same _ _ _ _ B B0) as X; try discriminate. injection X; intros; subst. pose proof (has_same _ _ _ _ Bt B1) as Y. injection Y as <-. eauto.
Qed.

Lemma pairs_in : forall (P : nat -> nat -> Prop) l l' pick k, Forall2 P l l' -> In k (picked pick l') -> exists n, In n l /\ P n k.
Proof.
  intros P l l' pick k F I. apply picked_in in I. induction F as [|n r l l' H F IH]; [destruct I|]. destruct I as [<-|I]; [exists n; simpl; auto|].
  destruct (IH I) as (n' & I' & H'). exists n'. simpl. auto.
Qed.

Lemma copied_own : forall m m', sound m -> sound m' -> firm [] m m' -> forall n r, copied m m' n r -> forall v, inside m' r v -> own m m' v.
Proof.
  intros m m' Sd Sd' F. fix IH 3. intros n r C v H.
  destruct C as [n c f a b l x y z B Nf|n r name f x y z x' y' z' B Vf B' Nw Sz|n r f s p s' p' x y z x' y' z' B Vf B' Nw Ls Cs Cp|n r f t t' l l' pick x y z x' y' z' B Vf Bt B' Nw Bt' ND Lt Ls Fc].
  - exfalso. eapply no_variables; [exact Sd'| |exact Nf|exact H]. exists c, a, b, l, x, y, z. eapply firm_body; [exact F|left; reflexivity|exact B].
  - eapply variable_own; eassumption.
  - destruct (statement_inside _ _ _ _ _ _ _ _ _ B' H) as [H1|H1]; [exact (IH _ _ Cs v H1)|exact (IH _ _ Cp v H1)].
  - destruct (compound_inside _ _ _ _ _ _ _ _ _ B' Bt' H) as (k & Ik & Hk). apply picked_in in Ik.
    clear -IH Fc Ik Hk. induction Fc as [|n0 r0 l l' C0 Fc IHF]; [destruct Ik|]. destruct Ik as [<-|Ik]; [exact (IH _ _ C0 v Hk)|exact (IHF Ik)].
Qed.

Section Copies.
Variable choose : mem -> list nat -> list nat.
Hypothesis proper : proper_choice choose.

Lemma terms_own : forall m m' t t' l', sound m -> sound m' -> firm [] m m' -> terms_of false m m' t t' -> has_body m' t' (BTerms l') ->
  forall k, In k l' -> forall v, inside m' k v -> own m m' v.
Proof.
  intros m m' t t' l' Sd Sd' F T Bt k I v H. destruct T as (l0 & l1 & pick & B0 & Fc & ND & Lt & B1 & Nt). pose proof (has_same _ _ _ _ B1 Bt) as X. injection X as <-.
  destruct (pairs_in _ _ _ _ _ Fc I) as (n & _ & C). eapply copied_own; eassumption.
Qed.

Theorem variables_inside : forall m held n v c f a b t x y z name g a' b' t' x' y' z', reached choose m held -> inside m n v ->
  has_body m n (BTerm c f a b t x y z) -> has_body m v (BTerm (CVariable name) g a' b' t' x' y' z') ->
  (exists k, g = flags_of_kind k) /\ (f_var f = true) /\ (f_ivar g = true -> f_ivar f = true) /\ (f_dvar g = true -> f_dvar f = true) /\ (f_qvar g = true -> f_qvar f = true).
Proof.
  intros m held n v c f a b t x y z name g a' b' t' x' y' z' R H B Bv. pose proof (proj2 (reached_sound choose proper m held R)) as Sd.
  destruct (inside_under _ _ _ Sd H f g) as (U1 & U2 & U3 & U4); [exists c, a, b, t, x, y, z; exact B|exists (CVariable name), a', b', t', x', y', z'; exact Bv|].
  pose proof (Sd _ _ Bv) as (_ & _ & _ & k & Ek & _). split; [exists k; exact Ek|]. split; [apply U1; rewrite Ek; destruct k; reflexivity|auto].
Qed.

Theorem copies_own : forall m held a m' r held', reached choose m held -> allowed m held a -> copying a -> act false choose m held a = Ok (m', r :: held') ->
  forall v, inside m' r v ->
    length m <= v /\ exists name f x y z, has_body m' v (BTerm (CVariable name) f None None None x y z)
      /\ forall k, In k [x; y; z] -> length m <= k /\ forall u i l b, has_body m' k (BIndex u i l b) -> forall q, In q i -> length m <= q.
Proof.
  intros m held a m' r held' R Al Cp E v H. destruct (reached_sound choose proper m held R) as [Sh Sd].
  destruct (act_made choose proper m held a m' _ R Sh Al E) as [F (r0 & Ho & Mk)]. destruct (reached_sound choose proper m' _ (reached_act choose m held a m' _ R Al E)) as [Sh' Sd'].
  change (own m m' v).
  assert (Er : r0 = r) by (destruct a; try destruct Cp; simpl in Ho; congruence). subst r0.
  destruct a as [| | |s p [|]|t [|]|n|n [|]| | |]; try destruct Cp; simpl in Mk.
  - destruct Mk as (f & s' & p' & x & y & z & B & Nw & Ps & _). simpl in Ps. inversion Ps as [|? ? ? ? C1 Ps1]; subst. inversion Ps1 as [|? ? ? ? C2 _]; subst.
    destruct (statement_inside _ _ _ _ _ _ _ _ _ B H) as [H1|H1]; (eapply copied_own; [exact Sd|exact Sd'|exact F| |exact H1]; eassumption).
  - destruct Mk as (f & t' & l & x & y & z & B & Nw & Ts & Bt & _). destruct (compound_inside _ _ _ _ _ _ _ _ _ B Bt H) as (k & Ik & Hk). eapply terms_own; eassumption.
  - eapply copied_own; eassumption.
  - destruct Mk as [(name & f & x & y & z & x' & y' & z' & B & B' & Nw & Sz)|[(f & s & p & s' & p' & x & y & z & x' & y' & z' & B & B' & Nw & Fc & _)|(f & t & t' & l & x & y & z & x' & y' & z' & B & B' & Nw & Ts & Bt & _)]].
    + eapply variable_own; eassumption.
    + inversion Fc as [|? ? ? ? C1 Ps1]; subst. inversion Ps1 as [|? ? ? ? C2 _]; subst. destruct (statement_inside _ _ _ _ _ _ _ _ _ B' H) as [H1|H1]; (eapply copied_own; [exact Sd|exact Sd'|exact F| |exact H1]; eassumption).
    + destruct (f_var f) eqn:Vf; [destruct (compound_inside _ _ _ _ _ _ _ _ _ B' Bt H) as (k & Ik & Hk); eapply terms_own; eassumption|].
      exfalso. eapply no_variables; [exact Sd'| |exact Vf|exact H]. exists CCompound, None, None, (Some t'), x', y', z'. exact B'.
Qed.
End Copies.
