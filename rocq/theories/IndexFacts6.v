(* Adding, removing, copying and comparing. *)
From Coq Require Import ZArith List Bool Lia.
From Verif Require Import Base Hash IndexVar Index IndexSpec IndexFacts IndexFacts2 IndexFacts3 IndexFacts4 IndexFacts5.
Import ListNotations.
Local Open Scope Z_scope.

(* ---- rebuilding ---- *)
Lemma rebuilt : forall h n l h', reached h -> (n < length (nodes h))%nat -> content h n l ->
  does h (Build n true) h' -> built_by true h h h' n.
Proof.
  intros h n l h' R L C [f E]. simpl in E.
  destruct (build_ok true h n (content_acc _ _ _ C) h (shape_refl h) (reached_wf h R) L) as (g & h'' & E' & B).
  { discriminate. }
  rewrite (build_same _ _ _ _ _ _ _ E E'). assumption.
Qed.

Lemma rebuild_right : forall h n l, reached h -> (n < length (nodes h))%nat -> content h n l ->
  exists h', does h (Build n true) h' /\ shown h' n = l
  /\ (forall p m, at_position h n p m -> content h m (shown h' m))
  /\ (forall m, (forall p, ~ at_position h n p m) -> node h' m = node h m)
  /\ cells h' = cells h
  /\ (forall m lm, content h m lm <-> content h' m lm).
Proof.
  intros h n l R L C. destruct (proj2 (rebuild_returns h n R L) (ex_intro _ l C)) as [h' D].
  exists h'. split; [assumption|]. pose proof (rebuilt h n l h' R L C D) as B.
  assert (S : shape h h') by apply B.
  split; [|split; [|split; [|split]]].
  - eapply content_fun; [apply (bb_right _ _ _ _ _ B)|assumption].
  - intros p m P. apply (bb_all _ _ _ _ _ B eq_refl m). exists p. assumption.
  - intros m N. apply (bb_frame _ _ _ _ _ B). intros [p P]. exact (N p P).
  - apply (sh_cells _ _ S).
  - intros m lm. split; [apply content_shape; assumption|apply content_shape; apply shape_sym; assumption].
Qed.

Lemma position_read : forall h n l q x, content h n l -> at_position h n q x -> exists lx, content h x lx
  /\ beyond q l = map (fun e => (q ++ fst e, snd e)) lx.
Proof.
  intros h n l q x C A. destruct (content_at h n q x A l C) as (lx & Cx & B). exists lx. split; [assumption|].
  rewrite B. reflexivity.
Qed.

(* ---- two memories with the same joints ---- *)
Lemma acc_sons : forall h h1, (forall x, iv_successors (node h1 x) = iv_successors (node h x)) ->
  forall n, Acc (under h) n -> Acc (under h1) n.
Proof.
  intros h h1 E n A. induction A as [n _ IH]. constructor. intros s Hs. apply IH. unfold under in *. rewrite <- E. assumption.
Qed.

Lemma content_moves : forall h h1, (forall x, iv_successors (node h1 x) = iv_successors (node h x)) ->
  forall n l, content h n l -> exists l1, content h1 n l1.
Proof. intros h h1 E n l C. apply acc_content. eapply acc_sons; [exact E|]. eapply content_acc; eassumption. Qed.

Lemma part_app : forall (A : Type) (a a' b b' : list A), part_of a a' -> part_of b b' -> part_of (a ++ b) (a' ++ b').
Proof. intros A a a' b b' H. induction H; simpl; intros; [assumption|apply part_skip; auto|apply part_take; auto]. Qed.

Lemma part_map : forall (A B : Type) (f : A -> B) a a', part_of a a' -> part_of (map f a) (map f a').
Proof. intros A B f a a' H. induction H; simpl; [apply part_nil|apply part_skip; auto|apply part_take; auto]. Qed.

Lemma part_refl : forall (A : Type) (a : list A), part_of a a.
Proof. induction a; [apply part_nil|apply part_take; auto]. Qed.

Lemma part_none : forall (A : Type) (a : list A), part_of [] a.
Proof. induction a; constructor; auto. Qed.

Lemma content_part : forall h h1, (forall x, iv_successors (node h1 x) = iv_successors (node h x)) ->
  (forall x, is_end h x -> part_of (shown h x) (shown h1 x)) ->
  forall n l, content h n l -> forall l1, content h1 n l1 -> part_of l l1.
Proof.
  intros h h1 E P.
  apply (content_min h (fun n l => forall l1, content h1 n l1 -> part_of l l1)
           (fun k sons l => forall l1, contents h1 k sons l1 -> part_of l l1)).
  - intros n X l1 C. inversion C as [? Y|? s sons ? Y]; subst; [apply P; assumption|].
    rewrite E in Y. congruence.
  - intros n s sons l X _ IH l1 C. inversion C as [? Y|? s' sons' ? Y C']; subst.
    + rewrite E in Y. congruence.
    + rewrite E, X in Y. injection Y as <- <-. auto.
  - intros k l1 C. inversion C. constructor.
  - intros k s sons l l' _ IH1 _ IH2 l1 C. inversion C; subst. apply part_app; [apply part_map; auto|auto].
Qed.

Lemma content_part' : forall h h1, (forall x, iv_successors (node h1 x) = iv_successors (node h x)) ->
  (forall x, is_end h x -> part_of (shown h1 x) (shown h x)) ->
  forall n l, content h n l -> forall l1, content h1 n l1 -> part_of l1 l.
Proof.
  intros h h1 E P n l C l1 C1. revert C. revert l. revert n l1 C1.
  intros n l1 C1 l C. refine (content_part h1 h _ _ n l1 C1 l C).
  - intros x. symmetry. apply E.
  - intros x X. apply P. unfold is_end in *. rewrite E in X. assumption.
Qed.

(* Objects below which no end has changed. *)
Lemma content_elsewhere : forall h h1, (forall x, iv_successors (node h1 x) = iv_successors (node h x)) ->
  forall n l, content h n l -> (forall p x, at_position h n p x -> is_end h x -> shown h1 x = shown h x) ->
  content h1 n l.
Proof.
  intros h h1 E.
  apply (content_min h
    (fun n l => (forall p x, at_position h n p x -> is_end h x -> shown h1 x = shown h x) -> content h1 n l)
    (fun k sons l => (forall s p x, In s sons -> at_position h s p x -> is_end h x -> shown h1 x = shown h x) ->
        contents h1 k sons l)).
  - intros n X F. rewrite <- (F [] n (at_here _ _) X). apply content_end. rewrite E. assumption.
  - intros n s sons l X _ IH F. eapply content_inner; [rewrite E; eassumption|]. apply IH.
    intros s' p x Hs A N. destruct (under_son h n s') as [k K]; [unfold under; rewrite X; assumption|].
    apply (F (k :: p) x); [econstructor; eassumption|assumption].
  - intros. constructor.
  - intros k s sons l l' _ IH1 _ IH2 F. constructor.
    + apply IH1. intros p x. apply F. left; reflexivity.
    + apply IH2. intros s' p x Hs. apply F. right; assumption.
Qed.

(* ---- add ---- *)
Lemma values_more : forall h l cs, (forall c, In c cs -> (c < length (cells h))%nat) ->
  values (Heap (cells h ++ l) (nodes h) (next_id h)) cs = values h cs.
Proof.
  intros h l cs B. unfold values. apply map_ext_in. intros c Hc. unfold cell. simpl.
  apply app_nth1. auto.
Qed.

Lemma forget_lists : forall h n x,
  iv_positions (node (forget h n) x) = iv_positions (node h x)
  /\ iv_indices (node (forget h n) x) = iv_indices (node h x).
Proof.
  intros. unfold forget. destruct (Nat.eq_dec n x) as [->|E]; [|rewrite node_set_other by assumption; auto].
  destruct (Nat.lt_ge_cases x (length (nodes h))).
  - rewrite node_set_same by assumption. auto.
  - rewrite !node_out by (rewrite ?len_set; assumption). auto.
Qed.

Lemma shown_forget : forall h n x, shown (forget h n) x = shown h x.
Proof. intros. apply shown_same; [reflexivity| |]; apply forget_lists. Qed.

Lemma shown_more : forall h l x, wf h -> shown (Heap (cells h ++ l) (nodes h) (next_id h)) x = shown h x.
Proof.
  intros h l x W. unfold shown. f_equal. unfold node. simpl. apply values_more. intros c. apply (wf_cells h W x).
Qed.

Lemma shown_wipe : forall h n x, shown (wipe h n) x = if Nat.eq_dec n x then [] else shown h x.
Proof.
  intros. unfold wipe. destruct (Nat.eq_dec n x) as [->|E].
  - unfold shown. destruct (Nat.lt_ge_cases x (length (nodes h))).
    + rewrite node_set_same by assumption. reflexivity.
    + rewrite !node_out by (rewrite ?len_set; assumption). reflexivity.
  - apply shown_same; [reflexivity| |]; rewrite node_set_other by assumption; reflexivity.
Qed.

Lemma shown_push : forall h n c x, wf h -> (n < length (nodes h))%nat ->
  shown (push h n c) x = if Nat.eq_dec n x then shown h x ++ [([], cell h c)] else shown h x.
Proof.
  intros h n c x W L. unfold push. destruct (Nat.eq_dec n x) as [->|E].
  - unfold shown. rewrite node_set_same by assumption. simpl. rewrite values_set.
    unfold values at 1. rewrite map_app.
    rewrite combine_app by (rewrite map_length; apply wf_lists; assumption). reflexivity.
  - apply shown_same; [reflexivity| |]; rewrite node_set_other by assumption; reflexivity.
Qed.

Lemma at_in : forall h, wf h -> forall n p m, at_position h n p m -> (n < length (nodes h))%nat -> (m < length (nodes h))%nat.
Proof.
  intros h W n p m A. induction A as [|n k s p m S A IH]; intros L; [assumption|]. apply IH.
  eapply wf_sons; [exact W|]. eapply son_under; eassumption.
Qed.

Lemma last_cell : forall h i, cell (Heap (cells h ++ [i]) (nodes h) (next_id h)) (length (cells h)) = i.
Proof. intros. unfold cell. simpl. rewrite app_nth2 by lia. rewrite Nat.sub_diag. reflexivity. Qed.

Lemma add_shown : forall h n i p h1, wf h -> (n < length (nodes h))%nat -> add h n i p = Ok h1 ->
  exists m, at_position h n p m /\ forall x,
    shown h1 x = if Nat.eq_dec m x then (match p with [] => [] | _ => shown h x end) ++ [([], i)] else shown h x.
Proof.
  intros h n i p h1 W L E. destruct (add_inv _ _ _ _ _ E) as (m & A & ->). exists m. split; [assumption|].
  intros x. pose proof (at_in h W n p m A L) as Lm.
  set (g := Heap (cells h ++ [i]) (nodes h) (next_id h)).
  assert (Wg : wf (forget g n)) by (apply wf_forget; apply wf_more_cells; assumption).
  assert (Lg : (m < length (nodes (forget g n)))%nat) by (unfold forget; rewrite len_set; exact Lm).
  assert (G : shown (forget g n) x = shown h x) by (rewrite shown_forget; apply shown_more; assumption).
  destruct p as [|k p].
  - inversion A; subst. rewrite shown_push.
    + rewrite shown_wipe, G. unfold cell. simpl. rewrite app_nth2 by lia. rewrite Nat.sub_diag.
      destruct (Nat.eq_dec m x); reflexivity.
    + apply wf_wipe; assumption.
    + unfold wipe. rewrite len_set. assumption.
  - rewrite shown_push by assumption. rewrite G. unfold cell. simpl. rewrite app_nth2 by lia. rewrite Nat.sub_diag. reflexivity.
Qed.

Lemma remove_shown : forall h n p h1, remove h n p = Ok h1 ->
  exists m, at_position h n p m /\ forall x, shown h1 x = if Nat.eq_dec m x then [] else shown h x.
Proof.
  intros h n p h1 E. destruct (remove_inv _ _ _ _ E) as (m & A & ->). exists m. split; [assumption|].
  intros x. rewrite shown_wipe, shown_forget. reflexivity.
Qed.

Lemma content_of_end : forall h x l, is_end h x -> content h x l -> l = shown h x.
Proof. intros h x l E C. inversion C as [|? s sons ? X]; subst; [reflexivity|]. unfold is_end in E. congruence. Qed.

Lemma prepend_app : forall q a b, map (prepend q) (a ++ b) = map (prepend q) a ++ map (prepend q) b.
Proof. intros. apply map_app. Qed.

Lemma len_add : forall h n i p h1, add h n i p = Ok h1 -> length (nodes h1) = length (nodes h).
Proof.
  intros h n i p h1 E. destruct (add_inv _ _ _ _ _ E) as (m & _ & ->). unfold push, wipe, forget.
  destruct p; rewrite !len_set; reflexivity.
Qed.

Lemma len_remove : forall h n p h1, remove h n p = Ok h1 -> length (nodes h1) = length (nodes h).
Proof.
  intros h n p h1 E. destruct (remove_inv _ _ _ _ E) as (m & _ & ->). unfold wipe, forget.
  rewrite !len_set. reflexivity.
Qed.

Lemma does_inv_add : forall h n i p h1, does h (Add n i p) h1 -> add h n i p = Ok h1.
Proof. intros h n i p h1 [f E]. exact E. Qed.
Lemma does_inv_remove : forall h n p h1, does h (Remove n p) h1 -> remove h n p = Ok h1.
Proof. intros h n p h1 [f E]. exact E. Qed.

Lemma reached_add : forall h n i p h1, reached h -> (n < length (nodes h))%nat -> does h (Add n i p) h1 -> reached h1.
Proof.
  intros h n i p h1 R L D. eapply reached_call; [exact R| |exact D].
  split; simpl; [intros x [<-|[]]; assumption|contradiction].
Qed.
Lemma reached_remove : forall h n p h1, reached h -> (n < length (nodes h))%nat -> does h (Remove n p) h1 -> reached h1.
Proof.
  intros h n p h1 R L D. eapply reached_call; [exact R| |exact D].
  split; simpl; [intros x [<-|[]]; assumption|contradiction].
Qed.

(* After add at an end and rebuild. *)
Lemma added : forall h n i p m l h1, reached h -> (n < length (nodes h))%nat -> content h n l ->
  at_position h n p m -> is_end h m -> does h (Add n i p) h1 ->
  exists h2, does h1 (Build n true) h2
  /\ (p = [] -> shown h2 n = [([], i)])
  /\ (p <> [] -> part_of l (shown h2 n)
      /\ (forall q, at_position h n q m -> beyond q (shown h2 n) = beyond q l ++ [(q, i)])
      /\ (forall q x, at_position h n q x -> is_end h x -> x <> m -> beyond q (shown h2 n) = beyond q l))
  /\ (forall x lx, content h x lx -> (forall q, ~ at_position h x q m) -> content h2 x lx).
Proof.
  intros h n i p m l h1 R L C A N D.
  pose proof (reached_add h n i p h1 R L D) as R1. apply does_inv_add in D.
  pose proof (reached_wf h R) as W.
  pose proof (add_sons h n i p h1 D) as So.
  destruct (add_shown h n i p h1 W L D) as (m' & A' & Sh).
  pose proof (at_fun _ _ _ _ _ A A') as <-.
  destruct (content_moves h h1 So n l C) as [l1 C1].
  assert (L1 : (n < length (nodes h1))%nat) by (rewrite (len_add _ _ _ _ _ D); assumption).
  destruct (rebuild_right h1 n l1 R1 L1 C1) as (h2 & D2 & E2 & _ & _ & _ & T2).
  exists h2. split; [assumption|]. rewrite E2. split; [|split].
  - intros ->. assert (n = m) as -> by (inversion A; reflexivity).
    rewrite (content_of_end h1 m l1); [|unfold is_end; rewrite So; assumption|assumption].
    rewrite Sh. destruct (Nat.eq_dec m m); [reflexivity|contradiction].
  - intros Np. split; [|split].
    + refine (content_part h h1 So _ n l C l1 C1). intros x X. rewrite Sh.
      destruct (Nat.eq_dec m x); [|apply part_refl]. destruct p; [contradiction|].
      rewrite <- (app_nil_r (shown h x)) at 1. apply part_app; [apply part_refl|apply part_none].
    + intros q Q. destruct (content_at h n q m Q l C) as (lx & Cx & B).
      pose proof (proj2 (at_sons h h1 So n q m) Q) as Q1.
      destruct (content_at h1 n q m Q1 l1 C1) as (lx1 & Cx1 & B1).
      rewrite B1, B, (content_of_end _ _ _ N Cx).
      rewrite (content_of_end h1 m lx1); [|unfold is_end; rewrite So; assumption|assumption].
      rewrite Sh. destruct (Nat.eq_dec m m); [|contradiction]. destruct p; [contradiction|].
      rewrite map_app. f_equal. simpl. unfold prepend. simpl. rewrite app_nil_r. reflexivity.
    + intros q x Q X Ne. destruct (content_at h n q x Q l C) as (lx & Cx & B).
      pose proof (proj2 (at_sons h h1 So n q x) Q) as Q1.
      destruct (content_at h1 n q x Q1 l1 C1) as (lx1 & Cx1 & B1).
      rewrite B1, B, (content_of_end _ _ _ X Cx).
      rewrite (content_of_end h1 x lx1); [|unfold is_end; rewrite So; assumption|assumption].
      rewrite Sh. destruct (Nat.eq_dec m x); [congruence|]. reflexivity.
  - intros x lx Cx Nx. apply T2. refine (content_elsewhere h h1 So x lx Cx _).
    intros q y Q Y. rewrite Sh. destruct (Nat.eq_dec m y) as [->|]; [|reflexivity].
    exfalso. exact (Nx q Q).
Qed.

Lemma removed : forall h n p m l h1, reached h -> (n < length (nodes h))%nat -> content h n l ->
  at_position h n p m -> is_end h m -> does h (Remove n p) h1 ->
  exists h2, does h1 (Build n true) h2
  /\ part_of (shown h2 n) l
  /\ (forall q, at_position h n q m -> beyond q (shown h2 n) = [])
  /\ (forall q x, at_position h n q x -> is_end h x -> x <> m -> beyond q (shown h2 n) = beyond q l)
  /\ (forall x lx, content h x lx -> (forall q, ~ at_position h x q m) -> content h2 x lx).
Proof.
  intros h n p m l h1 R L C A N D.
  pose proof (reached_remove h n p h1 R L D) as R1. apply does_inv_remove in D.
  pose proof (remove_sons h n p h1 D) as So.
  destruct (remove_shown h n p h1 D) as (m' & A' & Sh).
  pose proof (at_fun _ _ _ _ _ A A') as <-.
  destruct (content_moves h h1 So n l C) as [l1 C1].
  assert (L1 : (n < length (nodes h1))%nat) by (rewrite (len_remove _ _ _ _ D); assumption).
  destruct (rebuild_right h1 n l1 R1 L1 C1) as (h2 & D2 & E2 & _ & _ & _ & T2).
  exists h2. split; [assumption|]. rewrite E2. split; [|split; [|split]].
  - refine (content_part' h h1 So _ n l C l1 C1). intros x X. rewrite Sh.
    destruct (Nat.eq_dec m x); [apply part_none|apply part_refl].
  - intros q Q. pose proof (proj2 (at_sons h h1 So n q m) Q) as Q1.
    destruct (content_at h1 n q m Q1 l1 C1) as (lx1 & Cx1 & B1).
    rewrite B1. rewrite (content_of_end h1 m lx1); [|unfold is_end; rewrite So; assumption|assumption].
    rewrite Sh. destruct (Nat.eq_dec m m); [reflexivity|contradiction].
  - intros q x Q X Ne. destruct (content_at h n q x Q l C) as (lx & Cx & B).
    pose proof (proj2 (at_sons h h1 So n q x) Q) as Q1.
    destruct (content_at h1 n q x Q1 l1 C1) as (lx1 & Cx1 & B1).
    rewrite B1, B, (content_of_end _ _ _ X Cx).
    rewrite (content_of_end h1 x lx1); [|unfold is_end; rewrite So; assumption|assumption].
    rewrite Sh. destruct (Nat.eq_dec m x); [congruence|]. reflexivity.
  - intros x lx Cx Nx. apply T2. refine (content_elsewhere h h1 So x lx Cx _).
    intros q y Q Y. rewrite Sh. destruct (Nat.eq_dec m y) as [->|]; [|reflexivity].
    exfalso. exact (Nx q Q).
Qed.

(* At an object with components nothing is added or removed for good. *)
Lemma inner_lost : forall h n p m l c h1, reached h -> (n < length (nodes h))%nat -> content h n l ->
  at_position h n p m -> ~ is_end h m -> (c = Remove n p \/ exists i, c = Add n i p) -> does h c h1 ->
  exists h2, does h1 (Build n true) h2 /\ shown h2 n = l.
Proof.
  intros h n p m l c h1 R L C A N K D.
  assert (Q : reached h1 /\ (n < length (nodes h1))%nat /\
     (forall x, iv_successors (node h1 x) = iv_successors (node h x)) /\
     (forall x, is_end h x -> shown h1 x = shown h x)).
  { destruct K as [->|[i ->]].
    - pose proof (reached_remove h n p h1 R L D) as R1. apply does_inv_remove in D.
      split; [assumption|]. split; [rewrite (len_remove _ _ _ _ D); assumption|].
      split; [eapply remove_sons; eassumption|].
      destruct (remove_shown h n p h1 D) as (m' & A' & Sh). pose proof (at_fun _ _ _ _ _ A A') as <-.
      intros x X. rewrite Sh. destruct (Nat.eq_dec m x) as [->|]; [contradiction|reflexivity].
    - pose proof (reached_add h n i p h1 R L D) as R1. apply does_inv_add in D.
      split; [assumption|]. split; [rewrite (len_add _ _ _ _ _ D); assumption|].
      split; [eapply add_sons; eassumption|].
      destruct (add_shown h n i p h1 (reached_wf h R) L D) as (m' & A' & Sh). pose proof (at_fun _ _ _ _ _ A A') as <-.
      intros x X. rewrite Sh. destruct (Nat.eq_dec m x) as [->|]; [contradiction|reflexivity]. }
  destruct Q as (R1 & L1 & So & Sh).
  assert (C1 : content h1 n l) by (eapply content_elsewhere; eauto).
  destruct (rebuild_right h1 n l R1 L1 C1) as (h2 & D2 & E2 & _). eauto.
Qed.
