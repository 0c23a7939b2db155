(* Proofs about the memory of the semantic actions: whole trees and tasks *)
From Coq Require Import ZArith String Ascii List Bool Lia Permutation.
From Verif Require Import Base Enums Term Terms Compound Maps Float Truth Numeral Actions ActionsSpec ActionsFacts ActionsFacts2 ActionsFacts3.
From Verif Require Import Parser AstFacts Storage StorageSpec StorageFacts StorageFacts2 StorageFacts3.
From Verif Require Interning Evidence.
Import ListNotations.
Open Scope string_scope.
Open Scope Z_scope.
Open Scope list_scope.

Section Trees.
Variable strict : bool.
Variable ord : list (option connector * list term) -> list (option connector * list term).
Variable fresh : Interning.world -> Z.

Lemma ptransform_node st e k kids : ptransform strict ord fresh st (Node e (k :: kids)) =
  mbind (new (BArgs [])) (fun v =>
  mbind (ptransform_all strict ord fresh v st (k :: kids)) (fun st =>
  mbind (elements strict v) (fun l =>
  mbind (pcall strict ord fresh e st (Some l)) (fun r =>
  mbind (delete strict TArgs (At v)) (fun _ => ret r))))).
Proof. reflexivity. Qed.

(* No node below has a time or a truth value among its arguments. *)
Definition clean (n : ast) : Prop := forall e kids, within (Node e kids) n -> Forall plain (map coarse (map label_of kids)).

Definition fine (n : ast) : Prop := strict = false \/ clean n.

Definition traced (n : ast) : Prop := forall st,
  does [] (ptransform strict ord fresh st n) (transform ord fresh st n) same_result.

Lemma all_traced l : Forall traced l -> forall v st ps0 l0,
  does ((v, BArgs ps0) :: l0) (ptransform_all strict ord fresh v st l) (transform_all ord fresh st l)
    (fun st' r post => st' = fst r /\ exists ps l', stored_all ps (snd r) l' /\ post = (v, BArgs (ps0 ++ ps)) :: l0 ++ l').
Proof.
  induction 1 as [|n l N _ IH]; intros v st ps0 l0.
  - cbn [transform_all]. unfold ptransform_all. apply does_ret. split; [reflexivity|].
    exists [], []. split; [constructor|]. rewrite !app_nil_r. reflexivity.
  - cbn [transform_all].
    change (ptransform_all strict ord fresh v st (n :: l)) with
      (mbind (ptransform strict ord fresh st n) (fun r => mbind (push_back strict v (snd r)) (fun _ =>
         ptransform_all strict ord fresh v (fst r) l))).
    eapply does_bind; [apply (does_frame [] ((v, BArgs ps0) :: l0)); exact (N st)|]. cbn beta.
    intros [st1 p] [st2 w] post (q & [E S] & ->). cbn [fst snd] in *. subst st2.
    unfold push_back. apply does_assoc.
    eapply read_step; [apply in_or_app; right; left; reflexivity|reflexivity|].
    eapply write_step; [apply Permutation_sym; exact (Permutation_middle q l0 (v, BArgs ps0))|reflexivity|].
    eapply does_perm; [apply perm_skip; apply Permutation_app_comm|].
    intros h F SH L. pose proof (IH v st1 (ps0 ++ [p]) (l0 ++ q) h F SH L) as D.
    destruct (transform_all ord fresh st1 l) as [[st3 vs]| | |]; cbn [bind]; try exact D.
    destruct D as (h' & st4 & post & R & SH' & (E & ps & l' & SA & ->) & P). cbn [fst snd] in *. subst st4.
    exists h', st3, ((v, BArgs ((ps0 ++ [p]) ++ ps)) :: (l0 ++ q) ++ l'). split; [exact R|]. split; [exact SH'|].
    split; [|exact P]. split; [reflexivity|]. exists (p :: ps), (q ++ l'). split; [constructor; assumption|].
    rewrite <- !app_assoc. reflexivity.
Qed.

Lemma fine_kids e kids : fine (Node e kids) -> Forall fine kids.
Proof.
  intros [K|K]; [apply Forall_forall; intros; left; exact K|]. apply Forall_forall. intros k I. right. intros e' kids' W.
  exact (K _ _ (W_child _ _ _ _ I W)).
Qed.

Lemma fine_kinds e kids : fine (Node e kids) -> strict = false \/ Forall plain (map coarse (map label_of kids)).
Proof. intros [K|K]; [left; exact K|right]. exact (K _ _ (W_self _)). Qed.

Lemma mentions_within (P : string -> Prop) e kids n : within (Node e kids) n -> P e -> mentions P n.
Proof.
  intros W X. remember (Node e kids) as m eqn:M. induction W as [|name ks k I W IH].
  - rewrite M. apply M_node. exact X.
  - exact (M_below _ _ _ _ I IH).
Qed.

Lemma unmarked_clean n : good n -> ~ mentions marked n -> clean n.
Proof.
  intros G M e kids W. pose proof (good_within _ _ W G) as GN. inversion GN as [|e' ks ss y S E F]; subst.
  rewrite Forall_forall in *. intros x I. apply in_map_iff in I. destruct I as (y' & <- & I).
  apply in_map_iff in I. destruct I as (k & L & I). pose proof (F _ I) as Gk.
  assert (B : forall e0 l0, k = Node e0 l0 -> marked e0 -> False).
  { intros e0 l0 -> X. apply M. apply (mentions_within marked e0 l0); [|exact X].
    clear - I W. remember (Node e kids) as m eqn:Q. induction W as [|name ks k0 I' W IH].
    - subst m. exact (W_child _ _ _ _ I (W_self _)).
    - exact (W_child _ _ _ _ I' IH). }
  split; intros X.
  - destruct y'; try discriminate X. destruct (time_shape k Gk L) as (e0 & l & Q & T). apply (B _ _ Q).
    unfold marked. unfold tense_name in T. cbn [In] in *. tauto.
  - destruct y'; try discriminate X. destruct (truth_shape k Gk L) as (p & d & q & Q & _). apply (B _ _ Q).
    unfold marked. cbn [In]. tauto.
Qed.

Lemma good_traced : forall n, good n -> fine n -> traced n.
Proof.
  fix self 2. intros n G K. pose proof G as G0. destruct G as [e tok ss y S E W|e kids ss y S E Fa].
  - intros st. cbn [ptransform transform].
    apply (call_follows strict ord fresh e [KText] [VText tok]) with (ps := [Token tok]).
    + exact (sig_takes e ss y [LText] S E).
    + reflexivity.
    + right. constructor; [split; discriminate|constructor].
    + apply (SA_cons _ _ []); [constructor|constructor].
  - assert (T : Forall traced kids).
    { pose proof (fine_kids _ _ K) as Ks. clear S E K G0. induction Fa as [|k kids Gk Fa IH]; constructor.
      - inversion Ks; subst. apply self; assumption.
      - apply IH. inversion Ks; assumption. }
    assert (Gs : Forall good kids) by exact Fa.
    pose proof (sig_takes e ss y _ S E) as Tk.
    pose proof (fine_kinds _ _ K) as Pl.
    intros st. destruct kids as [|k kids].
    + cbn [ptransform transform bind].
      apply (call_follows strict ord fresh e [] []) with (ps := []); [exact Tk|reflexivity|right; constructor|constructor].
    + rewrite ptransform_node, transform_node. apply new_step. intros v.
      eapply does_bind_eq; [exact (all_traced _ T v st [] [])|]. cbn beta.
      intros st1 [st2 vs] post R (X & ps & l' & SA & ->). cbn [fst snd app] in *. subst st2.
      unfold elements. apply does_assoc.
      eapply read_step; [left; reflexivity|reflexivity|]. apply ret_step.
      pose proof (stored_all_length _ _ _ SA) as L. pose proof (transform_all_length ord fresh _ _ _ _ R) as L'.
      assert (KV : map kind_of vs = map Some (map coarse (map label_of (k :: kids)))).
      { rewrite map_map, map_map. rewrite (all_kinded ord fresh (k :: kids)) with (st := st) (st' := st1) (vs := vs);
          [apply map_map| |exact R]. rewrite Forall_forall in *. intros z I. apply good_kinded. exact (Gs _ I). }
      pose proof (call_follows strict ord fresh e _ vs Tk KV Pl st1 ps l' SA) as D.
      assert (PG : pgiven ps = Some ps) by (destruct ps; [destruct vs; cbn [length] in *; discriminate|reflexivity]).
      assert (VG : given vs = Some vs) by (destruct vs; [cbn [length] in *; discriminate|reflexivity]).
      rewrite PG, VG in D. apply (does_frame _ [(v, BArgs ps)]) in D.
      rewrite <- (bind_ok (call ord fresh e st1 (Some vs))). eapply does_perm; [apply Permutation_cons_append|].
      eapply does_bind; [exact D|]. cbn beta. intros r r' post (q & SR & ->).
      eapply delete_step; [apply Permutation_sym, Permutation_cons_append|reflexivity|].
      apply does_ret. exact SR.
Qed.

(* ---- the pointer that is returned ---- *)

Lemma does_evaluate st n : good n -> fine n ->
  does [] (evaluate strict ord fresh st [n]) (transform ord fresh st n) same_result.
Proof.
  intros G K. unfold evaluate. apply new_step. intros v.
  pose proof (good_traced n G K) as T.
  pose proof (all_traced [n] (Forall_cons _ T (Forall_nil _)) v st [] []) as D.
  rewrite <- (bind_ok (transform ord fresh st n)).
  assert (X : forall r : res (Actions.state * value), bind r (fun x => Ok x) =
    bind (bind r (fun '(s, w) => bind (Ok (s, [])) (fun '(s', vs) => Ok (s', w :: vs))))
      (fun '(s, vs) => match vs with w :: _ => Ok (s, w) | [] => UB end)).
  { intros [[s w]| | |]; reflexivity. }
  rewrite X. clear X. cbn [transform_all] in D.
  eapply does_bind_eq; [exact D|]. cbn beta. intros st1 [st2 vs] post R (E & ps & l' & SA & ->). cbn [fst snd app] in *. subst st2.
  assert (O : exists w, vs = [w]).
  { destruct (transform ord fresh st n) as [[s w]| | |]; cbn [bind] in R; try discriminate R.
    apply ok_pair in R. destruct R as [_ <-]. exists w. reflexivity. }
  destruct O as [w ->]. inv_all.
  unfold elements. apply does_assoc. eapply read_step; [left; reflexivity|reflexivity|]. apply ret_step.
  cbn [parg nth_error]. apply ret_step. eapply delete_step; [apply Permutation_refl|reflexivity|].
  apply does_ret. split; [reflexivity|]. cbn [snd]. rewrite app_nil_r. assumption.
Qed.
End Trees.

(* ---- the end of a task ---- *)

Lemma does_release p tk l : stored p (VTask tk) l ->
  does l (release false p) (Ok tt) (fun _ (_ : unit) post => post = []).
Proof.
  intros S. inversion S as [| | | | | | | | | | |a b x t l' S']; subst.
  inversion S' as [| | | | | | | | | |a' s tr m l T|]; subst. unfold release.
  eapply read_step; [left; reflexivity|reflexivity|].
  eapply read_step; [right; right; left; reflexivity|reflexivity|].
  eapply (delete_step _ _ _ _ (BStamp _)); [|reflexivity|].
  { apply Permutation_sym. exact (Permutation_middle [(a, BTask b x); (b, BBudget (budget_of tk));
      (x, BSentence (content (sentence_of tk)) (punct (sentence_of tk)) tr m)] l _). }
  cbn [app].
  assert (E : forall l', Permutation [(a, BTask b x); (b, BBudget (budget_of tk));
      (x, BSentence (content (sentence_of tk)) (punct (sentence_of tk)) tr m)] l' ->
    does l' (mbind (delete false TSentence (At x)) (fun _ => mbind (delete false TBudget (At b)) (fun _ => delete false TTask (At a))))
      (Ok tt) (fun _ (_ : unit) post => post = [])).
  { intros l' P. eapply does_perm; [apply Permutation_sym; exact P|].
    eapply (delete_step _ _ _ _ (BSentence _ _ _ _)); [|reflexivity|].
    { apply Permutation_sym. exact (Permutation_middle [(a, BTask b x); (b, BBudget (budget_of tk))] [] _). }
    cbn [app]. eapply (delete_step _ _ _ _ (BBudget _)); [apply perm_swap|reflexivity|].
    apply (does_delete _ _ _ _ (BTask b x)); [apply Permutation_refl|reflexivity]. }
  destruct T as [|a' t].
  - apply ret_step. apply E. apply Permutation_refl.
  - eapply (delete_step _ _ _ _ (BTruth t)); [|reflexivity|apply E; apply Permutation_refl].
    apply Permutation_sym. exact (Permutation_middle [(a, BTask b x); (b, BBudget (budget_of tk));
      (x, BSentence (content (sentence_of tk)) (punct (sentence_of tk)) (Some a') m)] [] _).
Qed.

(* ---- undefined behaviour ---- *)

Definition undefined {A} (pre : blocks) (m : M A) : Prop :=
  forall h F, sound h -> Permutation (live h) (pre ++ F) -> snd (m h) = UB.

Lemma undefined_step {A B C} pre (m : M A) (r : C) (Q : A -> C -> blocks -> Prop) (f : A -> M B) : does pre m (Ok r) Q ->
  (forall a post, Q a r post -> undefined post (f a)) -> undefined pre (mbind m f).
Proof.
  intros D U h F S L. destruct (D h F S L) as (h' & a & post & E & S' & q & L'). unfold mbind. rewrite E.
  exact (U a post q h' F S' L').
Qed.

Lemma undefined_first {A B} pre (m : M A) (f : A -> M B) : undefined pre m -> undefined pre (mbind m f).
Proof.
  intros U h F S L. specialize (U h F S L). unfold mbind. destruct (m h) as [h' r]. cbn [snd] in U. subst r. reflexivity.
Qed.

Lemma undefined_perm {A} pre pre' (m : M A) : Permutation pre' pre -> undefined pre m -> undefined pre' m.
Proof. intros P U h F S L. apply (U h F S). eapply Permutation_trans; [exact L|]. apply Permutation_app_tail. exact P. Qed.

Lemma undefined_frame {A} pre r (m : M A) : undefined pre m -> undefined (pre ++ r) m.
Proof. intros U h F S L. apply (U h (r ++ F) S). rewrite app_assoc. exact L. Qed.

Lemma undefined_delete pre s T a b : In (a, b) pre -> may_delete s T (type_of b) = false -> undefined pre (delete s T (At a)).
Proof.
  intros I R h F [N U] L. unfold delete.
  rewrite (lookup_in _ _ b N); [|apply (Permutation_in _ (Permutation_sym L)); apply in_or_app; left; exact I].
  rewrite R. reflexivity.
Qed.

Lemma undefined_read pre s T a b : In (a, b) pre -> may_read s T (type_of b) = false -> undefined pre (read s T (At a)).
Proof.
  intros I R h F [N U] L. unfold read.
  rewrite (lookup_in _ _ b N); [|apply (Permutation_in _ (Permutation_sym L)); apply in_or_app; left; exact I].
  rewrite R. reflexivity.
Qed.

(* Deleting a kind of sentence as a Sentence is undefined. *)
Lemma strict_release p tk l : stored p (VTask tk) l -> undefined l (release true p).
Proof.
  intros S. inversion S as [| | | | | | | | | | |a b x t l' S']; subst.
  inversion S' as [| | | | | | | | | |a' s tr m l T|]; subst. unfold release.
  eapply undefined_step; [eapply does_read; [left; reflexivity|reflexivity]|]. cbn beta. intros ? ? [-> ->].
  eapply undefined_step; [eapply does_read; [right; right; left; reflexivity|reflexivity]|]. cbn beta. intros ? ? [-> ->].
  eapply undefined_step; [eapply (does_delete _ _ _ _ (BStamp _)); [|reflexivity]|].
  { apply Permutation_sym. exact (Permutation_middle [(a, BTask b x); (b, BBudget (budget_of tk));
      (x, BSentence (content (sentence_of tk)) (punct (sentence_of tk)) tr m)] l _). }
  cbn beta. intros ? ? ->. cbn [app].
  assert (E : forall l' f, In (x, BSentence (content (sentence_of tk)) (punct (sentence_of tk)) tr m) l' ->
    @undefined unit l' (mbind (delete true TSentence (At x)) f)).
  { intros l' f I. apply undefined_first. eapply undefined_delete; [exact I|reflexivity]. }
  destruct T as [|a' t].
  - unfold ret at 1. cbn [mbind]. apply (E _ (fun _ => mbind (delete true TBudget (At b)) (fun _ => delete true TTask (At a)))).
    right. right. left. reflexivity.
  - eapply undefined_step; [eapply (does_delete _ _ _ _ (BTruth t)); [|reflexivity]|].
    { apply Permutation_sym. exact (Permutation_middle [(a, BTask b x); (b, BBudget (budget_of tk));
        (x, BSentence (content (sentence_of tk)) (punct (sentence_of tk)) (Some a') m)] [] _). }
    cbn beta. intros ? ? ->. apply E. right. right. left. reflexivity.
Qed.

(* ---- accepted inputs ---- *)

Lemma evaluate_accepted strict ord fresh room input trees rest st h :
  (match room with Some n => 1 <= n | None => True end)%nat ->
  parse room [] input = Ok (Accepted trees, rest) -> sound h ->
  strict = false \/ (forall t, In t trees -> ~ mentions marked t) ->
  match transform_all ord fresh st trees with
  | Ok (st', vs) => exists h' p tk l, evaluate strict ord fresh st trees h = (h', Ok (st', p)) /\ vs = [VTask tk] /\
      sound h' /\ stored p (VTask tk) l /\ adds h h' l
  | Throw => exists h' l, evaluate strict ord fresh st trees h = (h', Throw) /\ sound h' /\ adds h h' l
  | UB | OutOfFuel => True
  end.
Proof.
  intros R P S K. destruct (accepted_good _ _ _ _ R P) as (n & -> & G & L).
  assert (Fi : fine strict n).
  { destruct K as [K|K]; [left; exact K|right]. apply unmarked_clean; [exact G|]. apply K. left. reflexivity. }
  pose proof (does_evaluate strict ord fresh st n G Fi h (live h) S (Permutation_refl _)) as D.
  pose proof (good_kinded ord fresh n G st) as Q.
  cbn [transform_all]. destruct (transform ord fresh st n) as [[st' v]| | |]; cbn [bind]; try exact I.
  - destruct D as (h' & [st1 p] & post & E & S' & [E' SR] & A). cbn [fst snd] in *. subst st1.
    specialize (Q _ _ eq_refl). rewrite L in Q. cbn [coarse] in Q. destruct v as [| | | | | | | | | |tk|]; try discriminate Q.
    exists h', p, tk, post. repeat split; try assumption; [exact (proj1 S')|exact (proj2 S')].
  - destruct D as (h' & lost & E & S' & A). exists h', lost. split; [exact E|]. split; [exact S'|exact A].
Qed.

Lemma release_back h h' p tk l : sound h' -> stored p (VTask tk) l -> adds h h' l ->
  exists h'', release false p h' = (h'', Ok tt) /\ sound h'' /\ Permutation (live h'') (live h).
Proof.
  intros S T A. destruct (does_release _ _ _ T h' (live h) S A) as (h'' & u & post & E & S' & -> & P).
  destruct u. exists h''. split; [exact E|]. split; [exact S'|exact P].
Qed.

Lemma release_undefined h h' p tk l : sound h' -> stored p (VTask tk) l -> adds h h' l ->
  snd (release true p h') = UB.
Proof. intros S T A. exact (strict_release _ _ _ T h' (live h) S A). Qed.
