(* Proofs about the memory of the semantic actions: inputs with a tense or a
   truth value under the letter of the standard *)
From Coq Require Import ZArith String Ascii List Bool Lia Permutation.
From Verif Require Import Base Enums Term Terms Compound Maps Float Truth Numeral Actions ActionsSpec ActionsFacts ActionsFacts2 ActionsFacts3.
From Verif Require Import Parser AstFacts Storage StorageSpec StorageFacts StorageFacts2 StorageFacts3 StorageFacts4.
From Verif Require Interning Evidence.
Import ListNotations.
Open Scope string_scope.
Open Scope Z_scope.
Open Scope list_scope.

Definition inner (y : label) : bool :=
  match y with LSentence | LTask => false | _ => true end.
Definition quiet_label (y : label) : bool :=
  match y with LSentence | LTask | LTime | LTruth => false | _ => true end.

Lemma inner_signatures : forallb (fun x => let '(_, ss, y) := x in
  negb (inner y) || forallb (fun s => forallb quiet_label (fst s)) ss) signatures = true.
Proof. vm_compute. reflexivity. Qed.

Lemma inner_kids e ss y ls : sig e = Some (ss, y) -> inner y = true -> Exists (member ls) ss ->
  Forall (fun l => quiet_label l = true) ls.
Proof.
  intros S I E. apply sig_in in S. pose proof inner_signatures as Q. rewrite forallb_forall in Q.
  specialize (Q _ S). cbn beta iota in Q. rewrite I in Q. cbn [negb orb] in Q. rewrite forallb_forall in Q.
  apply Exists_exists in E. destruct E as (s & Is & (n & -> & _)). specialize (Q _ Is). rewrite forallb_forall in Q.
  apply Forall_app. split; [apply Forall_forall; exact Q|]. apply Forall_forall. intros x X. apply repeat_spec in X. subst x. reflexivity.
Qed.

Lemma inner_clean : forall n, good n -> inner (label_of n) = true -> clean n.
Proof.
  fix self 2. intros n G I. destruct G as [e tok ss y S E W|e kids ss y S E Fa].
  - intros e' kids' W'. inversion W'.
  - unfold label_of in I. cbn [name_of] in I. rewrite S in I.
    pose proof (inner_kids _ _ _ _ S I E) as Q.
    assert (C : Forall clean kids).
    { clear S E I. induction Fa as [|k kids Gk Fa IH]; constructor; cbn [map] in Q; inversion Q as [|x l Q1 Q2]; subst.
      - apply self; [exact Gk|]. destruct (label_of k); try discriminate Q1; reflexivity.
      - exact (IH Q2). }
    intros e' kids' W. inversion W as [|name ks k Ik Wk]; subst.
    + clear - Q. induction Q as [|x l Q1 _ IH]; constructor; [|exact IH].
      destruct x; try discriminate Q1; split; discriminate.
    + rewrite Forall_forall in C. exact (C _ Ik _ _ Wk).
Qed.

Section Strict.
Variable ord : list (option connector * list term) -> list (option connector * list term).
Variable fresh : Interning.world -> Z.

Definition mark (v : value) : Prop := (exists n, v = VTime n) \/ exists t, v = VTruth t.

Lemma undefined_ret {A B} pre (a : A) (f : A -> M B) : undefined pre (f a) -> undefined pre (mbind (ret a) f).
Proof. intros U h F S L. exact (U h F S L). Qed.

Lemma ploop_undefined m p v l ps ls : mark v -> stored p v l -> undefined (l ++ ls) (ploop true m (p :: ps) None None) /\
  undefined (l ++ ls) (ploop_query true m (p :: ps) None).
Proof.
  intros [[n ->]|[t ->]] S; inversion S; subst; cbn [ploop ploop_query app]; split; apply undefined_first;
    (eapply undefined_read; [left; reflexivity|reflexivity]).
Qed.

Lemma sentence_call p st t v vs ps l : mark v -> stored_all ps (VTerm t :: v :: vs) l ->
  undefined l (pcall true ord fresh (sentence_name p) st (Some ps)).
Proof.
  intros M S. inversion S as [|q w l0 ps' vs' ls Sp Sr]; subst. inversion Sr as [|q' w' l1 ps'' vs'' ls' Sq Ss]; subst.
  assert (B : forall k c, undefined (l0 ++ l1 ++ ls') (pbelief true k c st (Some (q :: q' :: ps'')))).
  { intros k c. unfold pbelief. cbn [all_pargs]. apply undefined_ret. cbn [parg nth_error skipn]. apply undefined_ret.
    eapply undefined_step; [eapply does_get; [exact Sp|apply Permutation_refl]|]. cbn beta. intros x post [-> ->].
    apply undefined_first. exact (proj1 (ploop_undefined _ _ _ _ _ _ M Sq)). }
  assert (Q : forall k, undefined (l0 ++ l1 ++ ls') (pquery true k st (Some (q :: q' :: ps'')))).
  { intros k. unfold pquery. cbn [all_pargs]. apply undefined_ret. cbn [parg nth_error skipn]. apply undefined_ret.
    eapply undefined_step; [eapply does_get; [exact Sp|apply Permutation_refl]|]. cbn beta. intros x post [-> ->].
    apply undefined_first. exact (proj2 (ploop_undefined _ _ _ _ _ _ M Sq)). }
  destruct p; [exact (B Judgement cfg_c_judgement)|exact (Q Question)|exact (B Goal cfg_c_goal)|exact (Q Quest)].
Qed.

Lemma sentence_undefined n st st' v : good n -> label_of n = LSentence -> ~ clean n ->
  transform ord fresh st n = Ok (st', v) -> undefined [] (ptransform true ord fresh st n).
Proof.
  intros G L NC T. destruct (sentence_shape n G L) as (p & c & tense & truth & -> & Gc & Lc & Gm & Ht & Hr).
  pose proof (inner_clean c Gc) as Cc. rewrite Lc in Cc. specialize (Cc eq_refl).
  assert (Hm : Forall (fun k => inner (label_of k) = true) (tense ++ truth)).
  { apply Forall_app. split.
    - destruct Ht as [->|(t & -> & E)]; constructor; [rewrite E; reflexivity|constructor].
    - destruct Hr as [->|(t & -> & E & _)]; constructor; [rewrite E; reflexivity|constructor]. }
  assert (Ne : tense ++ truth <> []).
  { intros E. apply NC. intros e kids W. inversion W as [|name ks k Ik Wk]; subst.
    - rewrite E. cbn [map]. rewrite Lc. constructor; [split; discriminate|constructor].
    - rewrite E in Ik. destruct Ik as [<-|[]]. exact (Cc _ _ Wk). }
  assert (Tr : Forall (traced true ord fresh) (c :: tense ++ truth)).
  { constructor; [apply good_traced; [exact Gc|right; exact Cc]|].
    rewrite Forall_forall in *. intros k I. apply good_traced; [exact (Gm _ I)|]. right. apply inner_clean; [exact (Gm _ I)|exact (Hm _ I)]. }
  rewrite ptransform_node. rewrite transform_node in T.
  destruct (transform_all ord fresh st (c :: tense ++ truth)) as [[st1 vs]| | |] eqn:TA; cbn [bind] in T; try discriminate T.
  eapply undefined_step; [apply does_new|]. cbn beta. intros a post ->.
  pose proof (all_traced true ord fresh _ Tr a st [] []) as D. rewrite TA in D.
  eapply undefined_step; [exact D|]. cbn beta. intros st2 post (E & ps & l' & SA & ->). cbn [fst snd app] in *. subst st2.
  eapply undefined_step; [unfold elements; eapply read_step; [left; reflexivity|reflexivity|];
    apply does_ret with (b := tt) (Q := fun x _ post => x = ps /\ post = (a, BArgs ps) :: l'); split; reflexivity|].
  cbn beta. intros ? ? [-> ->]. apply undefined_first.
  eapply undefined_perm; [apply Permutation_cons_append|]. apply undefined_frame.
  assert (KV : map kind_of vs = map (fun x => Some (coarse x)) (map label_of (c :: tense ++ truth))).
  { apply (all_kinded ord fresh) with (st := st) (st' := st1); [|exact TA]. constructor; [apply good_kinded; exact Gc|].
    rewrite Forall_forall in *. intros k I. apply good_kinded. exact (Gm _ I). }
  cbn [map] in KV. rewrite Lc in KV. cbn [coarse] in KV. destruct vs as [|v0 vs]; [discriminate KV|]. cbn [map] in KV.
  injection KV as K0 KV. destruct (term_kind _ K0) as [t ->].
  assert (M : exists w ws, vs = w :: ws /\ mark w).
  { destruct Ht as [->|(t0 & -> & E)].
    - cbn [app] in *. destruct Hr as [->|(t0 & -> & E & _)]; [contradiction|]. cbn [map] in KV. rewrite E in KV. cbn [coarse] in KV.
      destruct vs as [|w ws]; [discriminate KV|]. cbn [map] in KV. injection KV as Kw _. exists w, ws. split; [reflexivity|].
      right. destruct w; try discriminate Kw. eexists; reflexivity.
    - cbn [app map] in KV. rewrite E in KV. cbn [coarse] in KV.
      destruct vs as [|w ws]; [discriminate KV|]. cbn [map] in KV. injection KV as Kw _. exists w, ws. split; [reflexivity|].
      left. destruct w; try discriminate Kw. eexists; reflexivity. }
  destruct M as (w & ws & -> & M). exact (sentence_call p st1 t w ws ps l' M SA).
Qed.

Lemma all_undefined before n v st0 st1 ws ps0 l0 : Forall (traced true ord fresh) before ->
  transform_all ord fresh st0 before = Ok (st1, ws) -> undefined [] (ptransform true ord fresh st1 n) ->
  undefined ((v, BArgs ps0) :: l0) (ptransform_all true ord fresh v st0 (before ++ [n])).
Proof.
  intros Tr. revert st0 ws ps0 l0. induction Tr as [|k before K _ IH]; intros st0 ws ps0 l0 T U.
  - cbn [transform_all] in T. apply ok_pair in T. destruct T as [<- _]. cbn [app].
    change (ptransform_all true ord fresh v st0 [n]) with
      (mbind (ptransform true ord fresh st0 n) (fun r => mbind (push_back true v (snd r)) (fun _ => ret (fst r)))).
    apply undefined_first. exact (undefined_frame [] _ _ U).
  - cbn [transform_all] in T. destruct (transform ord fresh st0 k) as [[st2 w]| | |] eqn:E; cbn [bind] in T; try discriminate T.
    destruct (transform_all ord fresh st2 before) as [[st3 us]| | |] eqn:E'; cbn [bind] in T; try discriminate T.
    apply ok_pair in T. destruct T as [-> _]. cbn [app].
    change (ptransform_all true ord fresh v st0 (k :: before ++ [n])) with
      (mbind (ptransform true ord fresh st0 k) (fun r => mbind (push_back true v (snd r)) (fun _ =>
         ptransform_all true ord fresh v (fst r) (before ++ [n])))).
    pose proof (K st0) as D. rewrite E in D. apply (does_frame [] ((v, BArgs ps0) :: l0)) in D.
    eapply undefined_step; [exact D|]. cbn beta. intros [s p] post (q & [X S] & ->). cbn [fst snd] in *. subst s.
    unfold push_back.
    eapply undefined_step; [eapply read_step; [apply in_or_app; right; left; reflexivity|reflexivity|];
      eapply does_write; [apply Permutation_sym; exact (Permutation_middle q l0 (v, BArgs ps0))|reflexivity]|].
    cbn beta. intros ? ? ->. exact (IH _ _ _ _ E' U).
Qed.

Lemma evaluate_undefined room input trees rest st st' vs h :
  (match room with Some n => 1 <= n | None => True end)%nat ->
  parse room [] input = Ok (Accepted trees, rest) -> sound h ->
  (exists t, In t trees /\ mentions marked t) ->
  transform_all ord fresh st trees = Ok (st', vs) ->
  snd (evaluate true ord fresh st trees h) = UB.
Proof.
  intros R P S (t & It & Mt) T. destruct (accepted_good _ _ _ _ R P) as (n & -> & G & L).
  destruct It as [<-|[]].
  assert (NM : forall m, good m -> quiet_label (label_of m) = true -> ~ mentions marked m).
  { clear. fix self 2. intros m G Q M. destruct G as [e tok ss y S E W|e kids ss y S E Fa].
    - unfold label_of in Q. cbn [name_of] in Q. rewrite S in Q.
      inversion M as [e' s' X| |]; subst. unfold marked in X. cbn [In] in X.
      destruct X as [<-|[<-|[<-|[<-|[<-|[]]]]]]; (injection S as <- <-; discriminate Q).
    - unfold label_of in Q. cbn [name_of] in Q. rewrite S in Q.
      inversion M as [|e' s' X|e' l' k Ik Mk]; subst.
      + unfold marked in X. cbn [In] in X. destruct X as [<-|[<-|[<-|[<-|[<-|[]]]]]]; (injection S as <- <-; discriminate Q).
      + assert (In' : inner y = true) by (destruct y; try discriminate Q; reflexivity).
        pose proof (inner_kids _ _ _ _ S In' E) as QK. clear S E Q M.
        induction Fa as [|k' kids Gk Fa IH]; [destruct Ik|]. cbn [map] in QK. inversion QK as [|x l Q1 Q2]; subst.
        destruct Ik as [->|Ik]; [exact (self _ Gk Q1 Mk)|exact (IH Ik Q2)]. }
  destruct (task_shape n G L) as (b & s & -> & Gs & Ls & Hb).
  assert (Ms : mentions marked s).
  { inversion Mt as [|e l X|e l k Ik Mk]; subst.
    - unfold marked in X. cbn [In] in X. decompose [or] X; try discriminate; contradiction.
    - apply in_app_or in Ik. destruct Ik as [Ik|[<-|[]]]; [|exact Mk].
      destruct Hb as [->|(t & -> & Gt & Lt)]; [destruct Ik|]. destruct Ik as [<-|[]]. exfalso. apply (NM t Gt); [rewrite Lt; reflexivity|exact Mk]. }
  assert (NC : ~ clean s).
  { intros C. destruct (sentence_shape s Gs Ls) as (p & c & tense & truth & -> & Gc & Lc & Gm & Ht & Hr).
    specialize (C _ _ (W_self _)). cbn [map] in C. inversion C as [|x l _ C']; subst. 
    inversion Ms as [|e l X|e l k Ik Mk]; subst.
    - unfold marked in X. cbn [In] in X. destruct p; cbn [sentence_name] in X; decompose [or] X; try discriminate; contradiction.
    - destruct Ik as [<-|Ik].
      + apply (NM _ Gc); [rewrite Lc; reflexivity|exact Mk].
      + destruct Ht as [->|(t & -> & E)].
        * destruct Hr as [->|(t & -> & E & _)]; [destruct Ik|]. cbn [app map] in C'. rewrite E in C'. inversion C' as [|x l [_ X] _]; subst. apply X. reflexivity.
        * cbn [app map] in C'. rewrite E in C'. inversion C' as [|x l [X _] _]; subst. apply X. reflexivity. }
  cbn [transform_all] in T. rewrite transform_node in T.
  destruct (transform_all ord fresh st (b ++ [s])) as [[st1 us]| | |] eqn:TA; cbn [bind] in T; try discriminate T. clear T.
  rewrite all_app in TA.
  destruct (transform_all ord fresh st b) as [[st2 ws]| | |] eqn:TB; cbn [bind] in TA; try discriminate TA.
  cbn [transform_all] in TA. destruct (transform ord fresh st2 s) as [[st3 w]| | |] eqn:TS; cbn [bind] in TA; try discriminate TA.
  pose proof (sentence_undefined s st2 st3 w Gs Ls NC TS) as U.
  assert (Tb : Forall (traced true ord fresh) b).
  { destruct Hb as [->|(t & -> & Gt & Lt)]; constructor; [|constructor]. apply good_traced; [exact Gt|]. right.
    apply inner_clean; [exact Gt|rewrite Lt; reflexivity]. }
  assert (Un : undefined [] (ptransform true ord fresh st (Node "task" (b ++ [s])))).
  { assert (X : exists k kids, b ++ [s] = k :: kids) by (destruct b; eexists _, _; reflexivity).
    destruct X as (k & kids & X). pose proof (fun v => all_undefined b s v st st2 ws [] [] Tb TB U) as AU. rewrite X in *.
    rewrite ptransform_node. eapply undefined_step; [apply does_new|]. cbn beta. intros v post ->.
    apply undefined_first. exact (AU v). }
  assert (V : undefined [] (evaluate true ord fresh st [Node "task" (b ++ [s])])).
  { unfold evaluate. eapply undefined_step; [apply does_new|]. cbn beta. intros v post ->. apply undefined_first.
    exact (all_undefined [] _ v st st [] [] [] (Forall_nil _) eq_refl Un). }
  exact (V h (live h) S (Permutation_refl _)).
Qed.
End Strict.
