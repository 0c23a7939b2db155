(* Which calls return; positions; reading lists at a position. *)
From Coq Require Import ZArith List Bool Lia.
From Verif Require Import Base Hash IndexVar Index IndexSpec IndexFacts IndexFacts2 IndexFacts3.
Import ListNotations.
Local Open Scope Z_scope.

(* ---- walking ---- *)
Lemma nth_son_ok : forall h n k s, nth_son (iv_successors (node h n)) k = Ok s <-> son h n k s.
Proof.
  intros. unfold nth_son, son. destruct (Z.ltb_spec k 0).
  - split; [discriminate|intros [A _]; lia].
  - destruct (nth_error _ _) as [x|]; split; try discriminate.
    + intros E. injection E as ->. auto.
    + intros [_ E]. congruence.
    + intros [_ E]. discriminate.
Qed.

Lemma nth_son_cases : forall l k, (exists s, nth_son l k = Ok s) \/ nth_son l k = UB.
Proof.
  intros. unfold nth_son. destruct (k <? 0); [auto|]. destruct (nth_error _ _); eauto.
Qed.

Lemma walk_at : forall h p n m, walk h n p = Ok m <-> at_position h n p m.
Proof.
  induction p as [|k p IH]; intros n m; simpl.
  - split; [intros E; injection E as ->; constructor|intros E; inversion E; reflexivity].
  - split.
    + destruct (nth_son _ k) as [s| | |] eqn:E; simpl; try discriminate.
      intros X. apply nth_son_ok in E. apply IH in X. econstructor; eassumption.
    + intros X. inversion X as [|? ? s ? ? A B]; subst. apply nth_son_ok in A. rewrite A. simpl. apply IH. assumption.
Qed.

Lemma walk_cases : forall h p n, (exists m, walk h n p = Ok m) \/ walk h n p = UB.
Proof.
  induction p as [|k p IH]; intros n; simpl; [eauto|].
  destruct (nth_son_cases (iv_successors (node h n)) k) as [[s E]|E]; rewrite E; simpl; auto.
Qed.

Lemma at_fun : forall h n p m m', at_position h n p m -> at_position h n p m' -> m = m'.
Proof. intros h n p m m' A B. apply walk_at in A. apply walk_at in B. congruence. Qed.

Lemma walk_sons : forall h h' p n, (forall x, iv_successors (node h' x) = iv_successors (node h x)) ->
  walk h' n p = walk h n p.
Proof.
  intros h h' p n E. revert n. induction p as [|k p IH]; intros n; simpl; [reflexivity|].
  rewrite E. destruct (nth_son _ k); simpl; auto.
Qed.

Lemma at_sons : forall h h', (forall x, iv_successors (node h' x) = iv_successors (node h x)) ->
  forall n p m, at_position h' n p m <-> at_position h n p m.
Proof. intros h h' E n p m. rewrite <- !walk_at. rewrite (walk_sons h h'); [reflexivity|assumption]. Qed.

(* ---- build returns or goes on for ever ---- *)
Lemma sons_cases : forall f h n k sons, (forall a b, (exists c, f a b = Ok c) \/ f a b = OutOfFuel) ->
  (exists h', build_sons f h n k sons = Ok h') \/ build_sons f h n k sons = OutOfFuel.
Proof.
  intros f h n k sons F. revert h k. induction sons as [|s sons IH]; intros h k; simpl; [eauto|].
  destruct (F h s) as [[c E]|E]; rewrite E; simpl; auto.
Qed.

Lemma build_cases : forall r f h n, (exists h', build_with r f h n = Ok h') \/ build_with r f h n = OutOfFuel.
Proof.
  induction f as [|f IH]; intros h n; simpl; [auto|].
  destruct (negb r && iv_built (node h n)); [eauto|].
  destruct (sons_cases (build_with r f) (clear_lists h n) n 0 (iv_successors (node (clear_lists h n) n)) IH)
    as [[c E]|E]; rewrite E; simpl; eauto.
Qed.

Lemma sons_shape : forall f h n k sons h', (forall a b c, f a b = Ok c -> shape a c) ->
  iv_successors (node h n) <> [] \/ sons = [] -> build_sons f h n k sons = Ok h' -> shape h h'.
Proof.
  intros f h n k sons h' F. revert h k. induction sons as [|s sons IH]; intros h k D H; simpl in H.
  - injection H as <-. apply shape_refl.
  - destruct D as [D|D]; [|discriminate].
    destruct (f h s) as [c| | |] eqn:E; simpl in H; try discriminate. apply F in E.
    assert (D' : iv_successors (node c n) <> []) by (rewrite (sh_sons _ _ E); assumption).
    eapply shape_trans; [exact E|]. eapply shape_trans; [apply shape_append; [apply shape_refl|exact D']|].
    apply (IH _ _) in H; [exact H|].
    left. intros X. apply D'. rewrite <- X. symmetry.
    apply (sh_sons _ _ (shape_append c c n k s (shape_refl c) D')).
Qed.

Lemma build_shape : forall r f h n h', build_with r f h n = Ok h' -> shape h h'.
Proof.
  induction f as [|f IH]; intros h n h' H; simpl in H; [discriminate|].
  destruct (negb r && iv_built (node h n)); [injection H as <-; apply shape_refl|].
  destruct (build_sons _ _ _ _ _) as [h2| | |] eqn:E; simpl in H; try discriminate. injection H as <-.
  apply shape_hash. apply shape_mark. eapply shape_trans; [apply shape_clear; apply shape_refl|].
  eapply sons_shape; [exact IH| |exact E].
  destruct (iv_successors (node (clear_lists h n) n)); [right; reflexivity|left; discriminate].
Qed.

Lemma sons_acc : forall f h0 h n k sons h', (forall a b c, f a b = Ok c -> shape a c /\ Acc (under a) b) ->
  shape h0 h -> iv_successors (node h n) <> [] \/ sons = [] ->
  build_sons f h n k sons = Ok h' -> forall s, In s sons -> Acc (under h0) s.
Proof.
  intros f h0 h n k sons h' F. revert h k. induction sons as [|x sons IH]; intros h k S D H s Hs; simpl in *;
    [contradiction|].
  destruct D as [D|D]; [|discriminate].
  destruct (f h x) as [c| | |] eqn:E; simpl in H; try discriminate. apply F in E. destruct E as [E A].
  destruct Hs as [<-|Hs]; [eapply under_shape; [apply shape_sym; exact S|exact A]|].
  assert (D' : iv_successors (node c n) <> []) by (rewrite (sh_sons _ _ E); assumption).
  refine (IH _ _ _ _ H s Hs).
  - apply shape_append; [eapply shape_trans; eassumption|exact D'].
  - left. intros X. apply D'. rewrite <- X. symmetry.
    apply (sh_sons _ _ (shape_append c c n k x (shape_refl c) D')).
Qed.

Lemma rebuild_acc : forall f h n h', build_with true f h n = Ok h' -> Acc (under h) n.
Proof.
  induction f as [|f IH]; intros h n h' H; simpl in H; [discriminate|].
  destruct (build_sons _ _ _ _ _) as [h2| | |] eqn:E; simpl in H; try discriminate.
  destruct (clear_fields h n n) as (_ & _ & _ & _ & F & _).
  constructor. intros s Hs.
  eapply sons_acc; [| | |exact E|].
  - intros a b c X. split; [eapply build_shape; eassumption|eapply IH; eassumption].
  - apply shape_clear. apply shape_refl.
  - destruct (iv_successors (node (clear_lists h n) n)); [right; reflexivity|left; discriminate].
  - rewrite F. exact Hs.
Qed.

Lemma build_returns : forall r h0 n, Acc (under h0) n -> forall h, shape h0 h ->
  exists f h', build_with r f h n = Ok h'.
Proof.
  intros r h0 n A. induction A as [n A IH]. intros h S.
  destruct (negb r && iv_built (node h n)) eqn:E; [exists 1%nat, h; simpl; rewrite E; reflexivity|].
  assert (G : forall sons k h, shape h0 h -> (forall s, In s sons -> under h0 s n) ->
      exists f h', build_sons (build_with r f) h n k sons = Ok h').
  { induction sons as [|s sons IHs]; intros k g Sg U; [exists O, g; reflexivity|].
    destruct (IH s (U s (or_introl eq_refl)) g Sg) as (f1 & g1 & B1).
    assert (S1 : shape h0 g1) by (eapply shape_trans; [exact Sg|eapply build_shape; exact B1]).
    assert (S2 : shape h0 (append_son g1 n k s)).
    { apply shape_append; [exact S1|]. rewrite (sh_sons _ _ S1).
      specialize (U s (or_introl eq_refl)). unfold under in U. intros X. rewrite X in U. contradiction. }
    destruct (IHs (k + 1) _ S2 (fun x X => U x (or_intror X))) as (f2 & g2 & B2).
    exists (Nat.max f1 f2), g2. simpl. rewrite (build_more _ f1) with (h' := g1) by (assumption || lia). simpl.
    eapply sons_more; [|exact B2]. intros a b c X. eapply build_more; [|exact X]. lia. }
  assert (S1 : shape h0 (clear_lists h n)) by (apply shape_clear; assumption).
  destruct (G (iv_successors (node h0 n)) 0 _ S1 (fun s X => X)) as (f & h2 & B).
  exists (Datatypes.S f). eexists. simpl. rewrite E. rewrite (sh_sons _ _ S1), B. simpl. reflexivity.
Qed.

(* ---- no cycle below an object: no endless descent ---- *)
Lemma no_cycle_acc : forall h n, wf h -> (n < length (nodes h))%nat ->
  (forall m q, below h n m -> at_position h m q m -> q = []) -> Acc (under h) n.
Proof.
  intros h n0 W L0 N.
  assert (G : forall k seen n, (length (nodes h) <= k + length seen)%nat -> NoDup seen ->
     (forall x, In x seen -> (x < length (nodes h))%nat /\ exists a q, at_position h x (a :: q) n) ->
     (n < length (nodes h))%nat -> below h n0 n -> Acc (under h) n).
  { induction k as [|k IH]; intros seen n K Nd Sn L B.
    - exfalso.
      assert (Hn : ~ In n seen).
      { intros X. destruct (Sn n X) as [_ (a & q & P)]. apply (N n _ B) in P. discriminate. }
      assert (X : (length (n :: seen) <= length (seq 0 (length (nodes h))))%nat).
      { apply NoDup_incl_length; [constructor; assumption|].
        intros x [<-|Hx]; apply in_seq; [lia|]. destruct (Sn x Hx). lia. }
      rewrite seq_length in X. simpl in X. lia.
    - assert (Hn : ~ In n seen).
      { intros X. destruct (Sn n X) as [_ (a & q & P)]. apply (N n _ B) in P. discriminate. }
      constructor. intros s U. destruct (under_son _ _ _ U) as [j J].
      assert (P1 : at_position h n [j] s) by (econstructor; [exact J|constructor]).
      apply (IH (n :: seen)).
      + simpl. lia.
      + constructor; assumption.
      + intros x [<-|Hx].
        * split; [assumption|]. exists j, []. assumption.
        * destruct (Sn x Hx) as [Lx (a & q & P)]. split; [assumption|].
          exists a, (q ++ [j]). apply (at_app h x (a :: q) n [j] s P P1).
      + eapply wf_sons; [exact W|exact U].
      + destruct B as [p P]. exists (p ++ [j]). eapply at_app; eassumption. }
  apply (G (length (nodes h)) [] n0).
  - simpl. lia.
  - constructor.
  - intros x [].
  - assumption.
  - apply below_refl.
Qed.

Lemma cycle_not_acc : forall h n p m a q, at_position h n p m -> at_position h m (a :: q) m -> ~ Acc (under h) n.
Proof.
  intros h n p m a q P Q A.
  assert (B : Acc (under h) m).
  { clear Q. induction P as [|n k s p m S P IH]; [assumption|]. apply IH.
    apply (Acc_inv A). eapply son_under; eassumption. }
  apply (acc_acyclic _ _ B) in Q. discriminate.
Qed.

(* ---- what stands at a position of a list ---- *)
Definition prepend (q : list Z) (e : list Z * Z) : list Z * Z := (q ++ fst e, snd e).

Lemma beyond_deeper_same : forall k q l, beyond (k :: q) (map (deeper k) l) = map (deeper k) (beyond q l).
Proof.
  intros. induction l as [|[p v] l IH]; [reflexivity|].
  unfold beyond in *. cbn [map filter deeper fst snd starts_with]. rewrite Z.eqb_refl, andb_true_l.
  destruct (starts_with q p); cbn [map deeper fst snd]; rewrite <- IH; reflexivity.
Qed.

Lemma beyond_deeper_other : forall k j q l, k <> j -> beyond (k :: q) (map (deeper j) l) = [].
Proof.
  intros k j q l E. induction l as [|[p v] l IH]; [reflexivity|].
  unfold beyond in *. cbn [map filter deeper fst snd starts_with].
  destruct (Z.eqb_spec k j); [contradiction|]. exact IH.
Qed.

Lemma beyond_app : forall q l l', beyond q (l ++ l') = beyond q l ++ beyond q l'.
Proof. intros. unfold beyond. apply filter_app. Qed.

Lemma beyond_all : forall l, beyond [] l = l.
Proof.
  intros. unfold beyond. induction l as [|x l IH]; simpl; [reflexivity|]. f_equal. exact IH.
Qed.

Lemma beyond_low : forall h k sons l, contents h k sons l -> forall j q, j < k -> beyond (j :: q) l = [].
Proof.
  induction 1 as [|k s sons l l' C C' IH]; intros j q L; [reflexivity|].
  rewrite beyond_app, beyond_deeper_other by lia. simpl. apply IH. lia.
Qed.

Lemma contents_at : forall h k sons l, contents h k sons l -> forall i s, nth_error sons i = Some s ->
  exists ls, content h s ls /\ forall q, beyond ((k + Z.of_nat i) :: q) l = map (deeper (k + Z.of_nat i)) (beyond q ls).
Proof.
  induction 1 as [|k s0 sons l l' C C' IH]; intros [|i] s E; simpl in E; try discriminate.
  - injection E as ->. exists l. split; [assumption|]. intros q.
    replace (k + Z.of_nat 0) with k by lia. rewrite beyond_app, beyond_deeper_same.
    rewrite (beyond_low _ _ _ _ C') by lia. apply app_nil_r.
  - destruct (IH i s E) as (ls & Cs & B). exists ls. split; [assumption|]. intros q.
    rewrite beyond_app, beyond_deeper_other by lia. simpl.
    replace (k + Z.pos (Pos.of_succ_nat i)) with (k + 1 + Z.of_nat i) by lia. apply B.
Qed.

Lemma content_at : forall h n q x, at_position h n q x -> forall l, content h n l ->
  exists lx, content h x lx /\ beyond q l = map (prepend q) lx.
Proof.
  induction 1 as [n|n k s q x [K S] A IH]; intros l C.
  - exists l. split; [assumption|]. rewrite beyond_all.
    transitivity (map id l); [rewrite map_id; reflexivity|]. apply map_ext. intros [p v]. reflexivity.
  - destruct C as [n E|n s0 sons l E C].
    + rewrite E in S. destruct (Z.to_nat k); discriminate.
    + rewrite E in S. destruct (contents_at _ _ _ _ C _ _ S) as (ls & Cs & B).
      rewrite Z2Nat.id in B by assumption. simpl in B. specialize (B q).
      destruct (IH ls Cs) as (lx & Cx & Bx). exists lx. split; [assumption|].
      rewrite B, Bx, map_map. apply map_ext. intros [p v]. reflexivity.
Qed.
