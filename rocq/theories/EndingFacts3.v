(* Proofs about edited tables and the end of the program: the properties. *)
From Coq Require Import ZArith List Bool String Lia.
From Verif Require Import Base Maps MapsFacts Interning InterningSpec InterningFacts InterningFacts2 Ending EndingSpec
  EndingFacts EndingFacts2.
Import ListNotations.
Local Open Scope Z_scope.

(* the key of a registered atom *)
Lemma registered_at w a k p : loose w -> lookup Z.eqb k (objs (tab w)) = Some p -> lookup Z.eqb p (held w) = Some a ->
  forall b, registered w b -> (key_of b = k <-> b = a).
Proof.
  intros G E1 E2 b R. destruct (entry_atom w k p G E1) as (c & C1 & C2). assert (c = a) by congruence. subst c.
  split; [|congruence]. intros E. apply (l_inj _ G); [apply registered_live; assumption|eapply held_live; eauto|congruence].
Qed.

Lemma remove_registered w k : loose w -> exists w', remove_atom 3 w k = Ok w' /\ handles w' = handles w
  /\ forall a, registered w' a <-> registered w a /\ key_of a <> k.
Proof.
  intros G. destruct (remove_either w k G) as [(Ed & E)|(n & p & a & Ed & E1 & E2 & E3 & E & _)].
  - exists w. split; [assumption|]. split; [reflexivity|]. intros a. split; [|tauto]. intros R. split; [assumption|].
    intros <-. apply (proj1 (registered_key w a G (registered_live w a R)) R). assumption.
  - exists (forget w a n p). split; [assumption|]. split; [reflexivity|]. intros b.
    rewrite (registered_forget w a n p b G) by (subst; assumption).
    split; intros (R & N); (split; [assumption|]); intros X; apply N; apply (registered_at w a k p G E1 E2 b R); assumption.
Qed.

Lemma erase_registered w k : loose w -> exists w', erase_key w k = Ok w' /\ handles w' = handles w
  /\ forall a, registered w' a <-> registered w a /\ key_of a <> k.
Proof.
  intros G. destruct (erase_either w k G) as [(Ed & E)|(n & p & a & Ed & E1 & E2 & E3 & E & _)].
  - exists w. split; [assumption|]. split; [reflexivity|]. intros a. split; [|tauto]. intros R. split; [assumption|].
    intros <-. apply (proj1 (registered_key w a G (registered_live w a R)) R). assumption.
  - exists (forget w a n p). split; [assumption|]. split; [reflexivity|]. intros b.
    rewrite (registered_forget w a n p b G) by (subst; assumption).
    split; intros (R & N); (split; [assumption|]); intros X; apply N; apply (registered_at w a k p G E1 E2 b R); assumption.
Qed.

Lemma named_registered w n : loose w -> exists w', remove_named w n = Ok w' /\ handles w' = handles w
  /\ forall a, registered w' a <-> registered w a /\ lookup Z.eqb (key_of a) (dict (tab w)) <> Some n.
Proof.
  intros G. destruct (named_either w n G) as [(En & E)|(p & a & En & Ed & E1 & E2 & E & _)].
  - exists w. split; [assumption|]. split; [reflexivity|]. intros a. split; [|tauto]. intros R. split; [assumption|].
    intros X. apply (l_inv _ G) in X. congruence.
  - exists (forget w a n p). split; [assumption|]. split; [reflexivity|]. intros b.
    rewrite (registered_forget w a n p b G E1 E2).
    split; intros (R & N); (split; [assumption|]); intros X; apply N.
    + apply (registered_at w a _ p G E1 E2 b R). apply (l_inv _ G) in X. congruence.
    + subst b. assumption.
Qed.

Lemma heap_live w a : live w a <-> on_heap w a \/ in_hand w a.
Proof. reflexivity. Qed.

Lemma create_registered w n a : loose w -> apart w a -> exists w' h, act_on w (Create n a) = Ok w'
  /\ handles w' = h :: handles w /\ hname h = n /\ registered w' (hat h)
  /\ (forall h', In h' (handles w) -> (hat h' = hat h <-> registered w (hat h') /\ hname h' = n))
  /\ (forall b, registered w' b <-> registered w b \/ b = hat h)
  /\ (forall b, on_heap w' b <-> on_heap w b \/ b = hat h).
Proof.
  intros G Ap. cbn [act_on].
  destruct (create_either w n a G Ap) as [(k & p & b & En & Ed & E1 & E2 & E3 & E & _)|(En & E & G')].
  - exists (add_handle w (Hd b n)), (Hd b n). cbn [add_handle handles hat hname].
    assert (Rb : registered w b) by (exists k, p; auto).
    split; [assumption|]. split; [reflexivity|]. split; [reflexivity|]. split; [exact Rb|]. split; [|split].
    + intros h' H'. split.
      * intros X. rewrite X. split; [assumption|]. symmetry. apply (l_handles _ G h'); [assumption|]. rewrite X, E3. assumption.
      * intros (R & N). pose proof (proj1 (registered_named w _ G) R) as (q & m & Q1 & Q2 & Q3).
        pose proof (l_handles _ G h' m H' Q3) as Em. subst m. rewrite N in Q3. apply (l_inv _ G) in Q3.
        apply (registered_at w b k p G E1 E2 _ R). congruence.
    + intros c. split; [auto|]. intros [R| ->]; [exact R|exact Rb].
    + intros c. split; [auto|]. intros [R| ->]; [exact R|apply (registered_heap w b Rb)].
  - exists (add_handle (register w n a) (Hd a n)), (Hd a n). cbn [add_handle handles hat hname].
    assert (Nl : ~ live w a) by (intros L; apply (Ap a L); reflexivity).
    destruct (put_entries (tab w) (key_of a) n (next w)) as (_ & P2 & _ & _).
    assert (Nn : lookup Z.eqb (next w) (held w) = None).
    { destruct (lookup Z.eqb (next w) (held w)) eqn:X; [|reflexivity]. pose proof (l_next _ G _ _ X). lia. }
    split; [assumption|]. split; [reflexivity|]. split; [reflexivity|]. split; [|split; [|split]].
    + exists (key_of a), (next w). cbn [add_handle register tab held]. rewrite P2, Z.eqb_refl, zl_set, Z.eqb_refl. auto.
    + intros h' H'. split.
      * intros X. exfalso. apply Nl. rewrite <- X. right. apply in_map. assumption.
      * intros (R & N). exfalso. pose proof (proj1 (registered_named w _ G) R) as (q & m & Q1 & Q2 & Q3).
        pose proof (l_handles _ G h' m H' Q3) as Em. subst m. rewrite N in Q3. apply (l_inv _ G) in Q3. congruence.
    + intros b. unfold registered. cbn [add_handle register tab held]. split.
      * intros (k & p & F1 & F2). rewrite P2 in F1. rewrite zl_set in F2. destruct (k =? key_of a) eqn:Ek.
        -- assert (p = next w) by congruence. subst p. rewrite Z.eqb_refl in F2. right. congruence.
        -- destruct (p =? next w) eqn:Ep; [|left; exists k, p; auto]. apply Z.eqb_eq in Ep. subst p.
           destruct (entry_atom w k _ G F1) as (c & C1 & _). congruence.
      * intros [(k & p & F1 & F2)| ->].
        -- exists k, p. rewrite P2, zl_set. destruct (k =? key_of a) eqn:Ek; eqs.
           ++ exfalso. subst k. destruct (entry_atom w _ p G F1) as (c & C1 & C2).
              apply (Ap c); [eapply held_live; eauto|]. symmetry. apply key_inj. assumption.
           ++ destruct (p =? next w) eqn:Ep; eqs; [subst; congruence|auto].
        -- exists (key_of a), (next w). rewrite P2, Z.eqb_refl, zl_set, Z.eqb_refl. auto.
    + intros b. rewrite (on_heap_lookup _ b G'), (on_heap_lookup w b G). cbn [add_handle register tab held]. split.
      * intros (p & F). rewrite zl_set in F. destruct (p =? next w); [right; congruence|left; eauto].
      * intros [(p & F)| ->].
        -- exists p. rewrite zl_set. destruct (p =? next w) eqn:Ep; eqs; [subst; congruence|assumption].
        -- exists (next w). rewrite zl_set, Z.eqb_refl. reflexivity.
Qed.

Lemma drop_registered w i h : loose w -> nth_error (handles w) i = Some h -> exists w', act_on w (Drop i) = Ok w'
  /\ handles w' = remove_nth i (handles w)
  /\ (forall a, registered w' a <-> registered w a /\ (a = hat h -> in_hand w' a))
  /\ (forall a, on_heap w' a <-> on_heap w a /\ (a = hat h -> registered w a -> in_hand w' a)).
Proof.
  intros G Hi. destruct (drop_either w i h G Hi) as [(E & R)|(n & p & Ed & E1 & E2 & E & N & G')].
  - exists (shed w i). split; [assumption|]. split; [reflexivity|]. split; intros a.
    + split; [|tauto]. intros X. split; [exact X|]. intros ->. auto.
    + split; [|tauto]. intros X. split; [exact X|]. intros ->. auto.
  - exists (shed (forget w (hat h) n p) i). split; [assumption|]. split; [reflexivity|]. split; intros a.
    + transitivity (registered (forget w (hat h) n p) a); [reflexivity|].
      rewrite (registered_forget w (hat h) n p a G E1 E2).
      split; intros (R & X); (split; [exact R|]); [intros Y; contradiction|]. intros Y. apply N. rewrite <- Y. apply X. assumption.
    + transitivity (on_heap (forget w (hat h) n p) a); [reflexivity|].
      rewrite (heap_forget w (hat h) n p a G G' E2).
      split; intros (R & X); (split; [exact R|]); [intros Y; contradiction|]. intros Y. apply N. subst a. apply X; [reflexivity|].
      exists (key_of (hat h)), p. auto.
Qed.

(* ---- C169 ---- *)
Lemma edits_defined w left : course w left ->
  (forall k, exists w', move_on w (RemoveKey k) = Ok w' /\ handles w' = handles w
     /\ forall a, registered w' a <-> registered w a /\ key_of a <> k)
  /\ (forall k, exists w', move_on w (EraseKey k) = Ok w' /\ handles w' = handles w
     /\ forall a, registered w' a <-> registered w a /\ key_of a <> k)
  /\ (forall n, exists w', move_on w (RemoveNamed n) = Ok w' /\ handles w' = handles w
     /\ (forall a, registered w' a <-> registered w a /\ lookup Z.eqb (key_of a) (dict (tab w)) <> Some n)
     /\ forall h, In h (handles w) -> (registered w' (hat h) <-> registered w (hat h) /\ hname h <> n))
  /\ (exists w', move_on w ResetTable = Ok w' /\ handles w' = handles w /\ tab w' = empty_table
     /\ forall a, live w' a <-> live w a /\ (registered w a -> in_hand w a))
  /\ (forall n a, apart w a -> exists w' h, move_on w (Act (Create n a)) = Ok w'
     /\ handles w' = h :: handles w /\ hname h = n)
  /\ (forall i h, nth_error (handles w) i = Some h -> exists w', move_on w (Act (Drop i)) = Ok w'
     /\ handles w' = firstn i (handles w) ++ skipn (S i) (handles w)
     /\ forall a, registered w' a <-> registered w a /\ (a = hat h -> in_hand w' a)).
Proof.
  intros C. pose proof (course_loose w left C) as G. split; [|split; [|split; [|split; [|split]]]].
  - intros k. exact (remove_registered w k G).
  - intros k. exact (erase_registered w k G).
  - intros n. destruct (named_registered w n G) as (w' & E & Hh & R). exists w'. split; [assumption|]. split; [assumption|].
    split; [assumption|]. intros h H. rewrite R. split; intros (X & Y); (split; [assumption|]); intros Z; apply Y.
    + pose proof (proj1 (registered_named w _ G) X) as (q & m & Q1 & Q2 & Q3).
      pose proof (l_handles _ G h m H Q3) as Em. congruence.
    + symmetry. apply (l_handles _ G h); assumption.
  - destruct (reset_ok w G) as (w' & E & Et & Eh & _ & _ & Hp). exists w'. split; [assumption|]. split; [assumption|].
    split; [assumption|]. intros a. rewrite !heap_live, Hp. unfold in_hand. rewrite Eh. fold (in_hand w a). tauto.
  - intros n a Ap. destruct (create_registered w n a G Ap) as (w' & h & E & Eh & En & _). exists w', h. auto.
  - intros i h Hi. destruct (drop_registered w i h G Hi) as (w' & E & Eh & R & _). exists w'. split; [assumption|].
    split; [rewrite Eh; apply remove_nth_is|assumption].
Qed.

(* ---- C170 ---- *)
Lemma stays_unregistered w m w' a : loose w -> proper w m -> move_on w m = Ok w' -> live w a -> ~ registered w a ->
  ~ registered w' a.
Proof.
  intros G Pm E L N. destruct m as [x|k|n|k|]; cbn [move_on proper] in *.
  - destruct Pm as (Nx & Px). destruct x as [n b|i|i|i j|n b]; cbn [no_op] in Nx; try contradiction.
    + destruct (create_registered w n b G (Px n b (or_introl eq_refl))) as (w2 & h & E2 & _ & _ & _ & _ & R & _).
      rewrite E2 in E. apply Ok_inj in E. subst w2. rewrite R. intros [X| ->]; [contradiction|].
      cbn [act_on] in E2.
      destruct (create_either w n b G (Px n b (or_introl eq_refl)))
        as [(k & p & c & _ & _ & F1 & F2 & _ & E' & _)|(_ & E' & _)]; rewrite E' in E2; apply Ok_inj in E2; subst w'.
      * pose proof (proj2 (R (hat h)) (or_intror eq_refl)) as X. apply N. exact X.
      * cbn [add_handle handles] in *.
        pose proof (proj2 (R (hat h)) (or_intror eq_refl)) as X. destruct X as (k & p & F1 & F2).
        cbn [add_handle register tab held] in F1, F2.
        destruct (put_entries (tab w) (key_of b) n (next w)) as (_ & P2 & _ & _). rewrite P2 in F1. rewrite zl_set in F2.
        destruct (p =? next w) eqn:Ep.
        -- assert (Eb : hat h = b) by congruence. apply (Px n b (or_introl eq_refl) (hat h) L). rewrite Eb. reflexivity.
        -- destruct (k =? key_of b) eqn:Ek; [assert (p = next w) by congruence; lia|].
           apply N. exists k, p. auto.
    + cbn [act_on] in E. destruct (nth_error (handles w) i); [|discriminate]. apply Ok_inj in E. subst. exact N.
    + destruct (nth_error (handles w) i) as [h|] eqn:Ei; [|cbn [act_on] in E; rewrite Ei in E; discriminate].
      destruct (drop_registered w i h G Ei) as (w2 & E2 & _ & R & _). rewrite E2 in E. apply Ok_inj in E. subst w2.
      rewrite R. tauto.
    + cbn [act_on] in E. destruct (nth_error (handles w) i); [|discriminate]. destruct (nth_error (handles w) j); [|discriminate].
      apply Ok_inj in E. subst. exact N.
  - destruct (remove_registered w k G) as (w2 & E2 & _ & R). rewrite E2 in E. apply Ok_inj in E. subst. rewrite R. tauto.
  - destruct (named_registered w n G) as (w2 & E2 & _ & R). rewrite E2 in E. apply Ok_inj in E. subst. rewrite R. tauto.
  - destruct (erase_registered w k G) as (w2 & E2 & _ & R). rewrite E2 in E. apply Ok_inj in E. subst. rewrite R. tauto.
  - destruct (reset_ok w G) as (w2 & E2 & Et & _). rewrite E2 in E. apply Ok_inj in E. subst w2.
    intros (k & p & F & _). rewrite Et in F. discriminate.
Qed.

Lemma edited_names w left : course w left ->
  (forall h h', In h (handles w) -> In h' (handles w) -> registered w (hat h) -> registered w (hat h') ->
     (hname h = hname h' <-> hat h = hat h'))
  /\ (forall n a, apart w a -> exists w' h, move_on w (Act (Create n a)) = Ok w'
        /\ handles w' = h :: handles w /\ hname h = n /\ registered w' (hat h)
        /\ forall h', In h' (handles w) -> (hat h' = hat h <-> registered w (hat h') /\ hname h' = n))
  /\ (forall m w' a, proper w m -> move_on w m = Ok w' -> live w a -> ~ registered w a -> ~ registered w' a).
Proof.
  intros C. pose proof (course_loose w left C) as G. split; [|split].
  - intros h h' H H' R R'.
    pose proof (proj1 (registered_named w _ G) R) as (p & n & P1 & P2 & P3).
    pose proof (proj1 (registered_named w _ G) R') as (p' & n' & P1' & P2' & P3').
    pose proof (l_handles _ G h n H P3). pose proof (l_handles _ G h' n' H' P3'). subst n n'. split; intros X.
    + rewrite X in P3. apply (l_inv _ G) in P3. apply (l_inv _ G) in P3'.
      apply (l_inj _ G); [apply registered_live; assumption|apply registered_live; assumption|congruence].
    + rewrite X in P3. congruence.
  - intros n a Ap. destruct (create_registered w n a G Ap) as (w' & h & E & Eh & En & R & H & _). exists w', h. auto 6.
  - intros m w' a Pm E L N. eapply stays_unregistered; eauto.
Qed.

(* ---- C171 ---- *)
Lemma course_heap w left : course w left ->
  (forall a, on_heap w a <-> registered w a \/ left a) /\ (forall a, left a -> ~ registered w a).
Proof.
  induction 1 as [|w left m w' C (IH1 & IH2) Pm Nm E|w left w' C (IH1 & IH2) E].
  - split; [|tauto]. intros a. unfold on_heap, registered. cbn. split; [tauto|].
    intros [(k & p & X & _)|[]]. discriminate.
  - pose proof (course_loose w left C) as G. pose proof (loose_move w m w' G Pm E) as G'.
    assert (St : forall a, left a -> ~ registered w' a).
    { intros a La. apply (stays_unregistered w m w' a G Pm E); [left; apply IH1; auto|auto]. }
    split; [|exact St].
    destruct m as [x|k|n|k|]; cbn [move_on proper] in *; try congruence.
    + destruct Pm as (Nx & Px). destruct x as [n b|i|i|i j|n b]; cbn [no_op] in Nx; try contradiction.
      * destruct (create_registered w n b G (Px n b (or_introl eq_refl))) as (w2 & h & E2 & _ & _ & _ & _ & R & Hp).
        rewrite E2 in E. apply Ok_inj in E. subst w2. intros a. rewrite Hp, R, IH1. tauto.
      * cbn [act_on] in E. destruct (nth_error (handles w) i); [|discriminate]. apply Ok_inj in E. subst. exact IH1.
      * destruct (nth_error (handles w) i) as [h|] eqn:Ei; [|cbn [act_on] in E; rewrite Ei in E; discriminate].
        destruct (drop_registered w i h G Ei) as (w2 & E2 & _ & R & Hp). rewrite E2 in E. apply Ok_inj in E. subst w2.
        intros a. rewrite Hp, R, IH1. split.
        -- intros ([X|X] & Y); [left; auto|right; exact X].
        -- intros [(X & Y)|X]; [auto|]. split; [auto|]. intros _ Y. destruct (IH2 a X Y).
      * cbn [act_on] in E. destruct (nth_error (handles w) i); [|discriminate]. destruct (nth_error (handles w) j); [|discriminate].
        apply Ok_inj in E. subst. exact IH1.
    + destruct (remove_either w k G) as [(_ & E')|(n & p & b & F & F1 & F2 & F3 & E' & G2)];
        rewrite E' in E; apply Ok_inj in E; subst w'; [exact IH1|]. intros a. subst k.
      rewrite (heap_forget w b n p a G G2 F2), (registered_forget w b n p a G F1 F2), IH1.
      split; [tauto|]. intros [X|X]; [tauto|]. split; [auto|]. intros ->. apply (IH2 b X). exists (key_of b), p. auto.
    + destruct (named_either w n G) as [(_ & E')|(p & b & F & F0 & F1 & F2 & E' & G2)];
        rewrite E' in E; apply Ok_inj in E; subst w'; [exact IH1|]. intros a.
      rewrite (heap_forget w b n p a G G2 F2), (registered_forget w b n p a G F1 F2), IH1.
      split; [tauto|]. intros [X|X]; [tauto|]. split; [auto|]. intros ->. apply (IH2 b X). exists (key_of b), p. auto.
    + destruct (erase_either w k G) as [(_ & E')|(n & p & b & F & F1 & F2 & F3 & E' & G2)];
        rewrite E' in E; apply Ok_inj in E; subst w'; [exact IH1|]. intros a. subst k.
      rewrite (heap_forget w b n p a G G2 F2), (registered_forget w b n p a G F1 F2), IH1.
      split; [tauto|]. intros [X|X]; [tauto|]. split; [auto|]. intros ->. apply (IH2 b X). exists (key_of b), p. auto.
  - pose proof (course_loose w left C) as G. cbn [move_on] in E.
    destruct (reset_ok w G) as (w2 & E2 & Et & _ & _ & _ & Hp). rewrite E2 in E. apply Ok_inj in E. subst w2.
    assert (Nr : forall a, ~ registered w' a).
    { intros a (k & p & F & _). rewrite Et in F. discriminate. }
    split; [|intros; apply Nr]. intros a. rewrite Hp, IH1. split.
    + intros ([X|X] & Y); [right; right; auto|right; left; exact X].
    + intros [X|[X|(X & Y)]]; [destruct (Nr a X)| |]; split; auto. intros Y. destruct (IH2 a X Y).
Qed.

Lemma left_behind w left : course w left ->
  (forall a, on_heap w a <-> registered w a \/ left a)
  /\ (forall a, left a -> ~ registered w a)
  /\ exists w', finish_table w = Ok w' /\ handles w' = handles w
       /\ (forall a, on_heap w' a <-> left a \/ (registered w a /\ in_hand w a))
       /\ (handles w = [] -> forall a, live w' a <-> left a).
Proof.
  intros C. destruct (course_heap w left C) as (H1 & H2). split; [assumption|]. split; [assumption|].
  pose proof (course_loose w left C) as G. destruct (reset_ok w G) as (w' & E & Et & Eh & _ & _ & Hp).
  exists w'. split; [assumption|]. split; [assumption|].
  assert (X : forall a, on_heap w' a <-> left a \/ (registered w a /\ in_hand w a)).
  { intros a. rewrite Hp, H1. split.
    - intros ([X|X] & Y); auto.
    - intros [X|(X & Y)]; split; auto. intros Y. destruct (H2 a X Y). }
  split; [exact X|]. intros Z a. rewrite heap_live, X. unfold in_hand. rewrite Eh, Z. cbn. tauto.
Qed.

(* Programs that do not edit the table leave nothing behind. *)
Lemma history_course w : history no_op apart w -> course w (fun _ => False).
Proof.
  induction 1 as [|w x w' _ IH Nx Px E]; [constructor|].
  eapply course_move with (m := Act x); [exact IH|split; assumption|discriminate|exact E].
Qed.

Lemma nothing_behind w w' : history no_op apart w -> finish_table w = Ok w' ->
  (forall a, on_heap w' a <-> in_hand w a) /\ (handles w = [] -> forall a, ~ live w' a).
Proof.
  intros H E. pose proof (history_course w H) as C.
  destruct (left_behind w _ C) as (_ & _ & w2 & E2 & Eh & X & Y). rewrite E2 in E. apply Ok_inj in E. subst w2.
  pose proof (history_good w H) as G.
  split.
  - intros a. rewrite X. split; [tauto|]. intros Ha. right. split; [|assumption].
    unfold in_hand in Ha. apply in_map_iff in Ha. destruct Ha as (h & <- & Ha).
    destruct (good_pointer w h G Ha) as (p & P1 & P2 & _). exists (key_of (hat h)), p. auto.
  - intros Z a L. apply (Y Z a). assumption.
Qed.

(* ---- C172 ---- *)
Lemma occ_count a l : occurrences a l = count_occ Z.eq_dec l a.
Proof.
  unfold occurrences. induction l as [|x l IH]; [reflexivity|]. cbn [filter count_occ].
  destruct (Z.eq_dec x a) as [->|N].
  - rewrite Z.eqb_refl. cbn [List.length]. rewrite IH. reflexivity.
  - destruct (a =? x) eqn:E; [apply Z.eqb_eq in E; congruence|exact IH].
Qed.

Lemma occ_remove_other : forall i a (l : list handle) h, nth_error l i = Some h -> hat h <> a ->
  occurrences a (map hat l) = occurrences a (map hat (remove_nth i l)).
Proof.
  unfold occurrences. induction i as [|i IH]; intros a [|x l] h H N; cbn [nth_error remove_nth map filter] in *; try discriminate.
  - injection H as ->. destruct (a =? hat h) eqn:E; [apply Z.eqb_eq in E; congruence|reflexivity].
  - destruct (a =? hat x); cbn [List.length]; rewrite (IH a l h H N); reflexivity.
Qed.

Lemma length_remove_nth A i : forall (l : list A), (i < List.length l)%nat ->
  List.length (remove_nth i l) = pred (List.length l).
Proof.
  induction i as [|i IH]; intros [|x l] H; cbn in *; try lia. rewrite IH by lia. lia.
Qed.

Lemma occ_without is : forall (l : list handle) a, takes is (List.length l) ->
  (occurrences a (map hat (without is l)) <= occurrences a (map hat l))%nat.
Proof.
  induction is as [|i is IH]; intros l a T; cbn [without takes] in *; [lia|]. destruct T as (Ti & T).
  rewrite <- remove_nth_is. rewrite <- (length_remove_nth _ i l Ti) in T. specialize (IH _ a T).
  destruct (nth_error l i) as [h|] eqn:Ei; [|apply nth_error_None in Ei; lia].
  destruct (Z.eq_dec (hat h) a) as [Ea|Na].
  - pose proof (occ_remove_nth i a l h Ei Ea). lia.
  - pose proof (occ_remove_other i a l h Ei Na). lia.
Qed.

Lemma late_drops is : forall w, takes is (List.length (handles w)) ->
  ((forall a, (2 <= use_count w a)%nat ->
      (2 <= occurrences a (map snd (held w)) + occurrences a (map hat (without is (handles w))))%nat) ->
   late_all w (map Drop is) = Ok (World (tab w) (held w) (next w) (without is (handles w))))
  /\ (~ (forall a, (2 <= use_count w a)%nat ->
      (2 <= occurrences a (map snd (held w)) + occurrences a (map hat (without is (handles w))))%nat) ->
   late_all w (map Drop is) = UB).
Proof.
  induction is as [|i is IH]; intros w T; cbn [map late_all without takes] in *.
  - split; [destruct w; reflexivity|]. intros N. exfalso. apply N. intros a H. exact H.
  - destruct T as (Ti & T). rewrite <- remove_nth_is. cbn [late_act].
    destruct (nth_error (handles w) i) as [h|] eqn:Ei; [|apply nth_error_None in Ei; lia].
    rewrite <- (length_remove_nth _ i _ Ti) in T.
    pose proof (occ_remove_nth i _ _ h Ei eq_refl) as O.
    pose proof (occ_without is _ (hat h) T) as Ow.
    destruct (Nat.eqb (use_count w (hat h)) 2) eqn:E2; [apply Nat.eqb_eq in E2|apply Nat.eqb_neq in E2];
      cbn [bind]; unfold use_count in E2.
    + split; [|reflexivity]. intros H. exfalso.
      assert (X : (2 <= use_count w (hat h))%nat) by (unfold use_count; lia). specialize (H _ X). lia.
    + specialize (IH (World (tab w) (held w) (next w) (remove_nth i (handles w))) T).
      cbn [tab held next handles] in IH. unfold use_count in IH. cbn [held handles] in IH.
      assert (Q : (forall a, (2 <= use_count w a)%nat ->
                     (2 <= occurrences a (map snd (held w)) + occurrences a (map hat (without is (remove_nth i (handles w)))))%nat)
                  <-> (forall a, (2 <= occurrences a (map snd (held w)) + occurrences a (map hat (remove_nth i (handles w))))%nat ->
                     (2 <= occurrences a (map snd (held w)) + occurrences a (map hat (without is (remove_nth i (handles w)))))%nat)).
      { split; intros H a Ha.
        - apply H. unfold use_count. destruct (Z.eq_dec (hat h) a) as [<-|Na]; [lia|].
          pose proof (occ_remove_other i a _ h Ei Na). lia.
        - apply H. unfold use_count in Ha. destruct (Z.eq_dec (hat h) a) as [<-|Na]; [lia|].
          pose proof (occ_remove_other i a _ h Ei Na). lia. }
      rewrite Q. exact IH.
Qed.

Lemma kept_occ w hs : kept w hs <-> (forall a, (2 <= use_count w a)%nat ->
  (2 <= occurrences a (map snd (held w)) + occurrences a (map hat hs))%nat).
Proof.
  unfold kept, use_count. split; intros H a Ha; specialize (H a); rewrite ?occ_count in *;
    [apply H; rewrite <- !occ_count in *; exact Ha|apply H; exact Ha].
Qed.

Lemma late_exact w left w' is : course w left -> finish_table w = Ok w' -> takes is (List.length (handles w)) ->
  (kept w' (without is (handles w)) ->
     exists w2, late_all w' (map Drop is) = Ok w2 /\ handles w2 = without is (handles w))
  /\ (~ kept w' (without is (handles w)) -> late_all w' (map Drop is) = UB).
Proof.
  intros C E T. destruct (left_behind w left C) as (_ & _ & w2 & E2 & Eh & _). rewrite E2 in E. apply Ok_inj in E. subst w2.
  rewrite <- Eh in *. destruct (late_drops is w' T) as (A & B). rewrite kept_occ. split.
  - intros H. eexists. split; [exact (A H)|reflexivity].
  - exact B.
Qed.

Lemma in_without is : forall l h, In h (without is l) -> In h l.
Proof.
  induction is as [|i is IH]; intros l h H; cbn [without] in H; [assumption|].
  apply IH in H. rewrite <- remove_nth_is in H. apply in_remove_nth in H. assumption.
Qed.

Lemma late_unedited w w' is : history no_op apart w -> finish_table w = Ok w' -> takes is (List.length (handles w)) ->
  ((forall h, In h (handles w) -> exists h', In h' (without is (handles w)) /\ hat h' = hat h) ->
     exists w2, late_all w' (map Drop is) = Ok w2 /\ handles w2 = without is (handles w))
  /\ (~ (forall h, In h (handles w) -> exists h', In h' (without is (handles w)) /\ hat h' = hat h) ->
     late_all w' (map Drop is) = UB)
  /\ (without is (handles w) = [] -> handles w <> [] -> late_all w' (map Drop is) = UB).
Proof.
  intros H E T. pose proof (history_course w H) as C. destruct (nothing_behind w w' H E) as (Hp & _).
  destruct (late_exact w _ w' is C E T) as (A & B).
  destruct (left_behind w _ C) as (_ & _ & w2 & E2 & Eh & _). rewrite E2 in E. apply Ok_inj in E. subst w2.
  assert (G' : loose w').
  { destruct (reset_ok w (course_loose w _ C)) as (w2 & E3 & _ & _ & _ & G' & _). unfold finish_table in E2.
    rewrite E3 in E2. apply Ok_inj in E2. subst. assumption. }
  assert (Q : kept w' (without is (handles w)) <->
              forall h, In h (handles w) -> exists h', In h' (without is (handles w)) /\ hat h' = hat h).
  { rewrite kept_occ. unfold use_count. rewrite Eh. split.
    - intros K h Hh. assert (Ih : in_hand w (hat h)) by (apply in_map; assumption).
      pose proof (proj2 (Hp _) Ih) as Hh'. apply (on_heap_lookup w' _ G') in Hh'. destruct Hh' as (p & Hh').
      pose proof (loose_held_once w' p _ G' Hh') as O1.
      assert (O2 : occurrences (hat h) (map hat (handles w)) <> 0%nat) by (rewrite occ_zero; intros X; apply X; exact Ih).
      specialize (K (hat h)). rewrite O1 in K.
      assert (O3 : occurrences (hat h) (map hat (without is (handles w))) <> 0%nat) by lia.
      rewrite occ_zero in O3. destruct (in_dec Z.eq_dec (hat h) (map hat (without is (handles w)))) as [Y|Y]; [|contradiction].
      apply in_map_iff in Y. destruct Y as (h' & E' & Y). exists h'. auto.
    - intros K a Ha. destruct (Nat.eq_dec (occurrences a (map hat (handles w))) 0) as [Z|N].
      + exfalso. destruct (in_dec Z.eq_dec a (map snd (held w'))) as [Y|Y].
        * apply (Hp a) in Y. apply occ_zero in Z. contradiction.
        * apply occ_zero in Y. lia.
      + assert (Ih : in_hand w a).
        { unfold in_hand. destruct (in_dec Z.eq_dec a (map hat (handles w))) as [Y|Y]; [assumption|]. apply occ_zero in Y. contradiction. }
        pose proof (proj2 (Hp _) Ih) as Hh'. apply (on_heap_lookup w' _ G') in Hh'. destruct Hh' as (p & Hh').
        pose proof (loose_held_once w' p _ G' Hh') as O1. rewrite O1.
        unfold in_hand in Ih. apply in_map_iff in Ih. destruct Ih as (h & Eh' & Ih). destruct (K h Ih) as (h' & K1 & K2).
        assert (O3 : occurrences a (map hat (without is (handles w))) <> 0%nat).
        { rewrite occ_zero. intros X. apply X. apply in_map_iff. exists h'. split; [congruence|assumption]. }
        lia. }
  rewrite <- Q. split; [exact A|]. split; [exact B|]. intros W N. apply B. rewrite Q. intros K.
  destruct (handles w) as [|h l]; [congruence|]. destruct (K h (or_introl eq_refl)) as (h' & K1 & _). rewrite W in K1. exact K1.
Qed.
