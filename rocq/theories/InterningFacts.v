(* The table calls. *)
From Coq Require Import ZArith List Bool String Lia.
From Verif Require Import Base Maps MapsFacts Interning InterningSpec.
Import ListNotations.
Local Open Scope Z_scope.

Lemma Ok_inj : forall A (x y : A), Ok x = Ok y -> x = y.
Proof. intros A x y E. congruence. Qed.

Definition zok := Z.eqb_eq.
Definition sok := String.eqb_eq.

Lemma zl_set k k' {V} (v : V) m : lookup Z.eqb k (set Z.eqb k' v m) = if k =? k' then Some v else lookup Z.eqb k m.
Proof.
  destruct (k =? k') eqn:E.
  - apply Z.eqb_eq in E. subst. apply (lookup_set_same _ zok).
  - apply Z.eqb_neq in E. apply (lookup_set_other _ zok). assumption.
Qed.

Lemma zl_unset k k' {V} (m : list (Z * V)) : lookup Z.eqb k (unset Z.eqb k' m) = if k =? k' then None else lookup Z.eqb k m.
Proof.
  destruct (k =? k') eqn:E.
  - apply Z.eqb_eq in E. subst. apply (lookup_unset_same _).
  - apply Z.eqb_neq in E. apply (lookup_unset_other _ zok). assumption.
Qed.

Lemma sl_set k k' {V} (v : V) m : lookup String.eqb k (set String.eqb k' v m) = if String.eqb k k' then Some v else lookup String.eqb k m.
Proof.
  destruct (String.eqb k k') eqn:E.
  - apply String.eqb_eq in E. subst. apply (lookup_set_same _ sok).
  - apply String.eqb_neq in E. apply (lookup_set_other _ sok). assumption.
Qed.

Lemma sl_unset k k' {V} (m : list (string * V)) : lookup String.eqb k (unset String.eqb k' m) = if String.eqb k k' then None else lookup String.eqb k m.
Proof.
  destruct (String.eqb k k') eqn:E.
  - apply String.eqb_eq in E. subst. apply (lookup_unset_same _).
  - apply String.eqb_neq in E. apply (lookup_unset_other _ sok). assumption.
Qed.

(* ---- C32 ---- *)
Lemma same_entries_refl : forall t, same_entries t t.
Proof. intros t. repeat split. Qed.

Lemma known_lookup_neutral : forall t,
  (forall k n, lookup Z.eqb k (dict t) = Some n -> after t (Get k) = Ok t)
  /\ (forall k p, lookup Z.eqb k (objs t) = Some p -> after t (GetObject k) = Ok t)
  /\ (forall n k, lookup String.eqb n (inv t) = Some k -> after t (GetByName n) = Ok t)
  /\ (forall k, after t (Check k) = Ok t) /\ (forall n, after t (CheckByName n) = Ok t)
  /\ (forall k c, lookup Z.eqb k (cnt t) = Some c -> c <> 0 -> after t (CheckCount k) = Ok t).
Proof.
  intros t. repeat split; intros; cbn [after].
  - unfold get. rewrite H. reflexivity.
  - unfold get_object. rewrite H. reflexivity.
  - unfold get_by_name. rewrite H. reflexivity.
  - unfold check_count. rewrite H. destruct (c =? 0) eqn:E; [lia|reflexivity].
Qed.

Lemma lookup_adds :
  ~ (forall t c t', lookup_call c -> after t c = Ok t' -> same_entries t t').
Proof.
  intros H. specialize (H empty_table (Get 7) _ (lk_get 7) eq_refl).
  destruct H as (H & _). specialize (H 7). vm_compute in H. discriminate.
Qed.

(* ---- C33 ---- *)
Record counted (k : Z) (n : string) (b p : Z) (t : table) : Prop := {
  cd_nonneg : 0 <= b;
  cd_yes : 0 < b -> lookup Z.eqb k (dict t) = Some n /\ lookup String.eqb n (inv t) = Some k
            /\ lookup Z.eqb k (cnt t) = Some b /\ lookup Z.eqb k (objs t) = Some p;
  cd_no : b = 0 -> lookup Z.eqb k (dict t) = None /\ lookup String.eqb n (inv t) = None
            /\ lookup Z.eqb k (cnt t) = None /\ lookup Z.eqb k (objs t) = None;
  cd_name : forall k', lookup Z.eqb k' (dict t) = Some n -> k' = k;
  cd_key : forall n', lookup String.eqb n' (inv t) = Some k -> n' = n
}.

Ltac maps := rewrite ?zl_set, ?zl_unset, ?sl_set, ?sl_unset in *.
Ltac eqs := repeat match goal with
  | H : (_ =? _) = true |- _ => apply Z.eqb_eq in H
  | H : (_ =? _) = false |- _ => apply Z.eqb_neq in H
  | H : String.eqb _ _ = true |- _ => apply String.eqb_eq in H
  | H : String.eqb _ _ = false |- _ => apply String.eqb_neq in H
  end.
Ltac cases := repeat match goal with
  | |- context [?x =? ?y] => destruct (x =? y) eqn:?
  | |- context [String.eqb ?x ?y] => destruct (String.eqb x y) eqn:?
  end; eqs; subst.

Lemma put_eq : forall t k n o, exists c,
  put t k n o = Tab (set Z.eqb k n (dict t)) (set Z.eqb k o (objs t)) (set String.eqb n k (inv t)) c
  /\ forall k', lookup Z.eqb k' c =
        if k' =? k then Some (match lookup Z.eqb k (cnt t) with Some c => c + 1 | None => 1 end)
        else lookup Z.eqb k' (cnt t).
Proof.
  intros t k n o. unfold put, check_count. cbn [cnt].
  destruct (lookup Z.eqb k (cnt t)) as [c|] eqn:E.
  - destruct (c =? 0) eqn:E0; cbn [dict objs inv cnt].
    + eexists. split; [reflexivity|]. intros k'. rewrite zl_set, zl_unset. destruct (k' =? k); [|reflexivity].
      f_equal. lia.
    + eexists. split; [reflexivity|]. intros k'. rewrite zl_set, E. reflexivity.
  - eexists. split; [reflexivity|]. intros k'. rewrite zl_set. reflexivity.
Qed.

Lemma put_entries : forall t k n o,
  (forall k', lookup Z.eqb k' (dict (put t k n o)) = if k' =? k then Some n else lookup Z.eqb k' (dict t))
  /\ (forall k', lookup Z.eqb k' (objs (put t k n o)) = if k' =? k then Some o else lookup Z.eqb k' (objs t))
  /\ (forall n', lookup String.eqb n' (inv (put t k n o)) = if String.eqb n' n then Some k else lookup String.eqb n' (inv t))
  /\ (forall k', lookup Z.eqb k' (cnt (put t k n o)) =
        if k' =? k then Some (match lookup Z.eqb k (cnt t) with Some c => c + 1 | None => 1 end)
        else lookup Z.eqb k' (cnt t)).
Proof.
  intros t k n o. destruct (put_eq t k n o) as (c & -> & Hc). cbn [dict objs inv cnt].
  repeat split; intros; [apply zl_set|apply zl_set|apply sl_set|apply Hc].
Qed.

Lemma remove_entries : forall t k n, lookup Z.eqb k (dict t) = Some n ->
  let t' := snd (fst (remove t k)) in
  (forall k', lookup Z.eqb k' (dict t') = if k' =? k then None else lookup Z.eqb k' (dict t))
  /\ (forall k', lookup Z.eqb k' (objs t') = if k' =? k then None else lookup Z.eqb k' (objs t))
  /\ (forall n', lookup String.eqb n' (inv t') = if String.eqb n' n then None else lookup String.eqb n' (inv t))
  /\ (forall k', lookup Z.eqb k' (cnt t') = if k' =? k then None else lookup Z.eqb k' (cnt t)).
Proof.
  intros t k n E t'. subst t'. unfold remove. rewrite E. cbn [fst snd dict objs inv cnt].
  repeat split; intros; maps; reflexivity.
Qed.

Lemma remove_none : forall t k, lookup Z.eqb k (dict t) = None -> snd (fst (remove t k)) = t.
Proof. intros t k E. unfold remove. rewrite E. reflexivity. Qed.

(* Changes away from k and n keep the count. *)
Lemma counted_side : forall k n b p t t', counted k n b p t ->
  lookup Z.eqb k (dict t') = lookup Z.eqb k (dict t) ->
  lookup Z.eqb k (objs t') = lookup Z.eqb k (objs t) ->
  lookup String.eqb n (inv t') = lookup String.eqb n (inv t) ->
  lookup Z.eqb k (cnt t') = lookup Z.eqb k (cnt t) ->
  (forall k', lookup Z.eqb k' (dict t') = Some n -> k' <> k -> lookup Z.eqb k' (dict t) = Some n) ->
  (forall n', lookup String.eqb n' (inv t') = Some k -> n' <> n -> lookup String.eqb n' (inv t) = Some k) ->
  counted k n b p t'.
Proof.
  intros k n b p t t' [A B C D E] E1 E2 E3 E4 E5 E6. constructor; auto.
  - rewrite E1, E2, E3, E4. assumption.
  - rewrite E1, E2, E3, E4. assumption.
  - intros k' H. destruct (Z.eq_dec k' k); [assumption|]. apply D. auto.
  - intros n' H. destruct (string_dec n' n); [assumption|]. apply E. auto.
Qed.

Lemma counted_remove_other : forall k n b p t k', counted k n b p t -> k' <> k ->
  counted k n b p (snd (fst (remove t k'))).
Proof.
  intros k n b p t k' C N. destruct (lookup Z.eqb k' (dict t)) as [m|] eqn:E.
  - destruct (remove_entries t k' m E) as (R1 & R2 & R3 & R4).
    assert (m <> n). { intros ->. apply N. eapply cd_name; eauto. }
    eapply counted_side; [exact C| | | | | |].
    + rewrite R1. cases; [congruence|reflexivity].
    + rewrite R2. cases; [congruence|reflexivity].
    + rewrite R3. cases; [congruence|reflexivity].
    + rewrite R4. cases; [congruence|reflexivity].
    + intros x. rewrite R1. cases; [discriminate|auto].
    + intros x. rewrite R3. cases; [discriminate|auto].
  - rewrite remove_none by assumption. assumption.
Qed.

Lemma counted_cnt : forall k n b p t c, counted k n b p t ->
  lookup Z.eqb k c = lookup Z.eqb k (cnt t) ->
  counted k n b p (Tab (dict t) (objs t) (inv t) c).
Proof. intros k n b p t c C E. eapply counted_side; [exact C| | | | | |]; auto. Qed.

Lemma counted_step : forall k n b p t c t', counted k n b p t ->
  own_call k n c \/ side_call k n c -> after t c = Ok t' ->
  counted k n (balance k b [c]) (last_object k p [c]) t'
  /\ (c = Erase k -> fst (fst (erase t k)) = (0 <? b)).
Proof.
  intros k n b p t c t' C H. destruct H as [[o|]|H]; intros E.
  - split; [|discriminate]. cbn [after] in E. apply Ok_inj in E; subst t'. cbn [balance last_object].
    rewrite Z.eqb_refl. destruct (put_entries t k n o) as (P1 & P2 & P3 & P4).
    pose proof (cd_nonneg _ _ _ _ _ C). constructor.
    + lia.
    + intros _. rewrite P1, P2, P3, P4, Z.eqb_refl, String.eqb_refl. repeat split.
      destruct (Z.eq_dec b 0) as [->|Nb].
      * destruct (cd_no _ _ _ _ _ C eq_refl) as (_ & _ & -> & _). reflexivity.
      * destruct (cd_yes _ _ _ _ _ C) as (_ & _ & -> & _); [lia|]. reflexivity.
    + lia.
    + intros k'. rewrite P1. cases; [reflexivity|]. intros. eapply cd_name; eauto.
    + intros n'. rewrite P3. cases; [reflexivity|]. intros. eapply cd_key; eauto.
  - cbn [after] in E. apply Ok_inj in E; subst t'. cbn [balance last_object].
    rewrite Z.eqb_refl. pose proof (cd_nonneg _ _ _ _ _ C) as N.
    assert (G : counted k n (Z.max 0 (b - 1)) p (snd (fst (erase t k))) /\ fst (fst (erase t k)) = (0 <? b)).
    2: { split; [apply G|]. intros _. apply G. }
    unfold erase, check_count. destruct (Z.eq_dec b 0) as [->|Nb].
    + destruct (cd_no _ _ _ _ _ C eq_refl) as (_ & _ & -> & _). cbn. auto.
    + destruct (cd_yes _ _ _ _ _ C) as (Y1 & Y2 & Y3 & Y4); [lia|]. rewrite Y3.
      destruct (b =? 0) eqn:E0; [lia|]. destruct (0 <? b) eqn:E1; [|lia].
      set (t2 := Tab _ _ _ _).
      assert (L : forall k', lookup Z.eqb k' (cnt t2) = if k' =? k then Some (b - 1) else lookup Z.eqb k' (cnt t)).
      { intros. subst t2. cbn [cnt]. apply zl_set. }
      destruct (b - 1 =? 0) eqn:E2.
      * destruct (remove t2 k) as [[r t3] del] eqn:Er. cbn [fst snd]. split; [|reflexivity].
        replace t3 with (snd (fst (remove t2 k))) by (rewrite Er; reflexivity).
        destruct (remove_entries t2 k n Y1) as (R1 & R2 & R3 & R4).
        constructor; [lia|lia| | |].
        -- intros _. rewrite R1, R2, R3, R4, Z.eqb_refl, String.eqb_refl. auto.
        -- intros k'. rewrite R1. cases; [discriminate|]. intros. eapply (cd_name _ _ _ _ _ C). assumption.
        -- intros n'. rewrite R3. cases; [discriminate|]. intros. eapply (cd_key _ _ _ _ _ C). assumption.
      * cbn [fst snd]. split; [|reflexivity]. constructor.
        -- lia.
        -- intros _. rewrite L, Z.eqb_refl. subst t2. cbn [dict inv objs].
           repeat split; try assumption. f_equal. lia.
        -- lia.
        -- apply (cd_name _ _ _ _ _ C).
        -- apply (cd_key _ _ _ _ _ C).
  - assert (G : counted k n b p t' /\ c <> Erase k).
    2: { destruct G as (G & Nc). split; [|intros ->; congruence]. clear E Nc.
         destruct H; cbn [balance last_object]; rewrite ?(proj2 (Z.eqb_neq _ _) H); assumption. }
    revert E. destruct H; intros E; (split; [|congruence]); cbn [after] in E; apply Ok_inj in E; subst t'.
    + destruct (put_entries t k' n' o) as (P1 & P2 & P3 & P4).
      eapply counted_side; [exact C| | | | | |].
      * rewrite P1. cases; congruence.
      * rewrite P2. cases; congruence.
      * rewrite P3. cases; congruence.
      * rewrite P4. cases; congruence.
      * intros x. rewrite P1. cases; congruence.
      * intros x. rewrite P3. cases; congruence.
    + unfold get. destruct (lookup Z.eqb k' (dict t)); [assumption|]. cbn [snd].
      eapply counted_side; [exact C| | | | | |]; cbn [dict objs inv cnt]; auto.
      * rewrite zl_set. cases; congruence.
      * intros x. rewrite zl_set. cases; congruence.
    + unfold get_object. destruct (lookup Z.eqb k' (objs t)); [assumption|]. cbn [snd].
      eapply counted_side; [exact C| | | | | |]; cbn [dict objs inv cnt]; auto.
      rewrite zl_set. cases; congruence.
    + unfold get_by_name. destruct (lookup String.eqb n' (inv t)); [assumption|]. cbn [snd].
      eapply counted_side; [exact C| | | | | |]; cbn [dict objs inv cnt]; auto.
      * rewrite sl_set. cases; congruence.
      * intros x. rewrite sl_set. cases; congruence.
    + assumption.
    + assumption.
    + unfold check_count. destruct (lookup Z.eqb k' (cnt t)) as [c|] eqn:Ec; [|assumption]. cbn [snd].
      destruct (c =? 0) eqn:E0; [|assumption]. apply counted_cnt; [assumption|].
      rewrite zl_unset. destruct (k =? k') eqn:Ek; [|reflexivity]. eqs. subst.
      pose proof (cd_nonneg _ _ _ _ _ C). destruct (Z.eq_dec b 0) as [->|Nb].
      * destruct (cd_no _ _ _ _ _ C eq_refl) as (_ & _ & -> & _). reflexivity.
      * destruct (cd_yes _ _ _ _ _ C) as (_ & _ & Y & _); [lia|]. rewrite Ec in Y. inversion Y. lia.
    + apply counted_remove_other; assumption.
    + unfold remove_by_name. destruct (lookup String.eqb n' (inv t)) as [x|] eqn:Ex; [|assumption].
      assert (Nx : x <> k). { intros ->. apply H. eapply cd_key; eauto. }
      destruct (check t x); cbn [fst snd];
        (eapply counted_side; [exact C| | | | | |]); cbn [dict objs inv cnt]; auto;
        rewrite ?zl_unset, ?sl_unset; cases; try congruence;
        intros y; rewrite ?zl_unset, ?sl_unset; cases; congruence.
    + unfold erase, check_count. destruct (lookup Z.eqb k' (cnt t)) as [c|] eqn:Ec; [|exact C].
      destruct (c =? 0) eqn:E0.
      * destruct (0 <? c) eqn:E1; [lia|]. cbn [fst snd]. apply counted_cnt; [assumption|].
        rewrite zl_unset. cases; congruence.
      * destruct (0 <? c) eqn:E1; [|exact C].
        set (t2 := Tab _ _ _ _).
        assert (C2 : counted k n b p t2).
        { subst t2. apply counted_cnt; [assumption|]. rewrite zl_set. cases; congruence. }
        destruct (c - 1 =? 0); [|exact C2].
        destruct (remove t2 k') as [[r t3] del] eqn:Er. cbn [fst snd].
        replace t3 with (snd (fst (remove t2 k'))) by (rewrite Er; reflexivity).
        apply counted_remove_other; assumption.
Qed.

Lemma after_ok : forall t c, (forall alone, c <> Reset alone) -> exists t', after t c = Ok t'.
Proof. intros t [] H; cbn [after]; eauto. destruct (H alone eq_refl). Qed.

Lemma counted_all : forall k n cs b p t, counted k n b p t ->
  Forall (fun c => own_call k n c \/ side_call k n c) cs ->
  exists t', after_all t cs = Ok t' /\ counted k n (balance k b cs) (last_object k p cs) t'.
Proof.
  induction cs as [|c cs IH]; intros b p t C F; [exists t; auto|]. inversion F; subst.
  destruct (after_ok t c) as (t1 & E).
  { intros alone ->. destruct H1 as [H|H]; inversion H. }
  destruct (counted_step _ _ _ _ _ _ _ C H1 E) as (C1 & _).
  destruct (IH _ _ _ C1 H2) as (t' & E' & C'). exists t'.
  cbn [after_all]. rewrite E. cbn [bind]. split; [assumption|].
  replace (balance k b (c :: cs)) with (balance k (balance k b [c]) cs) by (destruct c; reflexivity).
  replace (last_object k p (c :: cs)) with (last_object k (last_object k p [c]) cs) by (destruct c; reflexivity).
  assumption.
Qed.

Lemma registration_counted : forall k n cs,
  Forall (fun c => own_call k n c \/ side_call k n c) cs ->
  exists t, after_all empty_table cs = Ok t /\
    let b := balance k 0 cs in
    (0 < b -> lookup Z.eqb k (dict t) = Some n /\ lookup String.eqb n (inv t) = Some k
       /\ lookup Z.eqb k (objs t) = Some (last_object k 0 cs) /\ lookup Z.eqb k (cnt t) = Some b)
    /\ (b = 0 -> lookup Z.eqb k (dict t) = None /\ lookup String.eqb n (inv t) = None
       /\ lookup Z.eqb k (objs t) = None /\ lookup Z.eqb k (cnt t) = None)
    /\ fst (fst (erase t k)) = (0 <? b).
Proof.
  intros k n cs F.
  destruct (counted_all k n cs 0 0 empty_table) as (t & E & C); [|assumption|].
  { constructor; try lia; cbn; auto; intros; discriminate. }
  exists t. split; [assumption|]. intros b. split; [|split].
  - intros Hb. destruct (cd_yes _ _ _ _ _ C Hb) as (A & B & D & G). auto.
  - intros Hb. destruct (cd_no _ _ _ _ _ C Hb) as (A & B & D & G). auto.
  - destruct (counted_step k n b (last_object k 0 cs) t (Erase k) _ C (or_introl (own_erase k n)) eq_refl) as (_ & G).
    apply G. reflexivity.
Qed.

(* ---- C34 ---- *)
Lemma inverse_remove : forall t k, inverse_tables t -> inverse_tables (snd (fst (remove t k))).
Proof.
  intros t k I. destruct (lookup Z.eqb k (dict t)) as [n|] eqn:E.
  - destruct (remove_entries t k n E) as (R1 & _ & R3 & _). intros k' n'. rewrite R1, R3.
    pose proof (proj1 (I k n) E) as En. cases; split; intros H; try discriminate; auto.
    + apply I in H. congruence.
    + apply I in H. congruence.
    + apply I. assumption.
    + apply I. assumption.
  - rewrite remove_none by assumption. assumption.
Qed.

Lemma inverse_step : forall t c t', inverse_tables t -> update_call c -> one_to_one t [c] ->
  after t c = Ok t' -> inverse_tables t'.
Proof.
  intros t c t' I U [O _] E. revert O E. destruct U; intros O E; cbn [after] in E.
  - apply Ok_inj in E; subst t'. destruct (put_entries t k n o) as (P1 & _ & P3 & _). destruct O as (O1 & O2).
    intros k' n'. rewrite P1, P3. cases; split; intros H;
      first [congruence | apply I; assumption
            | pose proof (proj1 (I _ _) H) as G; pose proof (O1 _ H); congruence
            | pose proof (proj2 (I _ _) H) as G; pose proof (O2 _ H); congruence
            | pose proof (proj1 (I _ _) H) as G; pose proof (O2 _ G); congruence
            | pose proof (proj2 (I _ _) H) as G; pose proof (O1 _ G); congruence].
  - apply Ok_inj in E; subst t'. apply inverse_remove. assumption.
  - apply Ok_inj in E; subst t'. unfold remove_by_name.
    destruct (lookup String.eqb n (inv t)) as [k|] eqn:En; [|assumption].
    pose proof (proj2 (I k n) En) as Ek. unfold check. rewrite (proj2 (has_iff Z.eqb k (dict t))) by eauto.
    cbn [fst snd]. intros k' n'. cbn [dict inv]. rewrite zl_unset, sl_unset.
    cases; split; intros H; try discriminate; auto; try (apply I in H; congruence); apply I; assumption.
  - apply Ok_inj in E; subst t'. unfold erase, check_count.
    destruct (lookup Z.eqb k (cnt t)) as [c|]; [|assumption].
    destruct (c =? 0); (destruct (0 <? c); [|exact I]).
    + set (t2 := Tab _ _ _ _). destruct (c - 1 =? 0); [|exact I].
      destruct (remove t2 k) as [[r t3] del] eqn:Er. cbn [fst snd].
      replace t3 with (snd (fst (remove t2 k))) by (rewrite Er; reflexivity).
      apply inverse_remove. exact I.
    + set (t2 := Tab _ _ _ _). destruct (c - 1 =? 0); [|exact I].
      destruct (remove t2 k) as [[r t3] del] eqn:Er. cbn [fst snd].
      replace t3 with (snd (fst (remove t2 k))) by (rewrite Er; reflexivity).
      apply inverse_remove. exact I.
  - unfold reset in E. destruct (existsb _ _); cbn [bind] in E; [discriminate|]. apply Ok_inj in E; subst t'.
    intros k n. cbn. split; discriminate.
Qed.

Lemma inverse_all : forall cs t t', inverse_tables t -> Forall update_call cs -> one_to_one t cs ->
  after_all t cs = Ok t' -> inverse_tables t'.
Proof.
  induction cs as [|c cs IH]; intros t t' I F O E; cbn [after_all] in E.
  - apply Ok_inj in E; subst t'; assumption.
  - pose proof (Forall_inv F) as Fc. apply Forall_inv_tail in F. destruct O as (O1 & O2).
    destruct (after t c) as [t1| | |] eqn:E1; cbn [bind] in E; try discriminate.
    apply (IH t1 t'); [|exact F|apply O2; reflexivity|exact E].
    apply (inverse_step t c t1 I Fc); [|exact E1]. split; [exact O1|intros; exact Logic.I].
Qed.

Lemma tables_inverse : forall cs t, Forall update_call cs -> one_to_one empty_table cs ->
  after_all empty_table cs = Ok t -> inverse_tables t.
Proof. intros cs t. apply inverse_all. intros k n. cbn. split; discriminate. Qed.

Lemma tables_not_inverse :
  ~ (forall cs t, Forall update_call cs -> after_all empty_table cs = Ok t -> inverse_tables t).
Proof.
  intros H. specialize (H [Put 1 "a" 5; Put 2 "a" 6] _ ltac:(repeat constructor) eq_refl).
  destruct (H 1 "a"%string) as (A & _). specialize (A eq_refl). vm_compute in A. discriminate.
Qed.

(* ---- reset ---- *)
Definition nulls (t : table) : Prop := existsb (fun kp => snd kp =? 0) (objs t) = true.

Lemma existsb_unset : forall (f : Z * Z -> bool) k m, existsb f m = false -> existsb f (unset Z.eqb k m) = false.
Proof.
  intros f k m H. destruct (existsb f (unset Z.eqb k m)) eqn:E; [|reflexivity].
  apply existsb_exists in E. destruct E as (x & Hx & Fx). apply filter_In in Hx.
  assert (existsb f m = true) by (apply existsb_exists; exists x; tauto). congruence.
Qed.

Lemma no_null_step : forall t c t', no_null c -> ~ nulls t -> after t c = Ok t' -> ~ nulls t'.
Proof.
  unfold nulls. intros t c t' N H E. apply not_true_is_false in H.
  assert (R : forall t k, existsb (fun kp => snd kp =? 0) (objs t) = false ->
            existsb (fun kp => snd kp =? 0) (objs (snd (fst (remove t k)))) = false).
  { intros t0 k H0. unfold remove. destruct (lookup Z.eqb k (dict t0)); [|assumption].
    cbn [fst snd objs]. apply existsb_unset. assumption. }
  apply not_true_iff_false. destruct c; cbn [after no_null] in *.
  - apply Ok_inj in E; subst t'. destruct (put_eq t k n obj) as (c & -> & _). cbn [objs]. unfold set. cbn [existsb snd].
    rewrite existsb_unset by assumption. destruct (obj =? 0) eqn:E0; [lia|reflexivity].
  - apply Ok_inj in E; subst t'. unfold get. destruct (lookup Z.eqb k (dict t)); assumption.
  - contradiction.
  - apply Ok_inj in E; subst t'. unfold get_by_name. destruct (lookup String.eqb n (inv t)); assumption.
  - apply Ok_inj in E; subst t'. assumption.
  - apply Ok_inj in E; subst t'. assumption.
  - apply Ok_inj in E; subst t'. unfold check_count. destruct (lookup Z.eqb k (cnt t)) as [c|]; [|assumption].
    cbn [snd]. destruct (c =? 0); assumption.
  - apply Ok_inj in E; subst t'. auto.
  - apply Ok_inj in E; subst t'. unfold remove_by_name. destruct (lookup String.eqb n (inv t)); [|assumption].
    destruct (check t z); cbn [fst snd objs]; [apply existsb_unset|]; assumption.
  - apply Ok_inj in E; subst t'. unfold erase, check_count. destruct (lookup Z.eqb k (cnt t)) as [c|]; [|assumption].
    destruct (c =? 0); (destruct (0 <? c); [|exact H]);
      (set (t2 := Tab _ _ _ _); destruct (c - 1 =? 0); [|exact H];
       destruct (remove t2 k) as [[r t3] del] eqn:Er; cbn [fst snd];
       replace t3 with (snd (fst (remove t2 k))) by (rewrite Er; reflexivity); apply R; exact H).
  - unfold reset in E. rewrite H in E. cbn [bind fst] in E. apply Ok_inj in E; subst t'. reflexivity.
Qed.

Lemma no_null_all : forall cs t, Forall no_null cs -> ~ nulls t ->
  exists t', after_all t cs = Ok t' /\ ~ nulls t'.
Proof.
  induction cs as [|c cs IH]; intros t F N; [exists t; auto|]. inversion F; subst. cbn [after_all].
  assert (exists t1, after t c = Ok t1) as (t1 & E).
  { destruct c; try (apply after_ok; discriminate). cbn [after]. unfold reset.
    apply not_true_is_false in N. rewrite N. cbn [bind]. eauto. }
  rewrite E. cbn [bind]. apply IH; [assumption|]. eapply no_null_step; eauto.
Qed.

Lemma reset_defined : forall cs, Forall no_null cs -> exists t, after_all empty_table cs = Ok t.
Proof.
  intros cs F. destruct (no_null_all cs empty_table F) as (t & E & _); [discriminate|]. eauto.
Qed.

Lemma reset_undefined :
  ~ (forall cs, (forall k n o, In (Put k n o) cs -> o <> 0) -> exists t, after_all empty_table cs = Ok t).
Proof.
  intros H. destruct (H [GetObject 5; Reset (fun _ => true)]) as (t & E).
  { intros k n o [X|[X|[]]]; discriminate. }
  vm_compute in E. discriminate.
Qed.
