(* The symbol table through histories and sessions. *)
From Coq Require Import ZArith String Ascii List Bool Lia.
From Verif Require Import Base Enums Term Maps MapsFacts Compound CompoundSpec CompoundFacts Actions PrinterSpec Forms Sessions SessionsSpec SessionsFacts.
From Verif Require Import Interning InterningSpec InterningFacts InterningFacts2 InterningFacts3.
Import ListNotations.
Open Scope string_scope.
Open Scope list_scope.
Open Scope Z_scope.

Lemma held_by_atoms v : atoms_of v = held_by v.
Proof. destruct v; cbn [atoms_of held_by]; try reflexivity; apply atoms_in_addresses. Qed.

(* ---- single steps ---- *)
Record fit (w : world) : Prop := Fit { fit_sane : sane w; fit_tight : tight w; fit_nonzero : nonzero w }.

Lemma fit_start : fit world0.
Proof. constructor; [exact sane_start|intros k n H; discriminate H|intros k n H; discriminate H]. Qed.

Lemma unset_absent {V} p (m : list (Z * V)) : lookup Z.eqb p m = None -> unset Z.eqb p m = m.
Proof.
  induction m as [|[q v] m IH]; cbn [lookup unset filter]; [reflexivity|]. cbn [fst].
  destruct (p =? q); [discriminate|]. intros H. cbn [negb]. f_equal. apply IH. exact H.
Qed.

Lemma register_population w n a h : sane w -> population (add_handle (register w n a) h) = population w + 2.
Proof.
  intros G. unfold population. cbn [add_handle register held handles length set].
  unfold set. rewrite unset_absent; [cbn [length]; lia|].
  destruct (lookup Z.eqb (next w) (held w)) eqn:E; [|reflexivity]. pose proof (s_next _ G _ _ E). lia.
Qed.

Lemma fit_register w n a : fit w -> well_placed w a ->
  lookup String.eqb n (inv (tab w)) = None \/ (exists m, n = String "^"%char m) ->
  fit (add_handle (register w n a) (Hd a n)).
Proof.
  intros [G T N] [Ap K] C. constructor; [apply sane_register; assumption|apply tight_register; assumption|].
  intros k m. cbn [add_handle register tab]. rewrite (proj1 (put_entries (tab w) (key_of a) n (next w))).
  destruct (k =? key_of a) eqn:E; [apply Z.eqb_eq in E; congruence|apply N].
Qed.

Lemma fit_add w h : fit w -> sane (add_handle w h) -> fit (add_handle w h).
Proof. intros [G T N] S. constructor; [exact S|apply tight_add; exact T|exact N]. Qed.

Lemma fit_create w n a : fit w -> well_placed w a -> exists w' h, create w n a = Ok w' /\ fit w' /\
  handles w' = h :: handles w /\ hname h = n /\ population w < population w'.
Proof.
  intros F P. pose proof (fit_sane w F) as G. unfold create, check_by_name, has.
  destruct (lookup String.eqb n (inv (tab w))) as [k|] eqn:En.
  - unfold get_by_name. rewrite En. destruct (sane_again w n k G En) as (p & b & E1 & E2 & Np & _ & G').
    unfold get_object. rewrite E1. unfold deref. apply Z.eqb_neq in Np. rewrite Np. cbn [with_tab held]. rewrite E2. cbn [bind].
    replace (with_tab w (tab w)) with w by (destruct w; reflexivity).
    exists (add_handle w (Hd b n)), (Hd b n). split; [reflexivity|]. split; [apply fit_add; assumption|].
    split; [reflexivity|]. split; [reflexivity|]. unfold population. cbn [add_handle held handles length]. lia.
  - exists (add_handle (register w n a) (Hd a n)), (Hd a n). split; [reflexivity|].
    split; [apply fit_register; auto|]. split; [reflexivity|]. split; [reflexivity|]. rewrite register_population by exact G. lia.
Qed.

Lemma fit_parse_op w n a : fit w -> well_placed w a -> parse_op w n a = UB \/ exists w' h, parse_op w n a = Ok w' /\ fit w' /\
  handles w' = h :: handles w /\ hname h = String "^" n /\ population w < population w'.
Proof.
  intros F P. pose proof (fit_sane w F) as G. unfold parse_op, check_by_name, has.
  destruct (lookup String.eqb n (inv (tab w))) as [k0|] eqn:E0.
  - unfold get_by_name. destruct (lookup String.eqb (String "^"%char n) (inv (tab w))) as [k|] eqn:En.
    + destruct (sane_again w _ k G En) as (p & b & E1 & E2 & Np & _ & G').
      unfold get_object. rewrite E1. unfold deref. apply Z.eqb_neq in Np. rewrite Np. cbn [with_tab held]. rewrite E2. cbn [bind].
      replace (with_tab w (tab w)) with w by (destruct w; reflexivity).
      right. exists (add_handle w (Hd b (String "^"%char n))), (Hd b (String "^"%char n)).
      split; [reflexivity|]. split; [apply fit_add; assumption|].
      split; [reflexivity|]. split; [reflexivity|]. unfold population. cbn [add_handle held handles length]. lia.
    + left. unfold get_object. cbn [objs].
      destruct (lookup Z.eqb 0 (objs (tab w))) as [p|] eqn:Eo; [|reflexivity]. exfalso.
      destruct (lookup Z.eqb 0 (dict (tab w))) as [m|] eqn:Ed; [apply (fit_nonzero _ F _ _ Ed); reflexivity|].
      apply (s_objs _ G _ _ Eo Ed).
  - right. exists (add_handle (register w (String "^"%char n) a) (Hd a (String "^"%char n))), (Hd a (String "^"%char n)).
    split; [reflexivity|]. split; [apply fit_register; eauto|].
    split; [reflexivity|]. split; [reflexivity|]. rewrite register_population by exact G. lia.
Qed.

Lemma fit_drop w i h : fit w -> nth_error (handles w) i = Some h ->
  exists w', act_on w (Drop i) = Ok w' /\ handles w' = remove_nth i (handles w) /\ fit w' /\
    (forall k n, lookup Z.eqb k (dict (tab w')) = Some n -> lookup Z.eqb k (dict (tab w)) = Some n).
Proof.
  intros [G T N] E. destruct (sane_drop w i h G E) as (w' & E' & H & G' & T'). exists w'. split; [exact E'|]. split; [exact H|].
  assert (D : forall k n, lookup Z.eqb k (dict (tab w')) = Some n -> lookup Z.eqb k (dict (tab w)) = Some n).
  { intros k n. exact (drop_dict w i w' k n E' G). }
  split; [|exact D]. constructor; [exact G'|exact (T' T)|]. intros k n H'. apply (N k n). apply D. exact H'.
Qed.

Lemma fit_copy w h : fit w -> In h (handles w) -> fit (add_handle w h).
Proof.
  intros F H. apply fit_add; [exact F|]. destruct F as [G _ _]. apply sane_add; [exact G|apply G; exact H|].
  right. apply in_map. exact H.
Qed.

(* ---- histories ---- *)
Lemma history_fit w : history no_assign well_placed w -> fit w.
Proof.
  induction 1 as [|w x w' Hw F Bx Pl E]; [exact fit_start|].
  destruct x as [n a|i|i|i j|n a]; cbn [no_assign] in Bx; try contradiction.
  - destruct (fit_create w n a F) as (w2 & h & E2 & F2 & _); [apply (Pl n); auto|].
    cbn [act_on] in E. rewrite E2 in E. apply Ok_inj in E. subst. exact F2.
  - cbn [act_on] in E. destruct (nth_error (handles w) i) as [h|] eqn:Ei; [|discriminate E].
    apply nth_error_In in Ei. apply Ok_inj in E. subst. apply fit_copy; assumption.
  - destruct (nth_error (handles w) i) as [h|] eqn:Ei.
    + destruct (fit_drop w i h F Ei) as (w2 & E2 & _ & F2 & _). rewrite E2 in E. apply Ok_inj in E. subst. exact F2.
    + cbn [act_on] in E. rewrite Ei in E. discriminate E.
  - destruct (fit_parse_op w n a F) as [U|(w2 & h & E2 & F2 & _)]; [apply (Pl n); auto| |];
      cbn [act_on] in E; [rewrite U in E; discriminate E|rewrite E2 in E; apply Ok_inj in E; subst; exact F2].
Qed.

Lemma fit_keys w k : fit w -> check (tab w) k = true <-> exists h, In h (handles w) /\ key_of (hat h) = k.
Proof.
  intros [G T N]. unfold check. rewrite has_iff. split.
  - intros (n & En). destruct (T _ _ En) as (a & E3 & E4). exists (Hd a n). auto.
  - intros (h & H & <-). exists (hname h). apply (s_handles _ G). assumption.
Qed.

Lemma fit_objects w k p : fit w -> lookup Z.eqb k (objs (tab w)) = Some p ->
  exists h, In h (handles w) /\ key_of (hat h) = k /\ lookup Z.eqb p (held w) = Some (hat h).
Proof.
  intros [G T N] E. destruct (lookup Z.eqb k (dict (tab w))) as [n|] eqn:En.
  - destruct (T _ _ En) as (a & E3 & E4). exists (Hd a n). cbn [hat].
    split; [assumption|]. split; [assumption|].
    destruct (sane_pointer w _ G E4) as (q & Q1 & Q2 & _). cbn [hat] in *. rewrite E3 in Q1. congruence.
  - destruct (s_objs _ G _ _ E). assumption.
Qed.

Lemma fit_live w a : fit w -> live w a <-> exists h, In h (handles w) /\ hat h = a.
Proof.
  intros F. pose proof (fit_sane w F) as G. split.
  - intros [L|L].
    + apply in_map_iff in L. destruct L as ([p b] & Eb & L). cbn in Eb. subst b.
      apply (in_lookup _ zok) in L; [|apply G]. pose proof (s_held _ G _ _ L) as Eo.
      destruct (fit_objects _ _ _ F Eo) as (h & H & _ & E2). exists h. split; [assumption|]. congruence.
    + apply in_map_iff in L. destruct L as (h & E & H). eauto.
  - intros (h & H & <-). right. apply in_map. assumption.
Qed.

Lemma fit_empty w : fit w -> handles w = [] -> tab w = empty_table /\ held w = [].
Proof.
  intros F Hh. pose proof (fit_sane w F) as G. pose proof (fit_tight w F) as T.
  assert (Nk : forall k, lookup Z.eqb k (dict (tab w)) = None).
  { intros k. destruct (lookup Z.eqb k (dict (tab w))) as [n|] eqn:En; [|reflexivity].
    destruct (T _ _ En) as (a & _ & E4). rewrite Hh in E4. destruct E4. }
  assert (E1 : dict (tab w) = []) by (apply (lookup_none_empty _ zok); exact Nk).
  assert (E2 : objs (tab w) = []).
  { apply (lookup_none_empty _ zok). intros k. destruct (lookup Z.eqb k (objs (tab w))) eqn:Ek; [|reflexivity].
    destruct (s_objs _ G _ _ Ek). apply Nk. }
  assert (E3 : inv (tab w) = []).
  { apply (lookup_none_empty _ sok). intros n. destruct (lookup String.eqb n (inv (tab w))) eqn:Ek; [|reflexivity].
    apply (s_inv _ G) in Ek. rewrite Nk in Ek. discriminate. }
  assert (E4 : cnt (tab w) = []).
  { apply (lookup_none_empty _ zok). intros k. rewrite (s_cnt _ G), Nk. reflexivity. }
  assert (E5 : held w = []).
  { apply (lookup_none_empty _ zok). intros p. destruct (lookup Z.eqb p (held w)) eqn:Ek; [|reflexivity].
    apply (s_held _ G) in Ek. rewrite E2 in Ek. discriminate. }
  split; [|assumption]. destruct (tab w). cbn in *. subst. reflexivity.
Qed.

(* C123 *)
Theorem nothing_left w : history no_assign well_placed w ->
  (forall i, (i < length (handles w))%nat -> exists w', act_on w (Drop i) = Ok w' /\ handles w' = remove_nth i (handles w)) /\
  (forall k, check (tab w) k = true <-> exists h, In h (handles w) /\ key_of (hat h) = k) /\
  (forall a, live w a <-> exists h, In h (handles w) /\ hat h = a) /\
  (handles w = [] -> tab w = empty_table /\ held w = []).
Proof.
  intros H. apply history_fit in H. split; [|split; [|split]].
  - intros i L. destruct (nth_error (handles w) i) as [h|] eqn:E; [|apply nth_error_None in E; lia].
    destruct (fit_drop w i h H E) as (w' & E1 & E2 & _). eauto.
  - intros k. apply fit_keys. exact H.
  - intros a. apply fit_live. exact H.
  - apply fit_empty. exact H.
Qed.

(* C122 *)
Theorem names_held w : history no_assign well_placed w ->
  (forall h, In h (handles w) -> lookup Z.eqb (key_of (hat h)) (dict (tab w)) = Some (hname h)) /\
  (forall n, check_by_name (tab w) n = true -> exists h, In h (handles w) /\ hname h = n) /\
  (forall n, ~ operator_name n -> check_by_name (tab w) n = true <-> exists h, In h (handles w) /\ hname h = n).
Proof.
  intros H. apply history_fit in H. pose proof (fit_sane w H) as G.
  assert (A : forall n, check_by_name (tab w) n = true -> exists h, In h (handles w) /\ hname h = n).
  { intros n. unfold check_by_name. rewrite has_iff. intros (k & Ek). apply (s_inv _ G) in Ek.
    destruct (fit_tight _ H _ _ Ek) as (a & E3 & E4). exists (Hd a n). auto. }
  split; [apply G|]. split; [exact A|]. intros n N. split; [apply A|]. intros (h & Hh & <-).
  unfold check_by_name. rewrite has_iff. exists (key_of (hat h)). apply (s_names _ G); [|apply G; exact Hh].
  intros m E. apply N. exists m. exact E.
Qed.

(* ---- sessions ---- *)
Section Sessions.
Variable ord : list (option connector * list term) -> list (option connector * list term).
Hypothesis Horder : any_order ord.
Variable fresh : world -> Z.
Hypothesis Hfresh : thoughtful fresh.
Variable room : option nat.

(* Handing out atoms never makes the population smaller. *)
Lemma unset_length {V} p (m : list (Z * V)) : NoDup (map fst m) -> (length m <= S (length (unset Z.eqb p m)))%nat.
Proof.
  intros N. destruct (lookup Z.eqb p m) as [v|] eqn:E; [|rewrite unset_absent by exact E; lia].
  clear E v. induction m as [|[q v] m IH]; cbn [map fst] in N; [cbn; lia|]. apply NoDup_cons_iff in N as [Q N].
  cbn [unset filter length fst]. destruct (p =? q) eqn:E; cbn [negb].
  - apply Z.eqb_eq in E. subst q. fold (unset Z.eqb p m). rewrite unset_absent; [lia|].
    destruct (lookup Z.eqb p m) as [v'|] eqn:L; [|reflexivity]. apply (lookup_in _ zok) in L. apply (in_map fst) in L. contradiction.
  - cbn [length]. specialize (IH N). fold (unset Z.eqb p m). lia.
Qed.

Lemma step_population w n w' a : NoDup (map fst (held w)) ->
  create w n a = Ok w' \/ parse_op w n a = Ok w' -> NoDup (map fst (held w')) /\ population w <= population w'.
Proof.
  intros N.
  assert (R : forall m, w' = add_handle (register w m a) (Hd a m) -> NoDup (map fst (held w')) /\ population w <= population w').
  { intros m ->. split; [apply (set_keys _ zok); exact N|]. unfold population. cbn [add_handle register held handles length].
    unfold set. cbn [length]. pose proof (unset_length (next w) (held w) N). lia. }
  assert (K : forall m, (let (k, t1) := get_by_name (tab w) m in
    let (p, t2) := get_object t1 k in
    bind (deref (with_tab w t2) p) (fun a' => Ok (add_handle (with_tab w t2) (Hd a' m)))) = Ok w' ->
    NoDup (map fst (held w')) /\ population w <= population w').
  { intros m E. destruct (get_by_name (tab w) m) as [k t1]. destruct (get_object t1 k) as [p t2].
    destruct (deref (with_tab w t2) p) as [b| | |]; cbn [bind] in E; try discriminate E.
    apply Ok_inj in E. subst w'. split; [exact N|]. unfold population. cbn [add_handle with_tab held handles length]. lia. }
  intros [E|E].
  - unfold create in E. destruct (check_by_name (tab w) n); [exact (K _ E)|]. apply Ok_inj in E. symmetry in E. exact (R _ E).
  - unfold parse_op in E. cbv zeta in E. destruct (check_by_name (tab w) n); [exact (K _ E)|]. apply Ok_inj in E. symmetry in E. exact (R _ E).
Qed.

Lemma grows_population w hs w' : NoDup (map fst (held w)) -> grows fresh w hs w' ->
  NoDup (map fst (held w')) /\ population w <= population w'.
Proof.
  intros N G. induction G as [|hs w1 n w2 h G IH E Hh|hs w1 n w2 h G IH E Hh].
  - split; [exact N|lia].
  - destruct IH as (N1 & L1). destruct (step_population w1 n w2 (fresh w1) N1 (or_introl E)). split; [assumption|lia].
  - destruct IH as (N1 & L1). destruct (step_population w1 n w2 (fresh w1) N1 (or_intror E)). split; [assumption|lia].
Qed.

Lemma grows_fit w hs w' : fit w -> grows fresh w hs w' -> population w' < 4294967295 -> fit w'.
Proof using Hfresh.
  intros F G. pose proof (s_nodup _ (fit_sane _ F)) as N.
  induction G as [|hs w1 n w2 h G IH E Hh|hs w1 n w2 h G IH E Hh]; intros P; [exact F| |];
    destruct (grows_population _ _ _ N G) as (N1 & _).
  - destruct (step_population w1 n w2 (fresh w1) N1 (or_introl E)) as (_ & L).
    assert (P1 : population w1 < 4294967295) by lia.
    destruct (fit_create w1 n (fresh w1) (IH P1) (Hfresh w1 P1)) as (w3 & h3 & E3 & F3 & _).
    rewrite E in E3. apply Ok_inj in E3. subst w3. exact F3.
  - destruct (step_population w1 n w2 (fresh w1) N1 (or_intror E)) as (_ & L).
    assert (P1 : population w1 < 4294967295) by lia.
    destruct (fit_parse_op w1 n (fresh w1) (IH P1) (Hfresh w1 P1)) as [U|(w3 & h3 & E3 & F3 & _)]; [congruence|].
    rewrite E in E3. apply Ok_inj in E3. subst w3. exact F3.
Qed.

(* ---- sifting ---- *)
Definition within (keep : list Z) (h : handle) : bool := existsb (Z.eqb (hat h)) keep.

Lemma remove_middle {A} (a : list A) x b : remove_nth (length a) (a ++ x :: b) = a ++ b.
Proof. induction a as [|y a IH]; cbn; [reflexivity|]. f_equal. exact IH. Qed.

Lemma sift_spec keep : forall m l r w, fit w -> handles w = l ++ m ++ r ->
  exists w', sift keep (length l) (length m) w = Ok (length (filter (within keep) m), w') /\ fit w' /\
    handles w' = l ++ filter (within keep) m ++ r /\
    (forall k n, lookup Z.eqb k (dict (tab w')) = Some n -> lookup Z.eqb k (dict (tab w)) = Some n).
Proof.
  induction m as [|h m IH]; intros l r w F E; cbn [length sift filter].
  - exists w. split; [reflexivity|]. split; [exact F|]. split; [exact E|auto].
  - assert (X : nth_error (handles w) (length l) = Some h).
    { rewrite E, nth_error_app2, Nat.sub_diag by lia. reflexivity. }
    rewrite X. change (existsb (Z.eqb (hat h)) keep) with (within keep h). destruct (within keep h) eqn:K.
    + destruct (IH (l ++ [h]) r w F) as (w' & E' & F' & H' & D'); [rewrite E, <- app_assoc; reflexivity|].
      rewrite app_length in E'. cbn [length] in E'. rewrite Nat.add_1_r in E'. rewrite E'. cbn [bind].
      exists w'. split; [reflexivity|]. split; [exact F'|]. split; [rewrite H', <- app_assoc; reflexivity|exact D'].
    + destruct (fit_drop w (length l) h F X) as (w1 & E1 & H1 & F1 & D1). rewrite E1. cbn [bind].
      rewrite E in H1. cbn [app] in H1. rewrite remove_middle in H1.
      destruct (IH l r w1 F1 H1) as (w' & E' & F' & H' & D'). exists w'. split; [exact E'|]. split; [exact F'|].
      split; [exact H'|]. intros k n Hk. apply D1, D', Hk.
Qed.

(* ---- who owns which handles ---- *)
Inductive owns : list kept -> list handle -> Prop :=
| ow_none : owns [] []
| ow_more it its hs hs' : length hs = share it -> (forall a, In a (map hat hs) <-> In a (held_by (item it))) ->
    owns its hs' -> owns (it :: its) (hs ++ hs').

Lemma owns_nil hs : owns [] hs -> hs = [].
Proof. inversion 1. reflexivity. Qed.

Lemma owns_split its : forall hs i it, owns its hs -> nth_error its i = Some it ->
  exists l m r, hs = l ++ m ++ r /\ length l = before its i /\ length m = share it /\
    (forall a, In a (map hat m) <-> In a (held_by (item it))) /\ owns (remove_nth i its) (l ++ r).
Proof.
  induction its as [|x its IH]; intros hs [|i] it O E; cbn [nth_error] in E; try discriminate E.
  - injection E as <-. inversion O as [|? ? h1 h2 L C O']; subst. exists [], h1, h2. repeat split; try assumption; try apply C.
  - inversion O as [|? ? h1 h2 L C O']; subst. destruct (IH h2 i it O' E) as (l & m & r & -> & Ll & Lm & Cm & Or).
    exists (h1 ++ l), m, r. split; [rewrite <- app_assoc; reflexivity|].
    split; [rewrite app_length, L, Ll; reflexivity|]. split; [exact Lm|]. split; [exact Cm|].
    cbn [remove_nth]. rewrite <- app_assoc. constructor; assumption.
Qed.

Lemma owns_holds its : forall hs it a, owns its hs -> In it its -> In a (held_by (item it)) -> exists h, In h hs /\ hat h = a.
Proof.
  induction its as [|x its IH]; intros hs it a O I A; [destruct I|]. inversion O as [|? ? h1 h2 L C O']; subst.
  destruct I as [<-|I].
  - apply C in A. apply in_map_iff in A. destruct A as (h & <- & H). exists h. split; [apply in_or_app; auto|reflexivity].
  - destruct (IH h2 it a O' I A) as (h & H & E). exists h. split; [apply in_or_app; auto|exact E].
Qed.

Lemma owns_owner its : forall hs h, owns its hs -> In h hs -> exists it, In it its /\ In (hat h) (held_by (item it)).
Proof.
  induction its as [|x its IH]; intros hs h O I; inversion O as [|? ? h1 h2 L C O']; subst; [destruct I|].
  apply in_app_or in I. destruct I as [I|I].
  - exists x. split; [left; reflexivity|]. apply C, in_map. exact I.
  - destruct (IH h2 h O' I) as (it & A & B). exists it. split; [right; exact A|exact B].
Qed.

Record tidy_desk (d : desk) : Prop := {
  td_fit : fit (atoms (reader d));
  td_owns : owns (items d) (handles (atoms (reader d)))
}.

Lemma tidy_start st rest : atoms st = world0 -> tidy_desk (Desk st rest []).
Proof. intros E. constructor; cbn [reader items]; rewrite E; [exact fit_start|constructor]. Qed.

(* Reading *)
Lemma tidy_read d input d' : tidy_desk d -> uncrowded ord fresh room d (Read input) ->
  read_text ord fresh room d input = Ok d' ->
  tidy_desk d' /\ (forall h, In h (handles (atoms (reader d))) -> In h (handles (atoms (reader d')))) /\
  (items d' = items d \/ exists v k, items d' = Kept v k :: items d).
Proof using Hfresh Horder.
  intros [F O] U H. unfold read_text in H. cbn [uncrowded] in U.
  destruct (parse_task ord fresh room (reader d) (leftover d) input) as [[[[st rest] v] b]| | |] eqn:E; cbn [bind] in H; try discriminate H.
  destruct b; [discriminate H|]. destruct (parse_own ord Horder fresh _ _ _ _ _ _ _ E) as (hs & G & I).
  pose proof (grows_fit _ _ _ F G (U _ _ _ _ eq_refl)) as F'. pose proof (grows_handles _ _ _ _ G) as Hh.
  destruct v as [v|].
  - rewrite Hh, app_length in H. replace (length hs + length (handles (atoms (reader d))) - length (handles (atoms (reader d))))%nat with (length hs) in H by lia.
    destruct (sift_spec (atoms_of v) hs [] _ _ F' Hh) as (w' & E' & Fw & Hw & _). cbn [length app] in E', Hw. rewrite E' in H.
    cbn [bind] in H. apply Ok_inj in H. subst d'.
    split; [constructor; cbn [reader items with_atoms atoms]; [exact Fw|]|].
    + rewrite Hw. constructor; [reflexivity| |exact O]. intros a. cbn [item]. rewrite <- held_by_atoms. split.
      * intros A. apply in_map_iff in A. destruct A as (h & <- & A). apply filter_In in A. destruct A as (_ & A).
        unfold within in A. apply existsb_exists in A. destruct A as (x & Hx & Ex). apply Z.eqb_eq in Ex. congruence.
      * intros A. pose proof (I a A) as B. apply in_map_iff in B. destruct B as (h & <- & B). apply in_map_iff. exists h.
        split; [reflexivity|]. apply filter_In. split; [exact B|]. unfold within. apply existsb_exists. exists (hat h).
        split; [exact A|apply Z.eqb_refl].
    + cbn [reader with_atoms atoms items]. rewrite Hw. split; [intros h A; apply in_or_app; auto|]. right. eauto.
  - subst hs. apply Ok_inj in H. subst d'. cbn [app] in Hh.
    split; [constructor; cbn [reader items]; [exact F'|rewrite Hh; exact O]|]. cbn [reader items]. rewrite Hh. auto.
Qed.

Lemma sift_nothing m : filter (within []) m = [].
Proof. induction m as [|h m IH]; [reflexivity|exact IH]. Qed.

Lemma tidy_release d i it : tidy_desk d -> nth_error (items d) i = Some it ->
  exists d' l m r, release d i = Ok d' /\ tidy_desk d' /\ items d' = remove_nth i (items d) /\
    handles (atoms (reader d)) = l ++ m ++ r /\ handles (atoms (reader d')) = l ++ r /\
    leftover d' = leftover d /\ store (reader d') = store (reader d) /\ pending (reader d') = pending (reader d) /\
    operations (reader d') = operations (reader d).
Proof.
  intros [F O] E. destruct (owns_split _ _ _ _ O E) as (l & m & r & Hh & Ll & Lm & Cm & Or).
  destruct (sift_spec [] m l r _ F Hh) as (w' & E' & Fw & Hw & _). rewrite sift_nothing in Hw, E'. cbn [app length] in Hw, E'.
  unfold release. rewrite E, <- Ll, <- Lm, E'. cbn [bind]. eexists. exists l, m, r. split; [reflexivity|].
  split; [constructor; cbn [reader items with_atoms atoms]; [exact Fw|rewrite Hw; exact Or]|].
  repeat split; auto.
Qed.

Lemma tidy_take d s d' : tidy_desk d -> uncrowded ord fresh room d s -> take ord fresh room d s = Ok d' -> tidy_desk d'.
Proof using Hfresh Horder.
  intros T U E. destruct s as [input|i]; cbn [take] in E.
  - exact (proj1 (tidy_read _ _ _ T U E)).
  - destruct (nth_error (items d) i) as [it|] eqn:N.
    + destruct (tidy_release d i it T N) as (d2 & l & m & r & E2 & T2 & _). rewrite E in E2. apply Ok_inj in E2. subst d2. exact T2.
    + unfold release in E. rewrite N in E. discriminate E.
Qed.

Lemma reached_tidy d : reached ord fresh room d -> tidy_desk d.
Proof using Hfresh Horder.
  induction 1 as [st rest E|d s d' _ IH U E]; [apply tidy_start; exact E|]. exact (tidy_take _ _ _ IH U E).
Qed.

(* C124 *)
Theorem sessions_clean d : reached ord fresh room d ->
  (forall i, (i < length (items d))%nat -> exists d', take ord fresh room d (Release i) = Ok d' /\
     items d' = remove_nth i (items d) /\ leftover d' = leftover d /\ store (reader d') = store (reader d)) /\
  (items d = [] -> tab (atoms (reader d)) = empty_table /\ held (atoms (reader d)) = [] /\ handles (atoms (reader d)) = []).
Proof using Hfresh Horder.
  intros R. apply reached_tidy in R. split.
  - intros i L. destruct (nth_error (items d) i) as [it|] eqn:E; [|apply nth_error_None in E; lia].
    destruct (tidy_release d i it R E) as (d' & l & m & r & E' & _ & I & _ & _ & A & B & _). exists d'. auto.
  - intros E. destruct R as [F O]. rewrite E in O. apply owns_nil in O. destruct (fit_empty _ F O). auto.
Qed.

(* C125 *)
Theorem sessions_exact d : reached ord fresh room d ->
  (forall k, check (tab (atoms (reader d))) k = true <->
     exists it a, In it (items d) /\ In a (held_by (item it)) /\ key_of a = k) /\
  (forall a, live (atoms (reader d)) a <-> exists it, In it (items d) /\ In a (held_by (item it))) /\
  (forall n, check_by_name (tab (atoms (reader d))) n = true ->
     exists it a, In it (items d) /\ In a (held_by (item it)) /\ lookup Z.eqb (key_of a) (dict (tab (atoms (reader d)))) = Some n).
Proof using Hfresh Horder.
  intros R. apply reached_tidy in R. destruct R as [F O]. split; [|split].
  - intros k. rewrite (fit_keys _ k F). split.
    + intros (h & H & <-). destruct (owns_owner _ _ _ O H) as (it & A & B). eauto.
    + intros (it & a & A & B & <-). destruct (owns_holds _ _ _ _ O A B) as (h & H & <-). eauto.
  - intros a. rewrite (fit_live _ a F). split.
    + intros (h & H & <-). destruct (owns_owner _ _ _ O H) as (it & A & B). eauto.
    + intros (it & A & B). exact (owns_holds _ _ _ _ O A B).
  - intros n. unfold check_by_name. rewrite has_iff. intros (k & Ek). apply (s_inv _ (fit_sane _ F)) in Ek.
    destruct (fit_tight _ F _ _ Ek) as (a & E3 & E4). destruct (owns_owner _ _ _ O E4) as (it & A & B).
    exists it, a. split; [exact A|]. split; [exact B|]. rewrite E3. exact Ek.
Qed.

(* The names of the atoms in a result stay the same while it is kept. *)
Lemma names_stay d s d' it : tidy_desk d -> uncrowded ord fresh room d s -> take ord fresh room d s = Ok d' ->
  (exists i, nth_error (items d) i = Some it /\ s <> Release i) ->
  In it (items d') /\ forall a, In a (held_by (item it)) -> exists n,
    lookup Z.eqb (key_of a) (dict (tab (atoms (reader d)))) = Some n /\
    lookup Z.eqb (key_of a) (dict (tab (atoms (reader d')))) = Some n.
Proof using Hfresh Horder.
  intros T U E (i & Ni & Ns).
  pose proof (nth_error_In _ _ Ni) as Ii.
  assert (X : In it (items d') /\ forall a, In a (held_by (item it)) ->
    exists h, In h (handles (atoms (reader d))) /\ In h (handles (atoms (reader d'))) /\ hat h = a).
  { destruct s as [input|j]; cbn [take] in E.
    - destruct (tidy_read _ _ _ T U E) as (_ & K & I). split; [destruct I as [->|(v & k & ->)]; [exact Ii|right; exact Ii]|].
      intros a Ha. destruct (owns_holds _ _ _ _ (td_owns _ T) Ii Ha) as (h & Hh & <-). exists h. auto.
    - destruct (nth_error (items d) j) as [jt|] eqn:Nj; [|unfold release in E; rewrite Nj in E; discriminate E].
      destruct (tidy_release d j jt T Nj) as (d2 & l & m & r & E2 & T2 & I2 & H1 & H2 & _). rewrite E in E2. apply Ok_inj in E2. subst d2.
      assert (In it (items d')).
      { rewrite I2. clear - Ni Ns. revert i j Ni Ns. induction (items d) as [|x its IH]; intros [|i] [|j] Ni Ns; cbn in *; try discriminate Ni; auto.
        - congruence.
        - left. congruence.
        - eapply nth_error_In. exact Ni.
        - right. apply (IH i j Ni). congruence. }
      split; [assumption|]. intros a Ha. destruct (owns_holds _ _ _ _ (td_owns _ T2) H Ha) as (h & Hh & <-).
      exists h. split; [|split; [exact Hh|reflexivity]]. rewrite H2 in Hh. rewrite H1. apply in_app_or in Hh.
      apply in_or_app. destruct Hh; [auto|right; apply in_or_app; auto]. }
  destruct X as (X & Y). split; [exact X|]. intros a Ha. destruct (Y a Ha) as (h & H1 & H2 & <-). exists (hname h).
  split; [apply (s_handles _ (fit_sane _ (td_fit _ T))); exact H1|].
  apply (s_handles _ (fit_sane _ (td_fit _ (tidy_take _ _ _ T U E)))). exact H2.
Qed.
End Sessions.
