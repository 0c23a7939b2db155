(* Proofs about the objects of the symbol table. *)
From Coq Require Import ZArith List Bool String Permutation Lia.
From Verif Require Import Base Maps MapsFacts Interning InterningSpec TableSpec.
Import ListNotations.
Local Open Scope Z_scope.

(* Objects that a call makes the table forget *)
Definition dropped (t : table) (c : call) : list Z :=
  match c with
  | Put k _ _ => match lookup Z.eqb k (objs t) with Some p => [p] | None => [] end
  | Reset alone => filter (fun p => negb (alone p)) (map snd (objs t))
  | _ => []
  end.
Fixpoint dropped_all (t : table) (cs : list call) : list Z :=
  match cs with
  | [] => []
  | c :: cs' => dropped t c ++ match after t c with Ok t' => dropped_all t' cs' | _ => [] end
  end.

Definition keyed (t : table) : Prop := NoDup (map fst (objs t)).
Definition found (k : Z) (l : list (Z * Z)) : list Z := match lookup Z.eqb k l with Some p => [p] | None => [] end.

Lemma unset_absent : forall k (l : list (Z * Z)), ~ In k (map fst l) -> unset Z.eqb k l = l.
Proof.
  intros k l. induction l as [|[k' v] l IH]; intros H; [reflexivity|]. cbn in *.
  destruct (Z.eqb_spec k k') as [->|N]; [exfalso; apply H; left; reflexivity|]. cbn. f_equal. apply IH. tauto.
Qed.

Lemma lookup_absent : forall k (l : list (Z * Z)), lookup Z.eqb k l = None -> ~ In k (map fst l).
Proof.
  intros k l. induction l as [|[k' v] l IH]; cbn; intros H; [tauto|].
  destruct (Z.eqb_spec k k') as [->|N]; [discriminate|]. intros [E|I]; [congruence|]. exact (IH H I).
Qed.

Lemma found_unset : forall k (l : list (Z * Z)), NoDup (map fst l) ->
  Permutation (map snd l) (found k l ++ map snd (unset Z.eqb k l)).
Proof.
  intros k l. unfold found. induction l as [|[k' v] l IH]; intros H; [constructor|]. cbn [map fst snd] in *.
  apply NoDup_cons_iff in H. destruct H as [H1 H2]. cbn [lookup unset filter fst]. destruct (Z.eqb_spec k k') as [->|N]; cbn [negb].
  - change (filter (fun kv => negb (k' =? fst kv)) l) with (unset Z.eqb k' l). rewrite unset_absent by exact H1. reflexivity.
  - cbn [map snd]. change (filter (fun kv => negb (k =? fst kv)) l) with (unset Z.eqb k l).
    rewrite (IH H2) at 1. apply Permutation_middle.
Qed.

Lemma real_app : forall a b, real (a ++ b) = real a ++ real b.
Proof. intros a b. apply filter_app. Qed.

Lemma real_perm : forall a b, Permutation a b -> Permutation (real a) (real b).
Proof.
  intros a b H. induction H as [|x l l' H IH|x y l|l l' l'' H1 IH1 H2 IH2]; cbn.
  - constructor.
  - destruct (negb _); [constructor|]; exact IH.
  - destruct (negb (x =? 0)), (negb (y =? 0)); try constructor; apply Permutation_refl.
  - exact (perm_trans IH1 IH2).
Qed.

Lemma count_objs : forall t k, objs (snd (check_count t k)) = objs t.
Proof. intros t k. unfold check_count. destruct (lookup _ _ _) as [c|]; [|reflexivity]. cbn. destruct (c =? 0); reflexivity. Qed.

Lemma count_dict : forall t k, dict (snd (check_count t k)) = dict t.
Proof. intros t k. unfold check_count. destruct (lookup _ _ _) as [c|]; [|reflexivity]. cbn. destruct (c =? 0); reflexivity. Qed.

Lemma put_objs : forall t k n o, objs (put t k n o) = set Z.eqb k o (objs t).
Proof.
  intros t k n o. unfold put.
  pose proof (count_objs (Tab (set Z.eqb k n (dict t)) (set Z.eqb k o (objs t)) (set String.eqb n k (inv t)) (cnt t)) k) as E.
  destruct (check_count _ k) as [c t2]. exact E.
Qed.

(* remove, remove_by_name and erase: nothing, or one key with its object *)
Definition takes (t t' : table) (del : list Z) : Prop :=
  (objs t' = objs t /\ del = []) \/ exists k, objs t' = unset Z.eqb k (objs t) /\ del = found k (objs t).

Lemma remove_takes : forall t k, takes t (snd (fst (remove t k))) (snd (remove t k)).
Proof.
  intros t k. unfold remove. destruct (lookup Z.eqb k (dict t)) as [n|]; cbn; [right|left; split; reflexivity].
  exists k. split; reflexivity.
Qed.

Lemma remove_name_takes : forall t n, takes t (snd (fst (remove_by_name t n))) (snd (remove_by_name t n)).
Proof.
  intros t n. unfold remove_by_name. destruct (lookup String.eqb n (inv t)) as [k|]; [|left; split; reflexivity].
  destruct (check t k); [right|left; split; reflexivity]. exists k. split; reflexivity.
Qed.

Lemma erase_takes : forall t k, takes t (snd (fst (erase t k))) (snd (erase t k)).
Proof.
  intros t k. unfold erase. pose proof (count_objs t k) as E. destruct (check_count t k) as [c t1]. cbn in E.
  destruct (0 <? c); [|left; cbn; auto].
  destruct (c - 1 =? 0); [|left; cbn; auto].
  pose proof (remove_takes (Tab (dict t1) (objs t1) (inv t1) (set Z.eqb k (c - 1) (cnt t1))) k) as R.
  destruct (remove _ k) as [[b t3] del]. cbn in *. unfold takes in *. cbn [objs] in R. rewrite E in R. exact R.
Qed.

Lemma takes_balance : forall t t' del, keyed t -> takes t t' del ->
  keyed t' /\ Permutation (map snd (objs t)) (map snd (objs t') ++ del).
Proof.
  intros t t' del K [[E ->]|(k & E & ->)]; unfold keyed in *; rewrite E.
  - split; [exact K|]. rewrite app_nil_r. apply Permutation_refl.
  - split; [apply (unset_keys Z.eqb); exact K|]. rewrite (found_unset k _ K) at 1. apply Permutation_app_comm.
Qed.

Lemma filter_split : forall (f : Z -> bool) l, Permutation l (filter f l ++ filter (fun p => negb (f p)) l).
Proof.
  intros f l. induction l as [|x l IH]; [constructor|]. cbn. destruct (f x); cbn.
  - constructor. exact IH.
  - rewrite IH at 1. apply Permutation_middle.
Qed.

Lemma call_balance : forall t c t', keyed t -> after t c = Ok t' ->
  keyed t' /\ Permutation (holding t ++ real (given c)) (holding t' ++ real (freed t c) ++ real (dropped t c)).
Proof.
  intros t c t' K E. unfold holding.
  assert (same : objs t' = objs t -> given c = [] -> freed t c = [] -> dropped t c = [] ->
    keyed t' /\ Permutation (real (map snd (objs t)) ++ real (given c)) (real (map snd (objs t')) ++ real (freed t c) ++ real (dropped t c))).
  { intros E1 E2 E3 E4. unfold keyed. rewrite E1, E2, E3, E4. split; [exact K|]. cbn. apply Permutation_refl. }
  assert (tk : takes t t' (freed t c) -> given c = [] -> dropped t c = [] ->
    keyed t' /\ Permutation (real (map snd (objs t)) ++ real (given c)) (real (map snd (objs t')) ++ real (freed t c) ++ real (dropped t c))).
  { intros T E2 E4. destruct (takes_balance _ _ _ K T) as [K' P]. split; [exact K'|]. rewrite E2, E4. cbn [real filter].
    rewrite !app_nil_r, <- real_app. apply real_perm. exact P. }
  destruct c as [k n o|k|k|n|k|n|k|k|n|k|alone]; cbn [after] in E; try (injection E as <-).
  - cbn [freed dropped given]. unfold keyed. rewrite put_objs. split; [apply (set_keys Z.eqb Z.eqb_eq); exact K|].
    unfold set. cbn [map snd]. cbn [app].
    rewrite <- (app_nil_l (real _)). rewrite <- !real_app. cbn [app]. change (real [] ++ ?x) with x.
    rewrite <- real_app. apply real_perm. rewrite (found_unset k _ K) at 1. unfold found.
    destruct (lookup Z.eqb k (objs t)) as [p|]; cbn [app].
    + rewrite app_comm_cons. rewrite Permutation_app_comm. cbn [app].
      apply Permutation_cons; [reflexivity|]. apply Permutation_cons_append.
    + rewrite app_nil_r. rewrite Permutation_app_comm. apply Permutation_refl.
  - apply same; try reflexivity. unfold get. destruct (lookup _ _ _); reflexivity.
  - cbn [freed dropped given]. unfold get_object. destruct (lookup Z.eqb k (objs t)) as [p|] eqn:L; cbn [snd objs].
    + split; [exact K|]. rewrite !app_nil_r. apply Permutation_refl.
    + unfold keyed. cbn [objs]. split; [apply (set_keys Z.eqb Z.eqb_eq); exact K|]. unfold set. cbn [map snd real filter Z.eqb negb app].
      rewrite (unset_absent _ _ (lookup_absent _ _ L)), !app_nil_r. apply Permutation_refl.
  - apply same; try reflexivity. unfold get_by_name. destruct (lookup _ _ _); reflexivity.
  - apply same; reflexivity.
  - apply same; reflexivity.
  - apply same; try reflexivity. apply count_objs.
  - apply tk; try reflexivity. apply remove_takes.
  - apply tk; try reflexivity. apply remove_name_takes.
  - apply tk; try reflexivity. apply erase_takes.
  - cbn [freed dropped given]. unfold reset in *. destruct (existsb _ _); [discriminate|]. cbn [bind fst snd] in *. injection E as <-.
    unfold keyed. cbn. split; [constructor|]. rewrite app_nil_r, <- real_app. apply real_perm. apply filter_split.
Qed.

Lemma run_balance : forall cs t t', keyed t -> after_all t cs = Ok t' ->
  keyed t' /\ Permutation (holding t ++ real (flat_map given cs)) (holding t' ++ real (freed_all t cs) ++ real (dropped_all t cs)).
Proof.
  induction cs as [|c cs IH]; intros t t' K E.
  - cbn in E. injection E as <-. split; [exact K|]. cbn. apply Permutation_refl.
  - cbn [after_all] in E. destruct (after t c) as [t1| | |] eqn:E1; try discriminate. cbn [bind] in E.
    destruct (call_balance t c t1 K E1) as [K1 P1]. destruct (IH t1 t' K1 E) as [K2 P2]. split; [exact K2|].
    cbn [flat_map freed_all dropped_all]. rewrite E1, !real_app, app_assoc, P1.
    rewrite <- !app_assoc.
    transitivity ((holding t1 ++ real (flat_map given cs)) ++ real (freed t c) ++ real (dropped t c)).
    + rewrite <- !app_assoc. apply Permutation_app_head.
      rewrite (app_assoc (real (freed t c))), (Permutation_app_comm (real (freed t c) ++ _)). apply Permutation_refl.
    + rewrite P2. rewrite <- !app_assoc. apply Permutation_app_head.
      rewrite (app_assoc (real (freed t c))).
      transitivity ((real (freed t c) ++ real (dropped t c)) ++ real (freed_all t1 cs) ++ real (dropped_all t1 cs)).
      * rewrite app_assoc. rewrite Permutation_app_comm. apply Permutation_refl.
      * rewrite <- !app_assoc. apply Permutation_app_head.
        rewrite !app_assoc. apply Permutation_app_tail. apply Permutation_app_comm.
Qed.

Lemma empty_keyed : keyed empty_table.
Proof. constructor. Qed.

Lemma all_balance : forall cs t, after_all empty_table cs = Ok t ->
  Permutation (real (flat_map given cs)) (holding t ++ real (freed_all empty_table cs) ++ real (dropped_all empty_table cs)).
Proof. intros cs t E. exact (proj2 (run_balance cs empty_table t empty_keyed E)). Qed.

Lemma nodup_app_l : forall (a b : list Z), NoDup (a ++ b) -> NoDup a.
Proof. intros a b. induction a as [|x a IH]; intros H; [constructor|]. inversion_clear H as [|y l N H1]. constructor; [rewrite in_app_iff in N; tauto|auto]. Qed.

Theorem deleted_once : forall cs t, after_all empty_table cs = Ok t -> NoDup (real (flat_map given cs)) ->
  NoDup (holding t ++ real (freed_all empty_table cs)) /\
  incl (holding t ++ real (freed_all empty_table cs)) (flat_map given cs).
Proof.
  intros cs t E N. pose proof (all_balance cs t E) as P. rewrite app_assoc in P. split.
  - apply (nodup_app_l _ (real (dropped_all empty_table cs))). exact (Permutation_NoDup P N).
  - intros p I. assert (J : In p (real (flat_map given cs))).
    { apply (Permutation_in p (Permutation_sym P)). apply in_or_app. left. exact I. }
    unfold real in J. apply filter_In in J. exact (proj1 J).
Qed.

Lemma careful_none : forall cs t, careful t cs -> real (dropped_all t cs) = [].
Proof.
  induction cs as [|c cs IH]; intros t H; [reflexivity|]. cbn [careful dropped_all] in *. destruct H as [H1 H2].
  rewrite real_app. assert (E : real (dropped t c) = []).
  { destruct c; try reflexivity; cbn [dropped].
    - rewrite H1. reflexivity.
    - assert (G : forall l, (forall p, In p (real l) -> alone p = true) -> real (filter (fun p => negb (alone p)) l) = []).
      { induction l as [|x l IHl]; intros G; [reflexivity|]. cbn in *. destruct (x =? 0) eqn:X.
        - destruct (alone x); cbn; [|rewrite X; cbn]; apply IHl; exact G.
        - rewrite (G x (or_introl eq_refl)). cbn. apply IHl. intros p I. apply G. right. exact I. }
      exact (G _ H1). }
  rewrite E. cbn [app]. destruct (after t c); try reflexivity. apply IH. exact H2.
Qed.

Theorem deleted_all : forall cs t, careful empty_table cs -> after_all empty_table cs = Ok t ->
  Permutation (real (flat_map given cs)) (holding t ++ real (freed_all empty_table cs)).
Proof.
  intros cs t C E. pose proof (all_balance cs t E) as P. rewrite (careful_none _ _ C), app_nil_r in P. exact P.
Qed.

Theorem reset_exact : forall t alone, ~ In 0 (map snd (objs t)) ->
  exists del, reset t alone = Ok (empty_table, del) /\
    forall p, In p del <-> In p (map snd (objs t)) /\ alone p = true.
Proof.
  intros t alone H. unfold reset. destruct (existsb _ (objs t)) eqn:E.
  - exfalso. apply existsb_exists in E. destruct E as ([k p] & I & Q). apply Z.eqb_eq in Q. cbn in Q. subst p.
    apply H. apply in_map_iff. exists (k, 0). split; [reflexivity|exact I].
  - eexists. split; [reflexivity|]. intros p. apply filter_In.
Qed.

Theorem reset_null : forall t alone, In 0 (map snd (objs t)) -> after t (Reset alone) = UB.
Proof.
  intros t alone H. cbn [after]. unfold reset. apply in_map_iff in H. destruct H as ([k p] & Q & I). cbn in Q. subst p.
  assert (E : existsb (fun kp => snd kp =? 0) (objs t) = true) by (apply existsb_exists; exists (k, 0); split; [exact I|reflexivity]).
  rewrite E. reflexivity.
Qed.

Theorem call_results : forall t,
  (forall k, fst (fst (remove t k)) = check t k) /\
  (forall n, fst (fst (remove_by_name t n)) = check_by_name t n) /\
  (forall k, fst (fst (erase t k)) = match lookup Z.eqb k (cnt t) with Some c => 0 <? c | None => false end) /\
  (forall n k, lookup String.eqb n (inv t) = Some k -> check t k = false -> snd (remove_by_name t n) = []).
Proof.
  intros t. split; [|split; [|split]].
  - intros k. unfold remove, check, has. destruct (lookup _ _ _); reflexivity.
  - intros n. unfold remove_by_name, check_by_name, has. destruct (lookup _ n _) as [k|]; [|reflexivity]. destruct (check t k); reflexivity.
  - intros k. unfold erase, check_count. destruct (lookup Z.eqb k (cnt t)) as [c|]; [|reflexivity].
    destruct (0 <? c) eqn:E; [|reflexivity]. destruct (c - 1 =? 0); [|reflexivity]. destruct (remove _ k) as [[b t3] del]. reflexivity.
  - intros n k E F. unfold remove_by_name. rewrite E, F. reflexivity.
Qed.

(* An object that is replaced is lost *)
Theorem object_lost : exists cs t p, after_all empty_table cs = Ok t /\ In p (real (flat_map given cs)) /\
  NoDup (flat_map given cs) /\ holding t = [] /\ ~ In p (freed_all empty_table cs).
Proof.
  exists [Put 1 "a"%string 5; Put 1 "a"%string 6; Erase 1; Erase 1], empty_table, 5.
  split; [vm_compute; reflexivity|]. split; [vm_compute; auto|]. split.
  - vm_compute. repeat constructor; cbn; intuition discriminate.
  - split; [reflexivity|]. vm_compute. intuition discriminate.
Qed.

Lemma table_run : exists t, after_all empty_table [Put 1 "a"%string 5; Put 2 "b"%string 6; GetObject 3; Erase 1; Put 1 "c"%string 7; RemoveByName "b"%string] = Ok t /\
  careful empty_table [Put 1 "a"%string 5; Put 2 "b"%string 6; GetObject 3; Erase 1; Put 1 "c"%string 7; RemoveByName "b"%string] /\
  holding t = [7] /\
  freed_all empty_table [Put 1 "a"%string 5; Put 2 "b"%string 6; GetObject 3; Erase 1; Put 1 "c"%string 7; RemoveByName "b"%string] = [5; 6].
Proof. eexists. split; [vm_compute; reflexivity|]. split; [vm_compute; tauto|]. split; vm_compute; reflexivity. Qed.
