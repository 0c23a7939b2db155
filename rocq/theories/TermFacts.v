(* Facts about hashing, equality and ordering of terms. *)
From Coq Require Import ZArith List Bool Lia.
From Verif Require Import Base Hash Enums Term TermSpec.
Import ListNotations.
Local Open Scope Z_scope.

Arguments hash_container : simpl never.
Arguments combine : simpl never.
Arguments size_t : simpl never.

Lemma hash2 x y : hash_container [x; y] = combine (combine 0 x) y.
Proof. reflexivity. Qed.

Section TermInd.
  Variable P : term -> Prop.
  Hypothesis Hatom : forall op a, P (Atom op a).
  Hypothesis Hvar : forall k i, P (Var k i).
  Hypothesis Hitv : forall n, P (Itv n).
  Hypothesis Hstmt : forall c s p, P s -> P p -> P (Stmt c s p).
  Hypothesis Hcomp : forall c l, Forall P l -> P (Comp c l).
  Fixpoint term_ind' (t : term) : P t :=
    match t with
    | Atom op a => Hatom op a
    | Var k i => Hvar k i
    | Itv n => Hitv n
    | Stmt c s p => Hstmt c s p (term_ind' s) (term_ind' p)
    | Comp c l =>
        Hcomp c l
          ((fix go (l : list term) : Forall P l :=
              match l with
              | [] => Forall_nil P
              | x :: l' => Forall_cons x (term_ind' x) (go l')
              end) l)
    end.
End TermInd.

(* ---- enum facts ---- *)
Lemma con_code_inj a b : con_code a = con_code b -> a = b.
Proof. destruct a, b; simpl; intro H; (reflexivity || discriminate H). Qed.
Lemma con_eqb_eq a b : con_eqb a b = true <-> a = b.
Proof.
  unfold con_eqb; rewrite Z.eqb_eq; split; [apply con_code_inj | intros ->; reflexivity].
Qed.
Lemma cop_code_inj a b : cop_code a = cop_code b -> a = b.
Proof. destruct a, b; simpl; intro H; (reflexivity || discriminate H). Qed.
Lemma cop_eqb_eq a b : cop_eqb a b = true <-> a = b.
Proof.
  unfold cop_eqb; rewrite Z.eqb_eq; split; [apply cop_code_inj | intros ->; reflexivity].
Qed.
Lemma vk_eqb_eq a b : vk_eqb a b = true <-> a = b.
Proof. destruct a, b; vm_compute; split; intro H; congruence. Qed.
Lemma con_eqb_refl a : con_eqb a a = true.
Proof. apply con_eqb_eq; reflexivity. Qed.
Lemma cop_eqb_refl a : cop_eqb a a = true.
Proof. apply cop_eqb_eq; reflexivity. Qed.
Lemma vk_eqb_refl a : vk_eqb a a = true.
Proof. apply vk_eqb_eq; reflexivity. Qed.
Lemma con_eqb_sym a b : con_eqb a b = con_eqb b a.
Proof. unfold con_eqb; apply Z.eqb_sym. Qed.
Lemma cop_eqb_sym a b : cop_eqb a b = cop_eqb b a.
Proof. unfold cop_eqb; apply Z.eqb_sym. Qed.

(* ---- leaf hashes ---- *)
Lemma lxor_cancel a b c : Z.lxor a b = Z.lxor a c -> b = c.
Proof.
  intro H.
  assert (E : Z.lxor a (Z.lxor a b) = Z.lxor a (Z.lxor a c)) by (rewrite H; reflexivity).
  rewrite <- !Z.lxor_assoc, Z.lxor_nilpotent, !Z.lxor_0_l in E; exact E.
Qed.

Lemma combine_inj_value seed v w :
  0 <= v < two64 -> 0 <= w < two64 -> combine seed v = combine seed w -> v = w.
Proof.
  unfold combine; intros Hv Hw E; apply lxor_cancel in E.
  set (k := golden + Z.shiftl seed 6 mod two64 + Z.shiftr seed 2) in *.
  replace (v + golden + Z.shiftl seed 6 mod two64 + Z.shiftr seed 2) with (v + k) in E
    by (unfold k; ring).
  replace (w + golden + Z.shiftl seed 6 mod two64 + Z.shiftr seed 2) with (w + k) in E
    by (unfold k; ring).
  assert (D : (v - w) mod two64 = 0).
  { replace (v - w) with ((v + k) - (w + k)) by ring.
    rewrite Zminus_mod, E, Z.sub_diag; reflexivity. }
  apply Z.mod_divide in D; [| discriminate].
  destruct D as [q Hq]. unfold two64 in *. lia.
Qed.

(* The hash of an atom, in closed form. *)
Definition atomK : Z := 173201933927.
Lemma atom_hash op a :
  thash (Atom op a) = Z.lxor golden ((size_t a + atomK) mod two64).
Proof.
  cbn [thash]. rewrite hash2.
  change (combine 0 0) with golden. unfold combine.
  f_equal. f_equal. unfold atomK.
  change (Z.shiftl golden 6 mod two64) with 169883889216.
  change (Z.shiftr golden 2) with 663608942. unfold golden. lia.
Qed.

Lemma itv_hash n :
  thash (Itv n) = Z.lxor 2654435768 ((size_t n + 173201933863) mod two64).
Proof.
  cbn [thash]. rewrite hash2.
  change (combine 0 (size_t (-1))) with 2654435768. unfold combine.
  f_equal. f_equal.
  change (Z.shiftl 2654435768 6 mod two64) with 169883889152.
  change (Z.shiftr 2654435768 2) with 663608942. unfold golden. lia.
Qed.

Lemma shift_lxor_small s x : 0 <= s < 4294967296 -> Z.shiftr (Z.lxor s x) 32 = x / 4294967296.
Proof.
  intro Hs. rewrite Z.shiftr_lxor, !Z.shiftr_div_pow2 by lia.
  change (2 ^ 32) with 4294967296. rewrite (Z.div_small s) by lia.
  apply Z.lxor_0_l.
Qed.

Lemma atom_hash_high op a :
  0 <= a < two64 - atomK ->
  Z.shiftr (thash (Atom op a)) 32 = (a + atomK) / 4294967296.
Proof.
  intro Ha. rewrite atom_hash, shift_lxor_small by (unfold golden; lia).
  unfold size_t, atomK, two64 in *. rewrite (Z.mod_small a) by lia.
  rewrite Z.mod_small by lia. reflexivity.
Qed.

Lemma itv_hash_high n :
  -2147483648 <= n < 2147483648 ->
  Z.shiftr (thash (Itv n)) 32 = (n + 173201933863) / 4294967296.
Proof.
  intro Hn. rewrite itv_hash, shift_lxor_small by lia.
  unfold size_t, two64. rewrite Zplus_mod_idemp_l.
  rewrite Z.mod_small by lia. reflexivity.
Qed.

Lemma atom_hash_inj op op' a b :
  0 <= a < two64 -> 0 <= b < two64 ->
  thash (Atom op a) = thash (Atom op' b) -> a = b.
Proof.
  intros Ha Hb E. cbn [thash] in E. rewrite !hash2 in E.
  apply combine_inj_value in E; unfold size_t in *;
    try (apply Z.mod_pos_bound; reflexivity).
  rewrite !Z.mod_small in E by assumption. exact E.
Qed.

Lemma itv_hash_inj n m :
  -2147483648 <= n < 2147483648 -> -2147483648 <= m < 2147483648 ->
  thash (Itv n) = thash (Itv m) -> n = m.
Proof.
  intros Hn Hm E. cbn [thash] in E. rewrite !hash2 in E.
  apply combine_inj_value in E; unfold size_t in *;
    try (apply Z.mod_pos_bound; reflexivity).
  assert (D : (n - m) mod two64 = 0).
  { rewrite Zminus_mod, E, Z.sub_diag; reflexivity. }
  apply Z.mod_divide in D; [| discriminate].
  destruct D as [q Hq]. unfold two64 in *. lia.
Qed.

Lemma var_hash_inj k k' i j : thash (Var k i) = thash (Var k' j) -> k = k'.
Proof. destruct k, k'; vm_compute; intro H; (reflexivity || discriminate H). Qed.

Lemma var_hash_high k i : Z.shiftr (thash (Var k i)) 32 = 40.
Proof. destruct k; reflexivity. Qed.

(* The interval whose hash equals that of a variable of the given kind. *)
Definition clash_interval (k : vkind) : Z :=
  match k with Independent => -127 | Dependent => -126 | Query => -129 end.

Lemma clash_interval_hash k i : thash (Itv (clash_interval k)) = thash (Var k i).
Proof. destruct k; reflexivity. Qed.

Lemma itv_var_hash n k i :
  -2147483648 <= n < 2147483648 ->
  thash (Itv n) = thash (Var k i) -> n = clash_interval k.
Proof.
  intros Hn E. rewrite <- (clash_interval_hash k i) in E.
  apply itv_hash_inj in E; try assumption. destruct k; simpl; lia.
Qed.

Lemma atom_var_hash op a k i :
  0 <= a < 9223372036854775808 -> thash (Atom op a) <> thash (Var k i).
Proof.
  intros Ha E.
  assert (Hc : thash (Atom op a) =
               thash (Atom op (match k with Independent => 18446744073709551426
                                          | Dependent => 18446744073709551425
                                          | Query => 18446744073709551424 end))).
  { rewrite E. destruct k; reflexivity. }
  apply atom_hash_inj in Hc; destruct k; unfold two64 in *; lia.
Qed.

(* ---- has_var and occurrences ---- *)
Lemma existsb_id_map {A} (f : A -> bool) l :
  existsb (fun b => b) (map f l) = existsb f l.
Proof. induction l; simpl; congruence. Qed.

Lemma Forall2_len {A B} (R : A -> B -> Prop) l1 l2 : Forall2 R l1 l2 -> length l1 = length l2.
Proof. induction 1; simpl; congruence. Qed.

Lemma Forall_In {A} (P : A -> Prop) l x : Forall P l -> In x l -> P x.
Proof. intros H; revert x; apply Forall_forall; exact H. Qed.

Lemma has_var_spec : forall t, has_var t = true <-> exists k i, occurs (Var k i) t.
Proof.
  intro t; induction t as [op a|k i|n|c s p IHs IHp|c l IHl] using term_ind'; simpl.
  - split; [discriminate | intros [k [i H]]; inversion H].
  - split; [intros _; exists k, i; constructor | reflexivity].
  - split; [discriminate | intros [k [i H]]; inversion H].
  - rewrite orb_false_r, orb_true_iff, IHs, IHp. split.
    + intros [[k [i H]]|[k [i H]]]; exists k, i;
        [apply occ_subj | apply occ_pred]; exact H.
    + intros [k [i H]]; inversion H; subst; [left | right]; exists k, i; assumption.
  - rewrite existsb_id_map, existsb_exists. split.
    + intros [x [Hin Hx]]. apply (Forall_In _ _ _ IHl Hin) in Hx.
      destruct Hx as [k [i H]]; exists k, i. eapply occ_comp; eassumption.
    + intros [k [i H]]; inversion H; subst.
      eexists; split; [eassumption|]. apply (Forall_In _ _ _ IHl); [assumption|].
      exists k, i; assumption.
Qed.

Lemma has_ivar_spec : forall t, has_ivar t = true <-> exists i, occurs (Var Independent i) t.
Proof.
  intro t; induction t as [op a|k i|n|c s p IHs IHp|c l IHl] using term_ind'; simpl.
  - split; [discriminate | intros [i H]; inversion H].
  - rewrite vk_eqb_eq. split.
    + intros ->; exists i; constructor.
    + intros [i' H]; inversion H; reflexivity.
  - split; [discriminate | intros [i H]; inversion H].
  - rewrite orb_false_r, orb_true_iff, IHs, IHp. split.
    + intros [[i H]|[i H]]; exists i; [apply occ_subj | apply occ_pred]; exact H.
    + intros [i H]; inversion H; subst; [left | right]; exists i; assumption.
  - rewrite existsb_id_map, existsb_exists. split.
    + intros [x [Hin Hx]]. apply (Forall_In _ _ _ IHl Hin) in Hx.
      destruct Hx as [i H]; exists i. eapply occ_comp; eassumption.
    + intros [i H]; inversion H; subst.
      eexists; split; [eassumption|]. apply (Forall_In _ _ _ IHl); [assumption|].
      exists i; assumption.
Qed.

Lemma has_dvar_spec : forall t, has_dvar t = true <-> exists i, occurs (Var Dependent i) t.
Proof.
  intro t; induction t as [op a|k i|n|c s p IHs IHp|c l IHl] using term_ind'; simpl.
  - split; [discriminate | intros [i H]; inversion H].
  - rewrite vk_eqb_eq. split.
    + intros ->; exists i; constructor.
    + intros [i' H]; inversion H; reflexivity.
  - split; [discriminate | intros [i H]; inversion H].
  - rewrite orb_false_r, orb_true_iff, IHs, IHp. split.
    + intros [[i H]|[i H]]; exists i; [apply occ_subj | apply occ_pred]; exact H.
    + intros [i H]; inversion H; subst; [left | right]; exists i; assumption.
  - rewrite existsb_id_map, existsb_exists. split.
    + intros [x [Hin Hx]]. apply (Forall_In _ _ _ IHl Hin) in Hx.
      destruct Hx as [i H]; exists i. eapply occ_comp; eassumption.
    + intros [i H]; inversion H; subst.
      eexists; split; [eassumption|]. apply (Forall_In _ _ _ IHl); [assumption|].
      exists i; assumption.
Qed.

Lemma has_qvar_spec : forall t, has_qvar t = true <-> exists i, occurs (Var Query i) t.
Proof.
  intro t; induction t as [op a|k i|n|c s p IHs IHp|c l IHl] using term_ind'; simpl.
  - split; [discriminate | intros [i H]; inversion H].
  - rewrite vk_eqb_eq. split.
    + intros ->; exists i; constructor.
    + intros [i' H]; inversion H; reflexivity.
  - split; [discriminate | intros [i H]; inversion H].
  - rewrite orb_false_r, orb_true_iff, IHs, IHp. split.
    + intros [[i H]|[i H]]; exists i; [apply occ_subj | apply occ_pred]; exact H.
    + intros [i H]; inversion H; subst; [left | right]; exists i; assumption.
  - rewrite existsb_id_map, existsb_exists. split.
    + intros [x [Hin Hx]]. apply (Forall_In _ _ _ IHl Hin) in Hx.
      destruct Hx as [i H]; exists i. eapply occ_comp; eassumption.
    + intros [i H]; inversion H; subst.
      eexists; split; [eassumption|]. apply (Forall_In _ _ _ IHl); [assumption|].
      exists i; assumption.
Qed.

Lemma var_free_has_var t : var_free t <-> has_var t = false.
Proof.
  split.
  - intro H. destruct (has_var t) eqn:E; [| reflexivity].
    apply has_var_spec in E. destruct E as [k [i E]]. destruct (H k i E).
  - intros E k i H. assert (has_var t = true) by (apply has_var_spec; exists k, i; exact H).
    congruence.
Qed.

Lemma var_free_occurs u t : occurs u t -> var_free t -> var_free u.
Proof.
  intros Hu Ht k i Hk. apply (Ht k i).
  clear Ht. induction Hu as [|c s p H IH|c s p H IH|c l x Hin H IH].
  - exact Hk.
  - apply occ_subj; exact IH.
  - apply occ_pred; exact IH.
  - eapply occ_comp; eassumption.
Qed.

Lemma var_free_comp c l : var_free (Comp c l) <-> Forall var_free l.
Proof.
  split.
  - intro H. apply Forall_forall. intros x Hin.
    apply (var_free_occurs x (Comp c l)); [| exact H].
    eapply occ_comp; [exact Hin | constructor].
  - intros H k i O. inversion O; subst.
    apply (Forall_In _ _ _ H) in H2. exact (H2 k i H3).
Qed.

Lemma var_free_stmt c s p : var_free (Stmt c s p) <-> var_free s /\ var_free p.
Proof.
  split.
  - intro H; split; eapply var_free_occurs; [apply occ_subj; constructor | eassumption
                                            | apply occ_pred; constructor | eassumption].
  - intros [Hs Hp] k i O. inversion O; subst; [apply (Hs k i) | apply (Hp k i)]; assumption.
Qed.

(* ---- ordering ---- *)
Lemma tlt_hash_ne t1 t2 : thash t1 <> thash t2 -> tlt t1 t2 = (thash t1 <? thash t2).
Proof.
  intro H. apply Z.eqb_neq in H. destruct t1; cbn [tlt]; rewrite H; reflexivity.
Qed.
Lemma tlt_nv_v t1 t2 :
  thash t1 = thash t2 -> has_var t1 = false -> has_var t2 = true -> tlt t1 t2 = false.
Proof.
  intros H H1 H2. apply Z.eqb_eq in H. destruct t1; cbn [tlt]; rewrite H, H1, H2; reflexivity.
Qed.
Lemma tlt_v_nv t1 t2 :
  thash t1 = thash t2 -> has_var t1 = true -> has_var t2 = false -> tlt t1 t2 = true.
Proof.
  intros H H1 H2. apply Z.eqb_eq in H. destruct t1; cbn [tlt]; rewrite H, H1, H2; reflexivity.
Qed.

Lemma tlt_var_free t1 t2 :
  has_var t1 = false -> has_var t2 = false -> tlt t1 t2 = (thash t1 <? thash t2).
Proof.
  intros H1 H2. destruct t1; cbn [tlt]; rewrite H1, H2;
    (destruct (_ =? thash t2); reflexivity).
Qed.

Lemma swo_var_free : strict_weak_order var_free tlt.
Proof.
  repeat split.
  - intros x Hx. apply var_free_has_var in Hx. rewrite tlt_var_free by assumption.
    apply Z.ltb_irrefl.
  - intros x y Hx Hy. apply var_free_has_var in Hx, Hy. rewrite !tlt_var_free by assumption.
    rewrite Z.ltb_lt, Z.ltb_ge. lia.
  - intros x y z Hx Hy Hz. apply var_free_has_var in Hx, Hy, Hz.
    rewrite !tlt_var_free by assumption. rewrite !Z.ltb_lt. lia.
  - apply var_free_has_var in H, H0, H1. rewrite !tlt_var_free in * by assumption.
    rewrite Z.ltb_ge in *. lia.
  - apply var_free_has_var in H, H0, H1. rewrite !tlt_var_free in * by assumption.
    rewrite Z.ltb_ge in *. lia.
Qed.


(* On the class of variable-free terms and bare variables the order is
   lexicographic in (hash, variable first, index). *)
Definition rank (t : term) : Z * Z * Z :=
  match t with
  | Var k i => (thash t, 0, i)
  | _ => (thash t, 1, 0)
  end.
Definition rank_lt (a b : Z * Z * Z) : Prop :=
  let '(h1, v1, i1) := a in
  let '(h2, v2, i2) := b in
  h1 < h2 \/ (h1 = h2 /\ (v1 < v2 \/ (v1 = v2 /\ i1 < i2))).

Lemma tlt_rank t1 t2 :
  var_free_or_var t1 -> var_free_or_var t2 ->
  tlt t1 t2 = true <-> rank_lt (rank t1) (rank t2).
Proof.
  intros H1 H2.
  assert (R : forall t, var_free t -> rank t = (thash t, 1, 0)).
  { intros t H; destruct t; try reflexivity. exfalso; apply (H k i); constructor. }
  destruct H1 as [H1|[k1 [i1 ->]]], H2 as [H2|[k2 [i2 ->]]].
  - rewrite (R _ H1), (R _ H2). apply var_free_has_var in H1, H2.
    rewrite tlt_var_free by assumption. simpl. rewrite Z.ltb_lt. lia.
  - rewrite (R _ H1). apply var_free_has_var in H1.
    cbn [rank rank_lt].
    destruct (Z.eq_dec (thash t1) (thash (Var k2 i2))) as [E|E].
    + rewrite tlt_nv_v by (try assumption; reflexivity). split; [discriminate | lia].
    + rewrite tlt_hash_ne by assumption. rewrite Z.ltb_lt; lia.
  - rewrite (R _ H2). apply var_free_has_var in H2.
    cbn [rank rank_lt].
    destruct (Z.eq_dec (thash (Var k1 i1)) (thash t2)) as [E|E].
    + rewrite tlt_v_nv by (try assumption; reflexivity). split; [lia | reflexivity].
    + rewrite tlt_hash_ne by assumption. rewrite Z.ltb_lt; lia.
  - cbn [tlt rank rank_lt has_var ttype atom_lt]. cbn [Z.eqb negb].
    destruct (Z.eqb_spec (thash (Var k1 i1)) (thash (Var k2 i2))) as [E|E]; cbn [negb].
    + assert (k1 = k2) by (eapply var_hash_inj; exact E). subst k2.
      rewrite vk_eqb_refl, Z.ltb_lt. lia.
    + rewrite Z.ltb_lt; lia.
Qed.

Lemma swo_of_rank {A} (P : A -> Prop) (lt : A -> A -> bool) (r : A -> Z * Z * Z) :
  (forall x y, P x -> P y -> lt x y = true <-> rank_lt (r x) (r y)) ->
  strict_weak_order P lt.
Proof.
  intro H.
  assert (F : forall x y, P x -> P y -> lt x y = false <-> ~ rank_lt (r x) (r y)).
  { intros x y Hx Hy. rewrite <- (H x y Hx Hy). destruct (lt x y); split; congruence. }
  repeat split.
  - intros x Hx. rewrite F by assumption. destruct (r x) as [[? ?] ?]; simpl; lia.
  - intros x y Hx Hy. rewrite F, H by assumption.
    destruct (r x) as [[? ?] ?], (r y) as [[? ?] ?]; simpl; lia.
  - intros x y z Hx Hy Hz. rewrite !H by assumption.
    destruct (r x) as [[? ?] ?], (r y) as [[? ?] ?], (r z) as [[? ?] ?]; simpl; lia.
  - rewrite F in * by assumption.
    destruct (r x) as [[? ?] ?], (r y) as [[? ?] ?], (r z) as [[? ?] ?]; simpl in *; lia.
  - rewrite F in * by assumption.
    destruct (r x) as [[? ?] ?], (r y) as [[? ?] ?], (r z) as [[? ?] ?]; simpl in *; lia.
Qed.

Lemma swo_var_free_or_var : strict_weak_order var_free_or_var tlt.
Proof. apply (swo_of_rank _ _ rank). apply tlt_rank. Qed.

(* ---- renaming and hash ---- *)
Lemma renaming_hash t1 t2 : renaming t1 t2 -> thash t1 = thash t2.
Proof.
  revert t2. induction t1 as [op a|k i|n|c s p IHs IHp|c l IHl] using term_ind';
    intros t2 H; inversion H; subst; simpl; try reflexivity.
  - match goal with
    | Hs : renaming s _, Hp : renaming p _ |- _ => rewrite (IHs _ Hs), (IHp _ Hp)
    end. reflexivity.
  - match goal with Hl : Forall2 renaming l ?m |- _ =>
      assert (E : map thash l = map thash m)
    end; [| rewrite E; reflexivity].
    clear H. match goal with Hl : Forall2 renaming l ?m |- _ => revert m Hl end.
    induction IHl as [|x l Hx Hl IH]; intros l' H; inversion H; subst;
      simpl; [reflexivity|]. erewrite Hx, IH by eassumption. reflexivity.
Qed.

(* ---- complexity ---- *)
Lemma fold_sum l : forall a, fold_left (fun s x => s + x) l a = a + fold_left (fun s x => s + x) l 0.
Proof.
  induction l as [|x l IH]; intro a; simpl; [lia|].
  rewrite IH, (IH x). lia.
Qed.

Lemma complexity_spec t :
  complexity t = Z.of_nat (length (leaves t) + length (statements t)).
Proof.
  induction t as [op a|k i|n|c s p IHs IHp|c l IHl] using term_ind';
    cbn [complexity leaves statements]; try reflexivity.
  - rewrite IHs, IHp. cbn [length]. rewrite !app_length. lia.
  - induction IHl as [|x l Hx Hl IH]; [reflexivity|]. cbn [map fold_left flat_map].
    rewrite fold_sum, IH, Hx, !app_length. lia.
Qed.

(* ---- equality ---- *)
(* The component loop of operator==, as a separate function. *)
Fixpoint teq_list (l1 l2 : list term) {struct l1} : res bool :=
  match l1, l2 with
  | x :: l1', y :: l2' =>
      bind (teq x y) (fun b => if b then teq_list l1' l2' else Ok false)
  | _, _ => Ok true
  end.

Lemma teq_comp c1 l1 c2 l2 :
  teq (Comp c1 l1) (Comp c2 l2) =
    if negb (thash (Comp c1 l1) =? thash (Comp c2 l2)) then Ok false
    else if negb (Z.of_nat (length l1) =? Z.of_nat (length l2)) then Ok false
    else if negb (con_eqb c1 c2) then Ok false
    else teq_list l1 l2.
Proof.
  assert (H : forall l1 l2,
    (fix all2 (l1 l2 : list term) {struct l1} : res bool :=
             match l1, l2 with
             | x :: l1', y :: l2' =>
                 bind (teq x y) (fun b => if b then all2 l1' l2' else Ok false)
             | _, _ => Ok true
             end) l1 l2 = teq_list l1 l2).
  { reflexivity. }
  cbn [teq ttype]. cbn [Z.eqb negb Pos.eqb]. rewrite H. reflexivity.
Qed.

Lemma teq_stmt c1 s1 p1 c2 s2 p2 :
  teq (Stmt c1 s1 p1) (Stmt c2 s2 p2) =
    if negb (thash (Stmt c1 s1 p1) =? thash (Stmt c2 s2 p2)) then Ok false
    else bind (teq s1 s2) (fun b1 =>
          if b1 then
            bind (teq p1 p2) (fun b2 => if b2 then Ok (cop_eqb c1 c2) else Ok false)
          else Ok false).
Proof. reflexivity. Qed.

Definition atomic (t : term) : bool :=
  match t with Stmt _ _ _ | Comp _ _ => false | _ => true end.

Lemma teq_atomic t1 t2 : atomic t1 = true -> atomic t2 = true ->
  teq t1 t2 = if negb (thash t1 =? thash t2) then Ok false else atom_eq t1 t2.
Proof. destruct t1, t2; intros H1 H2; try discriminate; reflexivity. Qed.

Lemma teq_type_ne t1 t2 : ttype t1 <> ttype t2 -> teq t1 t2 = Ok false.
Proof.
  intro H. apply Z.eqb_neq in H. destruct t1; cbn [teq]; rewrite H; reflexivity.
Qed.

Lemma only_ivars_stmt c s p : only_ivars (Stmt c s p) -> only_ivars s /\ only_ivars p.
Proof.
  intro H; split; intros k i O; apply (H k i); [apply occ_subj | apply occ_pred]; exact O.
Qed.
Lemma only_ivars_comp c l : only_ivars (Comp c l) -> Forall only_ivars l.
Proof.
  intro H; apply Forall_forall; intros x Hin k i O; apply (H k i).
  eapply occ_comp; eassumption.
Qed.
Lemma only_ivars_var k i : only_ivars (Var k i) -> k = Independent.
Proof. intro H; apply (H k i); constructor. Qed.

Lemma teq_hash t1 t2 : teq t1 t2 = Ok true -> thash t1 = thash t2.
Proof.
  intro H. apply Z.eqb_eq. destruct (thash t1 =? thash t2) eqn:E; [reflexivity|].
  exfalso. destruct t1; cbn [teq] in H; rewrite E in H;
    destruct (ttype _ =? ttype t2); discriminate H.
Qed.

(* Atomic equality in closed form when no dependent/query variable occurs. *)
Lemma atom_eq_ivars t1 t2 :
  atomic t1 = true -> atomic t2 = true -> only_ivars t1 -> only_ivars t2 ->
  atom_eq t1 t2 =
    match t1, t2 with
    | Var _ i, Var _ j => Ok (i =? j)
    | _, _ => Ok (thash t1 =? thash t2)
    end.
Proof.
  intros A1 A2 O1 O2.
  destruct t1 as [op1 a1|k1 i1|n1| |], t2 as [op2 a2|k2 i2|n2| |]; try discriminate;
    try (apply only_ivars_var in O1; subst k1); try (apply only_ivars_var in O2; subst k2);
    reflexivity.
Qed.

Lemma teq_defined t1 : forall t2,
  only_ivars t1 -> only_ivars t2 -> exists b, teq t1 t2 = Ok b.
Proof.
  induction t1 as [op a|k i|n|c s p IHs IHp|c l IHl] using term_ind'; intros t2 O1 O2.
  1-3: destruct (Z.eq_dec (ttype t2) 0) as [E|E];
    [| rewrite teq_type_ne by (simpl; lia); eexists; reflexivity];
    (assert (A : atomic t2 = true) by (destruct t2; simpl in *; (reflexivity || discriminate)));
    (rewrite teq_atomic by (reflexivity || exact A));
    (destruct (negb _); [eexists; reflexivity|]);
    (rewrite atom_eq_ivars by (assumption || reflexivity));
    (destruct t2; eexists; reflexivity).
  - destruct t2 as [op2 a2|k2 i2|n2|c2 s2 p2|c2 l2];
      try (rewrite teq_type_ne by (simpl; lia); eexists; reflexivity).
    apply only_ivars_stmt in O1, O2. destruct O1 as [Os1 Op1], O2 as [Os2 Op2].
    rewrite teq_stmt. destruct (negb _); [eexists; reflexivity|].
    destruct (IHs s2 Os1 Os2) as [b1 ->], (IHp p2 Op1 Op2) as [b2 ->]. simpl.
    destruct b1, b2; eexists; reflexivity.
  - destruct t2 as [op2 a2|k2 i2|n2|c2 s2 p2|c2 l2];
      try (rewrite teq_type_ne by (simpl; lia); eexists; reflexivity).
    apply only_ivars_comp in O1, O2. rewrite teq_comp.
    destruct (negb (thash _ =? _)); [eexists; reflexivity|].
    destruct (negb (_ =? _)); [eexists; reflexivity|].
    destruct (negb _); [eexists; reflexivity|].
    clear c c2. revert l2 O2. induction IHl as [|x l Hx Hl IH]; intros l2 O2;
      [eexists; reflexivity|].
    destruct l2 as [|y l2]; [eexists; reflexivity|].
    inversion O1; subst. inversion O2; subst. simpl.
    destruct (Hx y) as [b ->]; try assumption. simpl. destruct b; [| eexists; reflexivity].
    apply IH; assumption.
Qed.

Lemma teq_refl t : only_ivars t -> teq t t = Ok true.
Proof.
  induction t as [op a|k i|n|c s p IHs IHp|c l IHl] using term_ind'; intro O.
  1-3: rewrite teq_atomic by reflexivity; rewrite Z.eqb_refl; cbn [negb];
    rewrite atom_eq_ivars by (assumption || reflexivity); rewrite Z.eqb_refl; reflexivity.
  - apply only_ivars_stmt in O. destruct O as [Os Op].
    rewrite teq_stmt, Z.eqb_refl, (IHs Os), (IHp Op), cop_eqb_refl. reflexivity.
  - apply only_ivars_comp in O. rewrite teq_comp, !Z.eqb_refl, con_eqb_refl. cbn [negb].
    induction IHl as [|x l Hx Hl IH]; [reflexivity|].
    inversion O; subst. simpl. rewrite Hx by assumption. simpl. apply IH; assumption.
Qed.

Lemma teq_sym t1 : forall t2, only_ivars t1 -> only_ivars t2 -> teq t1 t2 = teq t2 t1.
Proof.
  induction t1 as [op a|k i|n|c s p IHs IHp|c l IHl] using term_ind'; intros t2 O1 O2.
  1-3: destruct (Z.eq_dec (ttype t2) 0) as [E|E];
    [| rewrite !teq_type_ne by (simpl; lia); reflexivity];
    (assert (A : atomic t2 = true) by (destruct t2; simpl in *; (reflexivity || discriminate)));
    (rewrite !teq_atomic by (reflexivity || exact A)); rewrite (Z.eqb_sym (thash t2));
    (destruct (negb _); [reflexivity|]);
    (rewrite !atom_eq_ivars by (assumption || reflexivity));
    destruct t2; cbn [atomic] in A; try discriminate A; f_equal; apply Z.eqb_sym.
  - destruct t2 as [op2 a2|k2 i2|n2|c2 s2 p2|c2 l2];
      try (rewrite !teq_type_ne by (simpl; lia); reflexivity).
    apply only_ivars_stmt in O1, O2. destruct O1 as [Os1 Op1], O2 as [Os2 Op2].
    rewrite !teq_stmt, (Z.eqb_sym (thash (Stmt c2 s2 p2))), (cop_eqb_sym c2 c).
    rewrite (IHs s2), (IHp p2) by assumption. reflexivity.
  - destruct t2 as [op2 a2|k2 i2|n2|c2 s2 p2|c2 l2];
      try (rewrite !teq_type_ne by (simpl; lia); reflexivity).
    apply only_ivars_comp in O1, O2.
    rewrite !teq_comp, (Z.eqb_sym (thash (Comp c2 l2))), (Z.eqb_sym (Z.of_nat (length l2))),
      (con_eqb_sym c2 c).
    assert (E : teq_list l l2 = teq_list l2 l); [| rewrite E; reflexivity].
    clear c c2. revert l2 O2. induction IHl as [|x l Hx Hl IH]; intros [|y l2] O2;
      try reflexivity.
    inversion O1; subst. inversion O2; subst. simpl. rewrite (Hx y) by assumption.
    rewrite (IH H2 l2) by assumption. reflexivity.
Qed.

(* No named atom or interval hashes like an independent variable. *)

Lemma no_var_clash_sub u t : occurs u t -> no_var_clash t -> no_var_clash u.
Proof.
  intros Hu [H1 H2].
  assert (T : forall x, occurs x u -> occurs x t).
  { intros x Hx. clear H1 H2. induction Hu as [|c s p H IH|c s p H IH|c l y Hin H IH].
    - exact Hx. - apply occ_subj; exact IH. - apply occ_pred; exact IH.
    - eapply occ_comp; eassumption. }
  split; intros; [apply (H1 op a) | apply (H2 n)]; apply T; assumption.
Qed.
Lemma no_var_clash_stmt c s p : no_var_clash (Stmt c s p) -> no_var_clash s /\ no_var_clash p.
Proof.
  intro H; split; (eapply no_var_clash_sub; [| exact H]);
    [apply occ_subj | apply occ_pred]; constructor.
Qed.
Lemma no_var_clash_comp c l : no_var_clash (Comp c l) -> Forall no_var_clash l.
Proof.
  intro H; apply Forall_forall; intros x Hin. eapply no_var_clash_sub; [| exact H].
  eapply occ_comp; [exact Hin | constructor].
Qed.

Lemma leaf_not_var t i :
  atomic t = true -> only_ivars t -> no_var_clash t ->
  thash t = thash (Var Independent i) -> exists j, t = Var Independent j.
Proof.
  intros A O [N1 N2] E. destruct t as [op a|k j|n| |]; try discriminate A.
  - exfalso. eapply atom_var_hash; [| exact E]. apply (N1 op a); constructor.
  - exists j. f_equal. apply (var_hash_inj _ _ _ _ E).
  - exfalso. destruct (N2 n) as [R C]; [constructor|]. apply C.
    apply (itv_var_hash _ _ _ R E).
Qed.

Lemma teq_atomic_true t1 t2 :
  atomic t1 = true -> atomic t2 = true ->
  only_ivars t1 -> only_ivars t2 -> no_var_clash t1 -> no_var_clash t2 ->
  teq t1 t2 = Ok true <->
    thash t1 = thash t2 /\ (forall i j, t1 = Var Independent i -> t2 = Var Independent j -> i = j).
Proof.
  intros A1 A2 O1 O2 N1 N2. rewrite teq_atomic by assumption. split.
  - intro H. destruct (Z.eqb_spec (thash t1) (thash t2)) as [E|E]; [| discriminate H].
    split; [exact E|]. intros i j -> ->. cbn [negb] in H.
    rewrite atom_eq_ivars in H by assumption. injection H as H. apply Z.eqb_eq; exact H.
  - intros [E V]. rewrite E, Z.eqb_refl. cbn [negb]. rewrite atom_eq_ivars by assumption.
    destruct t1 as [op1 a1|k1 i1|n1| |], t2 as [op2 a2|k2 i2|n2| |]; try discriminate;
      try (rewrite E, Z.eqb_refl; reflexivity).
    apply only_ivars_var in O1, O2; subst. rewrite (V i1 i2 eq_refl eq_refl), Z.eqb_refl.
    reflexivity.
Qed.

Lemma teq_atomic_r t1 t2 : teq t1 t2 = Ok true -> atomic t1 = true -> atomic t2 = true.
Proof.
  intros H A. destruct t1, t2; try discriminate A; try reflexivity;
    rewrite teq_type_ne in H by (simpl; lia); discriminate H.
Qed.

Lemma teq_stmt_true c1 s1 p1 t2 : teq (Stmt c1 s1 p1) t2 = Ok true ->
  exists s2 p2, t2 = Stmt c1 s2 p2 /\ teq s1 s2 = Ok true /\ teq p1 p2 = Ok true.
Proof.
  intro H. destruct t2 as [op2 a2|k2 i2|n2|c2 s2 p2|c2 l2];
    try (rewrite teq_type_ne in H by (simpl; lia); discriminate H).
  rewrite teq_stmt in H. destruct (negb _); [discriminate H|].
  destruct (teq s1 s2) as [[|]| | |] eqn:Es; try discriminate H. simpl in H.
  destruct (teq p1 p2) as [[|]| | |] eqn:Ep; try discriminate H. simpl in H.
  injection H as H. apply cop_eqb_eq in H. subst c2. exists s2, p2. auto.
Qed.

Lemma teq_comp_true c1 l1 t2 : teq (Comp c1 l1) t2 = Ok true ->
  exists l2, t2 = Comp c1 l2 /\ Forall2 (fun x y => teq x y = Ok true) l1 l2.
Proof.
  intro H. destruct t2 as [op2 a2|k2 i2|n2|c2 s2 p2|c2 l2];
    try (rewrite teq_type_ne in H by (simpl; lia); discriminate H).
  rewrite teq_comp in H. destruct (negb (thash _ =? _)); [discriminate H|].
  destruct (Z.eqb_spec (Z.of_nat (length l1)) (Z.of_nat (length l2))) as [L|L]; [| discriminate H].
  cbn [negb] in H.
  destruct (con_eqb c1 c2) eqn:C; [| discriminate H]. cbn [negb] in H.
  apply con_eqb_eq in C; subst c2. exists l2. split; [reflexivity|].
  revert l2 L H. induction l1 as [|x l1 IH]; intros [|y l2] L H; simpl in L; try lia; constructor.
  - simpl in H. destruct (teq x y) as [[|]| | |]; (reflexivity || discriminate H).
  - apply IH; [lia|]. simpl in H. destruct (teq x y) as [[|]| | |]; simpl in H; (exact H || discriminate H).
Qed.

Lemma teq_stmt_intro c s1 p1 s2 p2 :
  teq s1 s2 = Ok true -> teq p1 p2 = Ok true -> teq (Stmt c s1 p1) (Stmt c s2 p2) = Ok true.
Proof.
  intros Hs Hp. rewrite teq_stmt.
  assert (E : thash (Stmt c s1 p1) = thash (Stmt c s2 p2)).
  { cbn [thash]. rewrite (teq_hash _ _ Hs), (teq_hash _ _ Hp). reflexivity. }
  rewrite E, Z.eqb_refl, Hs, Hp, cop_eqb_refl. reflexivity.
Qed.

Lemma teq_comp_intro c l1 l2 :
  Forall2 (fun x y => teq x y = Ok true) l1 l2 -> teq (Comp c l1) (Comp c l2) = Ok true.
Proof.
  intro H. rewrite teq_comp.
  assert (L : length l1 = length l2) by (eapply Forall2_len; exact H).
  assert (E : thash (Comp c l1) = thash (Comp c l2)).
  { cbn [thash]. assert (M : map thash l1 = map thash l2); [| rewrite M; reflexivity].
    clear L. induction H; simpl; [reflexivity|]. rewrite (teq_hash _ _ H), IHForall2. reflexivity. }
  rewrite E, L, !Z.eqb_refl, con_eqb_refl. cbn [negb]. clear L E.
  induction H; simpl; [reflexivity|]. rewrite H. simpl. exact IHForall2.
Qed.

Lemma teq_trans t1 : forall t2 t3,
  only_ivars t1 -> only_ivars t2 -> only_ivars t3 ->
  no_var_clash t1 -> no_var_clash t2 -> no_var_clash t3 ->
  teq t1 t2 = Ok true -> teq t2 t3 = Ok true -> teq t1 t3 = Ok true.
Proof.
  assert (AT : forall t1 t2 t3, atomic t1 = true ->
    only_ivars t1 -> only_ivars t2 -> only_ivars t3 ->
    no_var_clash t1 -> no_var_clash t2 -> no_var_clash t3 ->
    teq t1 t2 = Ok true -> teq t2 t3 = Ok true -> teq t1 t3 = Ok true).
  { clear t1. intros t1 t2 t3 A1 O1 O2 O3 N1 N2 N3 H12 H23.
    assert (A2 : atomic t2 = true) by (eapply teq_atomic_r; eassumption).
    assert (A3 : atomic t3 = true) by (eapply teq_atomic_r; eassumption).
    apply teq_atomic_true in H12; try assumption.
    apply teq_atomic_true in H23; try assumption.
    apply teq_atomic_true; try assumption.
    destruct H12 as [E12 V12], H23 as [E23 V23]. split; [congruence|].
    intros i j -> ->. destruct (leaf_not_var t2 i A2 O2 N2 (eq_sym E12)) as [m ->].
    transitivity m; [apply V12 | apply V23]; reflexivity. }
  induction t1 as [op a|k i|n|c s p IHs IHp|c l IHl] using term_ind';
    intros t2 t3 O1 O2 O3 N1 N2 N3 H12 H23.
  1-3: eapply AT with (t2 := t2); (assumption || reflexivity).
  - apply teq_stmt_true in H12. destruct H12 as (s2 & p2 & -> & Hs & Hp).
    apply teq_stmt_true in H23. destruct H23 as (s3 & p3 & -> & Hs' & Hp').
    apply only_ivars_stmt in O1, O2, O3. apply no_var_clash_stmt in N1, N2, N3.
    apply teq_stmt_intro; [apply (IHs s2) | apply (IHp p2)]; tauto.
  - apply teq_comp_true in H12. destruct H12 as (l2 & -> & H12).
    apply teq_comp_true in H23. destruct H23 as (l3 & -> & H23).
    apply only_ivars_comp in O1, O2, O3. apply no_var_clash_comp in N1, N2, N3.
    apply teq_comp_intro. revert l2 l3 O2 O3 N2 N3 H12 H23.
    induction IHl as [|x l Hx Hl IH]; intros l2 l3 O2 O3 N2 N3 H12 H23;
      inversion H12; subst; inversion H23; subst; constructor.
    + inversion O1; subst; inversion O2; subst; inversion O3; subst.
      inversion N1; subst; inversion N2; subst; inversion N3; subst.
      eapply Hx with (t2 := y); assumption.
    + inversion O1; subst; inversion O2; subst; inversion O3; subst.
      inversion N1; subst; inversion N2; subst; inversion N3; subst.
      eapply IH with (l2 := l'); assumption.
Qed.

(* ---- equality is identity ---- *)
(* Addresses at least 2^34 and below 2^62; ints in range and different from the
   three interval values that hash like variables. *)

Lemma leaf_ok_sub u t : occurs u t -> leaf_ok t -> leaf_ok u.
Proof.
  intros Hu [H1 H2].
  assert (T : forall x, occurs x u -> occurs x t).
  { intros x Hx. clear H1 H2. induction Hu as [|c s p H IH|c s p H IH|c l y Hin H IH].
    - exact Hx. - apply occ_subj; exact IH. - apply occ_pred; exact IH.
    - eapply occ_comp; eassumption. }
  split; intros; [apply (H1 op a) | apply (H2 n)]; apply T; assumption.
Qed.

Lemma on_heap_sub h u t : occurs u t -> on_heap h t -> on_heap h u.
Proof.
  intros Hu H op a O. apply (H op a). clear H.
  induction Hu as [|c s p H IH|c s p H IH|c l y Hin H IH].
  - exact O. - apply occ_subj; exact IH. - apply occ_pred; exact IH.
  - eapply occ_comp; eassumption.
Qed.

Lemma atom_itv_hash op a n :
  17179869184 <= a < 4611686018427387904 -> -2147483648 <= n < 2147483648 ->
  thash (Atom op a) <> thash (Itv n).
Proof.
  intros Ha Hn E. apply (f_equal (fun z => Z.shiftr z 32)) in E. cbv beta in E.
  rewrite atom_hash_high in E by (unfold two64, atomK; lia).
  rewrite itv_hash_high in E by assumption. unfold atomK in E.
  pose proof (Z.div_le_mono (17179869184 + 173201933927) (a + 173201933927) 4294967296) as D1.
  pose proof (Z.div_le_mono (n + 173201933863) (2147483648 + 173201933863) 4294967296) as D2.
  change ((17179869184 + 173201933927) / 4294967296) with 44 in D1.
  change ((2147483648 + 173201933863) / 4294967296) with 40 in D2. lia.
Qed.

Lemma teq_identity heap t1 : forall t2,
  only_ivars t1 -> only_ivars t2 -> leaf_ok t1 -> leaf_ok t2 ->
  on_heap heap t1 -> on_heap heap t2 ->
  teq t1 t2 = Ok true -> t1 = t2.
Proof.
  assert (AT : forall t1 t2, atomic t1 = true -> only_ivars t1 -> only_ivars t2 ->
    leaf_ok t1 -> leaf_ok t2 -> on_heap heap t1 -> on_heap heap t2 ->
    teq t1 t2 = Ok true -> t1 = t2).
  { clear t1. intros t1 t2 A1 O1 O2 L1 L2 P1 P2 H.
    assert (A2 : atomic t2 = true) by (eapply teq_atomic_r; eassumption).
    pose proof (teq_hash _ _ H) as E.
    destruct L1 as [La1 Li1], L2 as [La2 Li2].
    destruct t1 as [op1 a1|k1 i1|n1| |]; try discriminate A1;
      destruct t2 as [op2 a2|k2 i2|n2| |]; try discriminate A2.
    - assert (R1 := La1 op1 a1 (occ_here _)). assert (R2 := La2 op2 a2 (occ_here _)).
      apply atom_hash_inj in E; try (unfold two64; lia). subst a2.
      rewrite <- (P1 op1 a1 (occ_here _)), <- (P2 op2 a1 (occ_here _)). reflexivity.
    - assert (R1 := La1 op1 a1 (occ_here _)). exfalso.
      eapply atom_var_hash; [| exact E]. lia.
    - assert (R1 := La1 op1 a1 (occ_here _)). assert (R2 := Li2 n2 (occ_here _)). exfalso.
      eapply atom_itv_hash; [| | exact E]; lia.
    - assert (R2 := La2 op2 a2 (occ_here _)). exfalso.
      eapply atom_var_hash; [| symmetry; exact E]. lia.
    - assert (k1 = k2) by (eapply var_hash_inj; exact E). subst k2.
      apply only_ivars_var in O1. subst k1. f_equal.
      rewrite teq_atomic in H by reflexivity. rewrite E, Z.eqb_refl in H. cbn [negb] in H.
      injection H as H. apply Z.eqb_eq. exact H.
    - assert (R2 := Li2 n2 (occ_here _)). exfalso.
      symmetry in E. apply itv_var_hash in E; [| tauto]. destruct k1; simpl in E; lia.
    - assert (R1 := Li1 n1 (occ_here _)). assert (R2 := La2 op2 a2 (occ_here _)). exfalso.
      eapply atom_itv_hash; [| | symmetry; exact E]; lia.
    - assert (R1 := Li1 n1 (occ_here _)). exfalso.
      apply itv_var_hash in E; [| tauto]. destruct k2; simpl in E; lia.
    - assert (R1 := Li1 n1 (occ_here _)). assert (R2 := Li2 n2 (occ_here _)).
      apply itv_hash_inj in E; [subst; reflexivity | tauto | tauto]. }
  induction t1 as [op a|k i|n|c s p IHs IHp|c l IHl] using term_ind';
    intros t2 O1 O2 L1 L2 P1 P2 H.
  1-3: apply AT; (assumption || reflexivity).
  - apply teq_stmt_true in H. destruct H as (s2 & p2 & -> & Hs & Hp).
    apply only_ivars_stmt in O1, O2.
    assert (S1 : occurs s (Stmt c s p)) by (apply occ_subj; constructor).
    assert (S2 : occurs s2 (Stmt c s2 p2)) by (apply occ_subj; constructor).
    assert (Q1 : occurs p (Stmt c s p)) by (apply occ_pred; constructor).
    assert (Q2 : occurs p2 (Stmt c s2 p2)) by (apply occ_pred; constructor).
    f_equal; [apply IHs | apply IHp]; try tauto;
      try (eapply leaf_ok_sub; eassumption); try (eapply on_heap_sub; eassumption).
  - apply teq_comp_true in H. destruct H as (l2 & -> & H). f_equal.
    apply only_ivars_comp in O1, O2.
    assert (X1 : Forall leaf_ok l /\ Forall (on_heap heap) l).
    { split; apply Forall_forall; intros x Hin;
        assert (occurs x (Comp c l)) by (eapply occ_comp; [exact Hin | constructor]);
        [eapply leaf_ok_sub | eapply on_heap_sub]; eassumption. }
    assert (X2 : Forall leaf_ok l2 /\ Forall (on_heap heap) l2).
    { split; apply Forall_forall; intros x Hin;
        assert (occurs x (Comp c l2)) by (eapply occ_comp; [exact Hin | constructor]);
        [eapply leaf_ok_sub | eapply on_heap_sub]; eassumption. }
    destruct X1 as [X1 Y1], X2 as [X2 Y2]. clear L1 L2 P1 P2.
    revert l2 O2 H X2 Y2. induction IHl as [|x l Hx Hl IH]; intros l2 O2 H X2 Y2;
      inversion H; subst; [reflexivity|].
    inversion O1; subst; inversion O2; subst. inversion X1; subst; inversion X2; subst.
    inversion Y1; subst; inversion Y2; subst.
    f_equal; [apply Hx; assumption | apply IH; assumption].
Qed.
