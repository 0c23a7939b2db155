(* Invariant of term objects and their index lists. *)
From Coq Require Import ZArith List Bool Lia.
From Verif Require Import Base Hash Enums Term TermSpec Terms IndexVar Object ObjectSpec.
Import ListNotations.

(* ---- pointers ---- *)

Lemma replace_nth_length : forall A n (x : A) l, length (replace_nth n x l) = length l.
Proof. induction n as [|n IH]; destruct l; simpl; auto. Qed.

Lemma nth_replace_same : forall A n (x d : A) l, n < length l -> nth n (replace_nth n x l) d = x.
Proof.
  induction n as [|n IH]; destruct l; simpl; intros; try lia; auto. apply IH. lia.
Qed.

Lemma nth_replace_other : forall A n m (x d : A) l, n <> m -> nth m (replace_nth n x l) d = nth m l d.
Proof.
  induction n as [|n IH]; destruct l; destruct m; simpl; intros; auto; try lia.
Qed.

Lemma node_set_same : forall h n v, n < length (nodes h) -> node (set_node h n v) n = v.
Proof. intros. unfold node, set_node. simpl. apply nth_replace_same. assumption. Qed.

Lemma node_set_other : forall h n m v, n <> m -> node (set_node h n v) m = node h m.
Proof. intros. unfold node, set_node. simpl. apply nth_replace_other. assumption. Qed.

Lemma set_node_length : forall h n v, length (nodes (set_node h n v)) = length (nodes h).
Proof. intros. apply replace_nth_length. Qed.

(* ---- frames ---- *)

Definition lists_same (v v' : ivnode) : Prop :=
  iv_indices v' = iv_indices v /\ iv_positions v' = iv_positions v
  /\ iv_successors v' = iv_successors v /\ (iv_built v = true -> iv_built v' = true).

Lemma lists_same_refl : forall v, lists_same v v.
Proof. intros. repeat split; auto. Qed.

Lemma lists_same_trans : forall a b c, lists_same a b -> lists_same b c -> lists_same a c.
Proof. unfold lists_same. intros a b c (?&?&?&?) (?&?&?&?). repeat split; try congruence; auto. Qed.

(* Nothing but the lists of nodes outside P changed, nothing was allocated. *)
Definition touch (P : nat -> Prop) (h h' : heap) : Prop :=
  cells h' = cells h /\ next_id h' = next_id h /\ length (nodes h') = length (nodes h)
  /\ forall n, P n -> lists_same (node h n) (node h' n).

Definition frame (P : nat -> Prop) (h h' : heap) : Prop :=
  (exists xs, cells h' = cells h ++ xs) /\ (next_id h <= next_id h')%Z
  /\ length (nodes h) <= length (nodes h')
  /\ forall n, n < length (nodes h) -> P n -> lists_same (node h n) (node h' n).

Definition anywhere (n : nat) : Prop := True.

Lemma touch_frame : forall P h h', touch P h h' -> frame P h h'.
Proof.
  intros P h h' (A & B & C & D). repeat split; try lia.
  - exists []. rewrite app_nil_r. assumption.
  - apply D; assumption.
  - apply D; assumption.
  - apply D; assumption.
  - apply D; assumption.
Qed.

Lemma touch_refl : forall P h, touch P h h.
Proof. intros. repeat split; auto. Qed.

Lemma touch_trans : forall P a b c, touch P a b -> touch P b c -> touch P a c.
Proof.
  intros P a b c (A1 & B1 & C1 & D1) (A2 & B2 & C2 & D2).
  split; [congruence|]. split; [congruence|]. split; [congruence|].
  intros n Hn. eapply lists_same_trans; eauto.
Qed.

Lemma touch_weaken : forall (P Q : nat -> Prop) h h',
  (forall n, Q n -> P n) -> touch P h h' -> touch Q h h'.
Proof. intros P Q h h' I (A & B & C & D). repeat (split; [assumption|]). auto. Qed.

Lemma frame_refl : forall P h, frame P h h.
Proof. intros. apply touch_frame, touch_refl. Qed.

Lemma frame_trans : forall P a b c, frame P a b -> frame P b c -> frame P a c.
Proof.
  intros P a b c ((x1 & A1) & B1 & C1 & D1) ((x2 & A2) & B2 & C2 & D2).
  split; [exists (x1 ++ x2); rewrite A2, A1, app_assoc; reflexivity|].
  split; [lia|]. split; [lia|].
  intros n Hn Pn. eapply lists_same_trans; [apply D1; assumption|apply D2; [lia|assumption]].
Qed.

Lemma frame_weaken : forall (P Q : nat -> Prop) h h',
  (forall n, n < length (nodes h) -> Q n -> P n) -> frame P h h' -> frame Q h h'.
Proof. intros P Q h h' I (A & B & C & D). repeat (split; [assumption|]). auto. Qed.

Lemma frame_after : forall (P Q : nat -> Prop) a b c,
  frame P a b -> frame Q b c -> (forall n, n < length (nodes a) -> P n -> Q n) -> frame P a c.
Proof.
  intros P Q a b c ((x1 & A1) & B1 & C1 & D1) ((x2 & A2) & B2 & C2 & D2) I.
  split; [exists (x1 ++ x2); rewrite A2, A1, app_assoc; reflexivity|].
  split; [lia|]. split; [lia|].
  intros n Hn Pn. eapply lists_same_trans; [apply D1; assumption|apply D2; [lia|auto]].
Qed.

Lemma set_node_touch : forall h n v (P : nat -> Prop),
  (P n -> lists_same (node h n) v) -> touch P h (set_node h n v).
Proof.
  intros h n v P H. split; [reflexivity|]. split; [reflexivity|].
  split; [apply set_node_length|].
  intros m Pm. destruct (Nat.eq_dec n m) as [->|Hn].
  - destruct (lt_dec m (length (nodes h))) as [L|L].
    + rewrite node_set_same by assumption. auto.
    + unfold node. rewrite !nth_overflow; try rewrite set_node_length; try lia.
      apply lists_same_refl.
  - rewrite node_set_other by assumption. apply lists_same_refl.
Qed.

(* ---- building ---- *)

Definition settled (h : heap) (n : nat) : Prop :=
  iv_built (node h n) = true \/ iv_successors (node h n) = [].

Lemma settled_same : forall h h' n, lists_same (node h n) (node h' n) -> settled h n -> settled h' n.
Proof. intros h h' n (A & B & C & D) [H|H]; [left; auto|right; congruence]. Qed.

Lemma mark_built_spec : forall h n, n < length (nodes h) ->
  touch anywhere h (mark_built h n) /\ iv_built (node (mark_built h n) n) = true.
Proof.
  intros h n Hn. unfold mark_built. split.
  - apply set_node_touch. intros _. repeat split; auto.
  - rewrite node_set_same by assumption. reflexivity.
Qed.

Lemma hash_iv_touch : forall h n, touch anywhere h (hash_iv h n).
Proof.
  intros. unfold hash_iv. destruct (iv_hashed (node h n)); [apply touch_refl|].
  apply set_node_touch. intros _. repeat split; auto.
Qed.

Lemma mark_built_off : forall h n m, m <> n -> node (mark_built h n) m = node h m.
Proof. intros. unfold mark_built. apply node_set_other. congruence. Qed.

Lemma hash_iv_off : forall h n m, m <> n -> node (hash_iv h n) m = node h m.
Proof.
  intros. unfold hash_iv. destruct (iv_hashed (node h n)); [reflexivity|].
  apply node_set_other. congruence.
Qed.

Lemma clear_lists_off : forall h n m, m <> n -> node (clear_lists h n) m = node h m.
Proof.
  intros. unfold clear_lists. destruct (iv_successors (node h n)); [reflexivity|].
  apply node_set_other. congruence.
Qed.

Lemma build_settled : forall f h n, n < length (nodes h) -> settled h n ->
  exists h', build (S f) h n = Ok h' /\ touch anywhere h h' /\ iv_built (node h' n) = true
    /\ forall m, m <> n -> node h' m = node h m.
Proof.
  intros f h n Hn Hs. cbn [build].
  destruct (iv_built (node h n)) eqn:Eb.
  - exists h. repeat split; auto.
  - destruct Hs as [Hs|Hs]; [congruence|].
    assert (clear_lists h n = h) as -> by (unfold clear_lists; rewrite Hs; reflexivity).
    rewrite Hs. cbn [build_sons bind].
    destruct (mark_built_spec h n Hn) as [T B].
    eexists. split; [reflexivity|].
    pose proof (hash_iv_touch (mark_built h n) n) as T'.
    split; [eapply touch_trans; eauto|]. split.
    + destruct T' as (_ & _ & _ & D). specialize (D n I). destruct D as (_ & _ & _ & D). auto.
    + intros m Hm. rewrite hash_iv_off, mark_built_off by assumption. reflexivity.
Qed.

(* What the sons contribute. *)
Fixpoint son_positions (h : heap) (i : Z) (sons : list nat) : list (list Z) :=
  match sons with
  | [] => []
  | s :: sons' => map (cons i) (iv_positions (node h s)) ++ son_positions h (i + 1) sons'
  end.

Definition son_indices (h : heap) (sons : list nat) : list nat :=
  flat_map (fun s => iv_indices (node h s)) sons.

Definition apart (n : nat) (m : nat) : Prop := m <> n.

Lemma son_positions_touch : forall P h h' sons i, touch P h h' ->
  (forall s, In s sons -> P s) -> son_positions h' i sons = son_positions h i sons.
Proof.
  induction sons as [|s sons IH]; intros i T H; simpl; [reflexivity|].
  rewrite IH by (auto; intros; apply H; simpl; auto).
  destruct T as (_ & _ & _ & D). destruct (D s) as (_ & E & _); [apply H; simpl; auto|].
  rewrite E. reflexivity.
Qed.

Lemma son_indices_touch : forall P h h' sons, touch P h h' ->
  (forall s, In s sons -> P s) -> son_indices h' sons = son_indices h sons.
Proof.
  induction sons as [|s sons IH]; intros T H; simpl; [reflexivity|].
  unfold son_indices in *. simpl. rewrite IH by (auto; intros; apply H; simpl; auto).
  destruct T as (_ & _ & _ & D). destruct (D s) as (E & _); [apply H; simpl; auto|].
  rewrite E. reflexivity.
Qed.

Lemma build_sons_spec : forall f sons h n i,
  n < length (nodes h) ->
  (forall s, In s sons -> s < length (nodes h) /\ s <> n /\ settled h s) ->
  exists h', build_sons (build (S f)) h n i sons = Ok h'
    /\ touch (apart n) h h'
    /\ iv_indices (node h' n) = iv_indices (node h n) ++ son_indices h sons
    /\ iv_positions (node h' n) = iv_positions (node h n) ++ son_positions h i sons
    /\ forall m, m <> n -> ~ In m sons -> node h' m = node h m.
Proof.
  induction sons as [|s sons IH]; intros h n i Hn Hs; cbn [build_sons].
  - exists h. split; [reflexivity|]. split; [apply touch_refl|].
    simpl. rewrite !app_nil_r. auto.
  - destruct (Hs s (or_introl eq_refl)) as (Ls & Ns & Ss).
    destruct (build_settled f h s Ls Ss) as (h1 & E1 & T1 & _ & O1).
    rewrite E1. cbn [bind].
    pose proof T1 as (C1 & N1 & L1 & D1).
    set (h2 := append_son h1 n i s).
    assert (T2 : touch (apart n) h1 h2).
    { apply set_node_touch. intros Hx. exfalso. apply Hx. reflexivity. }
    assert (T12 : touch (apart n) h h2).
    { eapply touch_trans; [|exact T2]. eapply touch_weaken; [|exact T1]. intros; exact I. }
    pose proof T12 as (C2 & N2 & L2 & D2).
    destruct (IH h2 n (i + 1)%Z) as (h' & E' & T' & I' & P' & O').
    { rewrite L2. assumption. }
    { intros s' Hin. destruct (Hs s' (or_intror Hin)) as (Lx & Nx & Sx).
      rewrite L2. split; [assumption|]. split; [assumption|].
      eapply settled_same; [apply D2; exact Nx|assumption]. }
    exists h'. split; [assumption|]. split; [eapply touch_trans; eauto|].
    assert (Hn1 : n < length (nodes h1)) by (rewrite L1; assumption).
    rewrite I', P'.
    rewrite (son_indices_touch _ _ _ sons T12), (son_positions_touch _ _ _ sons (i + 1)%Z T12)
      by (intros x Hx; apply (Hs x (or_intror Hx))).
    unfold h2, append_son. rewrite node_set_same by assumption.
    cbn [iv_indices iv_positions].
    destruct (D1 n I) as (A1 & B1 & _). destruct (D1 s I) as (A2 & B2 & _).
    rewrite A1, B1, A2, B2. simpl. rewrite !app_assoc.
    split; [reflexivity|]. split; [reflexivity|].
    intros m Hm Hi. rewrite O' by tauto.
    unfold h2, append_son. rewrite node_set_other by congruence.
    apply O1. intros ->. tauto.
Qed.

Lemma build_father : forall f h n sons,
  n < length (nodes h) ->
  iv_successors (node h n) = sons ->
  iv_indices (node h n) = [] -> iv_positions (node h n) = [] ->
  (sons <> [] -> iv_built (node h n) = false) ->
  (forall s, In s sons -> s < length (nodes h) /\ s <> n /\ settled h s) ->
  exists h', build (S (S f)) h n = Ok h' /\ touch (apart n) h h'
    /\ iv_indices (node h' n) = son_indices h sons
    /\ iv_positions (node h' n) = son_positions h 0 sons
    /\ iv_built (node h' n) = true
    /\ forall m, m <> n -> ~ In m sons -> node h' m = node h m.
Proof.
  intros f h n sons Hn Es Ei Ep Hb Hs.
  destruct sons as [|s0 sons0].
  - destruct (build_settled (S f) h n Hn (or_intror Es)) as (h' & E & T & B & O).
    exists h'. split; [exact E|]. split; [eapply touch_weaken; [|exact T]; intros; exact I|].
    destruct T as (_ & _ & _ & D). destruct (D n I) as (A1 & A2 & _).
    rewrite A1, A2, Ei, Ep. auto.
  - remember (s0 :: sons0) as sons eqn:Esons.
    assert (Hb' : iv_built (node h n) = false) by (apply Hb; subst; discriminate).
    change (build (S (S f)) h n) with
      (if iv_built (node h n) then Ok h
       else bind (build_sons (build (S f)) (clear_lists h n) n 0 (iv_successors (node (clear_lists h n) n)))
              (fun h2 => Ok (hash_iv (mark_built h2 n) n))).
    rewrite Hb'.
    set (h1 := clear_lists h n).
    assert (T1 : touch anywhere h h1).
    { unfold h1, clear_lists. destruct (iv_successors (node h n)) eqn:Ex; [apply touch_refl|].
      apply set_node_touch. intros _. repeat split; auto. }
    pose proof T1 as (C1 & N1 & L1 & D1).
    destruct (D1 n I) as (A1 & A2 & A3 & _). rewrite A3, Es.
    destruct (build_sons_spec f sons h1 n 0%Z) as (h2 & E2 & T2 & I2 & P2 & O2).
    { rewrite L1. assumption. }
    { intros s Hin. destruct (Hs s Hin) as (X & Y & W). rewrite L1.
      split; [assumption|]. split; [assumption|]. eapply settled_same; [apply D1; exact I|assumption]. }
    rewrite E2. cbn [bind].
    pose proof T2 as (C2 & N2 & L2 & D2).
    destruct (mark_built_spec h2 n) as [T3 B3]; [rewrite L2, L1; assumption|].
    pose proof (hash_iv_touch (mark_built h2 n) n) as T4.
    assert (T34 : touch anywhere h2 (hash_iv (mark_built h2 n) n)) by (eapply touch_trans; eauto).
    eexists. split; [reflexivity|]. split.
    + eapply touch_trans; [eapply touch_weaken; [|exact T1]; intros; exact I|].
      eapply touch_trans; [exact T2|]. eapply touch_weaken; [|exact T34]; intros; exact I.
    + destruct T34 as (_ & _ & _ & D34). destruct (D34 n I) as (F1 & F2 & _).
      rewrite F1, F2, I2, P2, A1, A2, Ei, Ep.
      rewrite (son_indices_touch anywhere h h1 sons T1) by (intros; exact I).
      rewrite (son_positions_touch anywhere h h1 sons 0%Z T1) by (intros; exact I).
      split; [reflexivity|]. split; [reflexivity|].
      split; [destruct T4 as (_ & _ & _ & D4); destruct (D4 n I) as (_ & _ & _ & G); auto|].
      intros m Hm Hi. rewrite hash_iv_off, mark_built_off, O2 by assumption.
      unfold h1. apply clear_lists_off. assumption.
Qed.

Definition picked {A} (has : bool) (l : list A) : list A := if has then l else [].

Lemma build_one_spec : forall h n sons has,
  n < length (nodes h) -> 2 <= length (nodes h) ->
  iv_successors (node h n) = sons ->
  iv_indices (node h n) = [] -> iv_positions (node h n) = [] ->
  (sons <> [] -> iv_built (node h n) = false) ->
  (forall s, In s sons -> s < length (nodes h) /\ s <> n /\ settled h s) ->
  exists h', build_one h has n = Ok h' /\ touch (apart n) h h'
    /\ iv_indices (node h' n) = picked has (son_indices h sons)
    /\ iv_positions (node h' n) = picked has (son_positions h 0 sons)
    /\ iv_built (node h' n) = true
    /\ forall m, m <> n -> ~ In m sons -> node h' m = node h m.
Proof.
  intros h n sons has Hn H2 Es Ei Ep Hb Hs. unfold build_one, picked.
  destruct has.
  - destruct (length (nodes h)) as [|f] eqn:El; [lia|]. destruct f as [|f]; [lia|].
    apply (build_father (S f)); auto; rewrite El; assumption.
  - destruct (mark_built_spec h n Hn) as [T B]. eexists. split; [reflexivity|].
    split; [eapply touch_weaken; [|exact T]; intros; exact I|].
    destruct T as (_ & _ & _ & D). destruct (D n I) as (A1 & A2 & _).
    rewrite A1, A2, Ei, Ep. repeat split; auto.
    intros m Hm _. apply mark_built_off. assumption.
Qed.

(* ---- connecting ---- *)

Definition unless3 (ivs : nat * nat * nat) (m : nat) : Prop :=
  m <> fst (fst ivs) /\ m <> snd (fst ivs) /\ m <> snd ivs.

Definition fresh3 (h : heap) (ivs : nat * nat * nat) : Prop :=
  let '(a, b, c) := ivs in
  a < length (nodes h) /\ b < length (nodes h) /\ c < length (nodes h)
  /\ a <> b /\ b <> c /\ a <> c.

Lemma connect_at : forall h f s, f < length (nodes h) ->
  iv_indices (node (connect h f s) f) = iv_indices (node h f)
  /\ iv_positions (node (connect h f s) f) = iv_positions (node h f)
  /\ iv_successors (node (connect h f s) f) = iv_successors (node h f) ++ [s]
  /\ iv_built (node (connect h f s) f) = false.
Proof. intros. unfold connect. rewrite node_set_same by assumption. auto. Qed.

Lemma connect_off : forall h f s m, f <> m -> node (connect h f s) m = node h m.
Proof. intros. unfold connect. apply node_set_other. assumption. Qed.

Lemma connect_length : forall h f s, length (nodes (connect h f s)) = length (nodes h).
Proof. intros. apply set_node_length. Qed.

Lemma connect_touch : forall h f s, touch (apart f) h (connect h f s).
Proof. intros. apply set_node_touch. intros H. exfalso. apply H. reflexivity. Qed.

(* [son_list h0 h n sons]: in h the node n has got the sons in addition. *)
Definition got (h0 h : heap) (sons : list nat) (n : nat) : Prop :=
  iv_indices (node h n) = iv_indices (node h0 n)
  /\ iv_positions (node h n) = iv_positions (node h0 n)
  /\ iv_successors (node h n) = iv_successors (node h0 n) ++ sons
  /\ (sons <> [] -> iv_built (node h n) = false).

Lemma connect3_spec : forall h a b c s, fresh3 h (a, b, c) ->
  let h' := connect (connect (connect h a s) b s) c s in
  touch (unless3 (a, b, c)) h h' /\ got h h' [s] a /\ got h h' [s] b /\ got h h' [s] c.
Proof.
  intros h a b c s (La & Lb & Lc & Nab & Nbc & Nac) h'.
  assert (T : touch (unless3 (a, b, c)) h h').
  { eapply touch_trans; [|eapply touch_trans].
    - eapply touch_weaken; [|apply connect_touch]. intros n (X & _ & _). exact X.
    - eapply touch_weaken; [|apply connect_touch]. intros n (_ & X & _). exact X.
    - eapply touch_weaken; [|apply connect_touch]. intros n (_ & _ & X). exact X. }
  split; [exact T|].
  unfold h', got. repeat split.
  all: repeat first
    [ rewrite (connect_off _ c _ a) by congruence
    | rewrite (connect_off _ c _ b) by congruence
    | rewrite (connect_off _ b _ a) by congruence
    | rewrite (connect_off _ b _ c) by congruence
    | rewrite (connect_off _ a _ b) by congruence
    | rewrite (connect_off _ a _ c) by congruence ].
  all: try (intros _).
  all: match goal with
       | |- context [node (connect ?h ?f ?s) ?f] =>
           let X := fresh in
           assert (X : f < length (nodes h)) by (rewrite ?connect_length; assumption);
           destruct (connect_at h f s X) as (E1 & E2 & E3 & E4);
           rewrite ?E1, ?E2, ?E3, ?E4;
           repeat first
             [ rewrite (connect_off _ b _ c) by congruence
             | rewrite (connect_off _ a _ c) by congruence
             | rewrite (connect_off _ a _ b) by congruence ];
           reflexivity
       end.
Qed.

Lemma fresh3_length : forall h h' ivs, length (nodes h') = length (nodes h) -> fresh3 h ivs -> fresh3 h' ivs.
Proof. intros h h' [[a b] c] E H. unfold fresh3 in *. rewrite E. assumption. Qed.

Lemma got_trans : forall h0 h1 h2 l1 l2 n,
  got h0 h1 l1 n -> got h1 h2 l2 n -> l2 <> [] -> got h0 h2 (l1 ++ l2) n.
Proof.
  intros h0 h1 h2 l1 l2 n (A1 & A2 & A3 & A4) (B1 & B2 & B3 & B4) Hl.
  repeat split; try congruence.
  - rewrite B3, A3, app_assoc. reflexivity.
  - intros _. auto.
Qed.

Lemma got_nil : forall h n, got h h [] n.
Proof. intros. repeat split; auto. - rewrite app_nil_r. reflexivity. - congruence. Qed.

Lemma init_indexvars_spec : forall ts h ivs, fresh3 h ivs ->
  let h' := init_indexvars h ivs ts in
  let sons := map (fun t => iv_ind (hdr t)) ts in
  touch (unless3 ivs) h h'
  /\ got h h' sons (fst (fst ivs)) /\ got h h' sons (snd (fst ivs)) /\ got h h' sons (snd ivs).
Proof.
  intros ts h [[a b] c] F. cbn zeta. cbn [fst snd].
  induction ts as [|t ts IH] using rev_ind.
  - simpl. split; [apply touch_refl|]. auto using got_nil.
  - unfold init_indexvars in *. rewrite fold_left_app. cbn [fold_left].
    set (h1 := fold_left _ ts h) in *.
    destruct IH as (T & A & B & C).
    pose proof T as (_ & _ & L & _).
    destruct (connect3_spec h1 a b c (iv_ind (hdr t)) (fresh3_length _ _ _ L F)) as (T' & A' & B' & C').
    rewrite map_app. cbn [map fst snd].
    split; [eapply touch_trans; eauto|].
    repeat split; try (eapply got_trans; eauto; discriminate).
    all: first [eapply (got_trans h h1) with (1 := A) (2 := A')
               | eapply (got_trans h h1) with (1 := B) (2 := B')
               | eapply (got_trans h h1) with (1 := C) (2 := C')]; discriminate.
Qed.

(* ---- connecting and building together ---- *)

Lemma fresh3_two : forall h ivs, fresh3 h ivs -> 2 <= length (nodes h).
Proof. intros h [[a b] c] (?&?&?&?&?&?). lia. Qed.

Lemma assemble : forall h d ts,
  fresh3 h (h_ivs d) ->
  (forall n, n = iv_ind d \/ n = iv_dep d \/ n = iv_qry d ->
     iv_indices (node h n) = [] /\ iv_positions (node h n) = [] /\ iv_successors (node h n) = []) ->
  (forall t, In t ts -> iv_ind (hdr t) < length (nodes h)
     /\ unless3 (h_ivs d) (iv_ind (hdr t)) /\ settled h (iv_ind (hdr t))) ->
  let sons := map (fun t => iv_ind (hdr t)) ts in
  exists h', build_indexvars (init_indexvars h (h_ivs d) ts) d = Ok h'
    /\ touch (unless3 (h_ivs d)) h h'
    /\ (forall n has, (n, has) = (iv_ind d, h_has_ivar d) \/ (n, has) = (iv_dep d, h_has_dvar d)
           \/ (n, has) = (iv_qry d, h_has_qvar d) ->
         iv_indices (node h' n) = picked has (son_indices h sons)
         /\ iv_positions (node h' n) = picked has (son_positions h 0 sons)
         /\ iv_built (node h' n) = true).
Proof.
  intros h d ts F E0 Hs sons.
  pose proof (fresh3_two _ _ F) as H2.
  destruct (init_indexvars_spec ts h (h_ivs d) F) as (T0 & Ga & Gb & Gc).
  fold sons in Ga, Gb, Gc.
  set (h0 := init_indexvars h (h_ivs d) ts) in *.
  pose proof T0 as (C0 & N0 & L0 & D0).
  change (fst (fst (h_ivs d))) with (iv_ind d) in Ga.
  change (snd (fst (h_ivs d))) with (iv_dep d) in Gb.
  change (snd (h_ivs d)) with (iv_qry d) in Gc.
  assert (F' : iv_ind d < length (nodes h) /\ iv_dep d < length (nodes h) /\ iv_qry d < length (nodes h)
    /\ iv_ind d <> iv_dep d /\ iv_dep d <> iv_qry d /\ iv_ind d <> iv_qry d).
  { clear - F. unfold iv_ind, iv_dep, iv_qry. destruct (h_ivs d) as [[a b] c]. exact F. }
  destruct F' as (La & Lb & Lc & Nab & Nbc & Nac).
  assert (Hsons : forall s, In s sons -> s < length (nodes h)
     /\ (s <> iv_ind d /\ s <> iv_dep d /\ s <> iv_qry d) /\ settled h s).
  { intros s Hin. apply in_map_iff in Hin. destruct Hin as (t & <- & Ht). apply Hs in Ht. exact Ht. }
  assert (Old : forall h', touch (unless3 (h_ivs d)) h h' ->
      son_indices h' sons = son_indices h sons /\ son_positions h' 0 sons = son_positions h 0 sons).
  { intros h' T. split.
    - eapply son_indices_touch; [exact T|]. intros s Hin. apply Hsons. assumption.
    - eapply son_positions_touch; [exact T|]. intros s Hin. apply Hsons. assumption. }
  assert (Ga' : iv_indices (node h0 (iv_ind d)) = [] /\ iv_positions (node h0 (iv_ind d)) = []
     /\ iv_successors (node h0 (iv_ind d)) = sons /\ (sons <> [] -> iv_built (node h0 (iv_ind d)) = false)).
  { destruct Ga as (A & B & C & D). destruct (E0 (iv_ind d)) as (X & Y & Z); [auto|].
    rewrite A, B, C, X, Y, Z. auto. }
  assert (Gb' : iv_indices (node h0 (iv_dep d)) = [] /\ iv_positions (node h0 (iv_dep d)) = []
     /\ iv_successors (node h0 (iv_dep d)) = sons /\ (sons <> [] -> iv_built (node h0 (iv_dep d)) = false)).
  { destruct Gb as (A & B & C & D). destruct (E0 (iv_dep d)) as (X & Y & Z); [auto|].
    rewrite A, B, C, X, Y, Z. auto. }
  assert (Gc' : iv_indices (node h0 (iv_qry d)) = [] /\ iv_positions (node h0 (iv_qry d)) = []
     /\ iv_successors (node h0 (iv_qry d)) = sons /\ (sons <> [] -> iv_built (node h0 (iv_qry d)) = false)).
  { destruct Gc as (A & B & C & D). destruct (E0 (iv_qry d)) as (X & Y & Z); [auto|].
    rewrite A, B, C, X, Y, Z. auto. }
  clear Ga Gb Gc.
  unfold build_indexvars.
  (* independent *)
  destruct Ga' as (A1 & A2 & A3 & A4).
  destruct (build_one_spec h0 (iv_ind d) sons (h_has_ivar d)) as (h1 & E1 & T1 & I1 & P1 & B1 & O1); auto.
  { rewrite L0; assumption. } { rewrite L0; assumption. }
  { intros s Hin. destruct (Hsons s Hin) as (X & (Y1 & Y2 & Y3) & W). rewrite L0.
    split; [assumption|]. split; [assumption|]. eapply settled_same; [apply D0|assumption].
    unfold unless3. fold (iv_ind d) (iv_dep d) (iv_qry d). auto. }
  rewrite E1. cbn [bind].
  assert (T1' : touch (unless3 (h_ivs d)) h h1).
  { eapply touch_trans; [exact T0|]. eapply touch_weaken; [|exact T1]. intros n (X & _). exact X. }
  pose proof T1' as (C1 & N1 & L1 & D1).
  (* dependent *)
  destruct Gb' as (A5 & A6 & A7 & A8).
  assert (Eb : node h1 (iv_dep d) = node h0 (iv_dep d)).
  { apply O1; [auto|]. intros Hin. destruct (Hsons _ Hin) as (_ & (_ & Y & _) & _). congruence. }
  destruct (build_one_spec h1 (iv_dep d) sons (h_has_dvar d)) as (h2 & E2 & T2 & I2 & P2 & B2 & O2);
    rewrite ?Eb; auto.
  { rewrite L1; assumption. } { rewrite L1; assumption. }
  { intros s Hin. destruct (Hsons s Hin) as (X & (Y1 & Y2 & Y3) & W). rewrite L1.
    split; [assumption|]. split; [assumption|]. eapply settled_same; [apply D1|assumption].
    unfold unless3. fold (iv_ind d) (iv_dep d) (iv_qry d). auto. }
  rewrite E2. cbn [bind].
  assert (T2' : touch (unless3 (h_ivs d)) h h2).
  { eapply touch_trans; [exact T1'|]. eapply touch_weaken; [|exact T2]. intros n (_ & X & _). exact X. }
  pose proof T2' as (C2 & N2 & L2 & D2).
  (* query *)
  destruct Gc' as (A9 & A10 & A11 & A12).
  assert (Ec : node h2 (iv_qry d) = node h0 (iv_qry d)).
  { rewrite O2; [apply O1|auto|]; [auto| |];
    intros Hin; destruct (Hsons _ Hin) as (_ & (_ & _ & Y) & _); congruence. }
  destruct (build_one_spec h2 (iv_qry d) sons (h_has_qvar d)) as (h3 & E3 & T3 & I3 & P3 & B3 & O3);
    rewrite ?Ec; auto.
  { rewrite L2; assumption. } { rewrite L2; assumption. }
  { intros s Hin. destruct (Hsons s Hin) as (X & (Y1 & Y2 & Y3) & W). rewrite L2.
    split; [assumption|]. split; [assumption|]. eapply settled_same; [apply D2|assumption].
    unfold unless3. fold (iv_ind d) (iv_dep d) (iv_qry d). auto. }
  exists h3. split; [assumption|].
  split.
  { eapply touch_trans; [exact T2'|]. eapply touch_weaken; [|exact T3]. intros n (_ & _ & X). exact X. }
  destruct (Old h0 T0) as [Y0 Z0]. destruct (Old h1 T1') as [Y1 Z1]. destruct (Old h2 T2') as [Y2 Z2].
  rewrite Y0 in I1. rewrite Z0 in P1. rewrite Y1 in I2. rewrite Z1 in P2. rewrite Y2 in I3. rewrite Z2 in P3.
  assert (N3 : node h3 (iv_ind d) = node h1 (iv_ind d)).
  { rewrite O3; [apply O2|auto|]; [auto| |];
    intros Hin; destruct (Hsons _ Hin) as (_ & (Y & _ & _) & _); congruence. }
  assert (N4 : node h3 (iv_dep d) = node h2 (iv_dep d)).
  { apply O3; [auto|].
    intros Hin; destruct (Hsons _ Hin) as (_ & (_ & Y & _) & _); congruence. }
  intros n has [E|[E|E]]; inversion E; subst n has.
  - rewrite N3. auto.
  - rewrite N4. auto.
  - auto.
Qed.
