(* Reading arbitrary bytes: the buffer. *)
From Coq Require Import ZArith String Ascii List Bool Arith Lia.
From Verif Require Import Base Tables Parser LexFacts ParserFacts ParserFacts3 ParserFacts8 Buffer BufferSpec BufferFacts BufferFacts2.
From Verif Require Import Console ConsoleSpec ConsoleSpec2 ConsoleFacts ConsoleFacts2.
Import ListNotations.
Open Scope list_scope.
Open Scope Z_scope.

(** * The tables *)

(* No range tells apart what stand_in identifies. *)
Fixpoint coarse (chars : list Z) : bool :=
  match chars with
  | lo :: hi :: chars' =>
      (lo <=? -1) ||
      (negb (lo =? 1) && negb (hi =? 0) && ((hi <? 127) || (255 <? lo) || ((lo <=? 127) && (255 <=? hi)))
       && coarse chars')
  | _ => true
  end.

Lemma coarse_rows : forallb (forallb (fun chr => coarse (skipn (Z.to_nat chr) dfa_chars))) dfa_idx = true.
Proof. vm_compute. reflexivity. Qed.

Definition stand (v : Z) : Z := if v <? 0 then -1 else if v =? 0 then 1 else if v <? 128 then v else 127.

Lemma stand_in_code v : code (stand_in v) = stand v.
Proof.
  unfold stand_in, stand. destruct (Z.ltb_spec v 0); [reflexivity|]. destruct (Z.eqb_spec v 0); [reflexivity|].
  destruct (Z.ltb_spec v 128); [|reflexivity]. unfold code. rewrite nat_ascii_embedding by lia. rewrite Z2Nat.id by lia.
  destruct (Z.ltb_spec v 128); lia.
Qed.

Lemma stand_range v lo hi : -1 <= v < 256 -> lo <> 1 -> hi <> 0 -> -1 < lo ->
  hi < 127 \/ 255 < lo \/ (lo <= 127 /\ 255 <= hi) ->
  ((lo <=? v) && (v <=? hi)) = ((lo <=? stand v) && (stand v <=? hi)).
Proof.
  intros B L H P C. unfold stand. apply Bool.eq_iff_eq_true. rewrite !andb_true_iff, !Z.leb_le.
  destruct (Z.ltb_spec v 0); [lia|]. destruct (Z.eqb_spec v 0); [lia|]. destruct (Z.ltb_spec v 128); lia.
Qed.

Lemma walk_stand v : -1 <= v < 256 -> forall trans chars, coarse chars = true ->
  walk chars trans v = walk chars trans (stand v).
Proof.
  intros B. induction trans as [|t trans IH]; intros chars C; destruct chars as [|lo [|hi chars]]; try reflexivity.
  cbn [walk coarse] in *. destruct (Z.leb_spec lo (-1)); [reflexivity|]. cbn [orb] in C.
  apply andb_true_iff in C as [C C4]. apply andb_true_iff in C as [C C3]. apply andb_true_iff in C as [C1 C2].
  apply negb_true_iff, Z.eqb_neq in C1, C2.
  rewrite (stand_range v lo hi B C1 C2 ltac:(lia)).
  - destruct ((lo <=? stand v) && (stand v <=? hi)); [reflexivity|apply IH, C4].
  - apply orb_true_iff in C3 as [C3|C3]; [apply orb_true_iff in C3 as [C3|C3]; apply Z.ltb_lt in C3; auto|].
    apply andb_true_iff in C3 as [X Y]. apply Z.leb_le in X, Y. auto.
Qed.

Lemma dfa_step_stand m st v : -1 <= v < 256 -> dfa_step m st v = dfa_step m st (code (stand_in v)).
Proof.
  intros B. rewrite stand_in_code. unfold dfa_step. destruct (rd dfa_idx m) as [row| | |] eqn:R; try reflexivity. cbn [bind].
  destruct (rd row st) as [chr| | |] eqn:R2; try reflexivity. cbn [bind]. destruct (chr <? 0); [reflexivity|].
  apply walk_stand; [exact B|]. apply rd_In in R. apply rd_In in R2. pose proof coarse_rows as F.
  rewrite forallb_forall in F. specialize (F _ R). rewrite forallb_forall in F. exact (F _ R2).
Qed.

(** * Following *)

(* y goes wrong, or does what x does. *)
Definition follows {A B} (P : A -> B -> Prop) (x : res A) (y : res B) : Prop :=
  match y with
  | UB => True
  | Ok b => exists a, x = Ok a /\ P a b
  | Throw => x = Throw
  | OutOfFuel => x = OutOfFuel
  end.

Lemma follows_same {A B C} (Q : B -> C -> Prop) (x : res A) f g :
  (forall a, x = Ok a -> follows Q (f a) (g a)) -> follows Q (bind x f) (bind x g).
Proof. intros H. destruct x; cbn; auto. Qed.

Lemma follows_bind {A B C D} (P : A -> B -> Prop) (Q : C -> D -> Prop) x y f g :
  follows P x y -> (forall a b, x = Ok a -> y = Ok b -> P a b -> follows Q (f a) (g b)) -> follows Q (bind x f) (bind y g).
Proof.
  intros H K. destruct y as [b| | |]; cbn [follows bind] in *.
  - destruct H as (a & -> & Pa). cbn [bind]. apply K; auto.
  - exact I.
  - rewrite H. reflexivity.
  - rewrite H. reflexivity.
Qed.

(* Wrong, or done. *)
Definition definite {A} (y : res A) : Prop := y = UB \/ exists a, y = Ok a.

Lemma follows_right {B C D} (Q : C -> D -> Prop) x (y : res B) g :
  definite y -> (forall b, y = Ok b -> follows Q x (g b)) -> follows Q x (bind y g).
Proof. intros [->|[b ->]] H; cbn; auto. Qed.

Lemma load_definite cs i : definite (load cs i).
Proof. unfold load. destruct (nth_error cs i) as [[v|]|]; [right; eauto|left; reflexivity|left; reflexivity]. Qed.

Lemma store_definite cs i v : definite (store cs i v).
Proof. unfold store. destruct (i <? length cs)%nat; [right; eauto|left; reflexivity]. Qed.

Lemma enlarge_definite b : definite (enlarge b).
Proof.
  unfold enlarge. destruct (cells b) as [|c cs]; [right; eauto|]. destruct (load_definite (c :: cs) 0) as [->|[v ->]]; [left; reflexivity|].
  cbn [bind]. destruct (_ && _); right; eauto.
Qed.

Lemma advance_definite n : forall cs p, definite (advance n cs p).
Proof.
  induction n as [|n IH]; intros cs p; [right; eexists; reflexivity|]. cbn [advance].
  destruct cs as [|[v|] cs]; try (left; reflexivity). apply IH.
Qed.

Lemma clear_definite len b p : definite (clear len b p).
Proof.
  unfold clear. destruct (cells b) as [|c cs]; [right; eauto|]. destruct len as [|len].
  - destruct (store_definite (c :: cs) 0 0) as [->|[v ->]]; [left; reflexivity|right; cbn [bind]; eauto].
  - destruct (advance_definite (S len) (c :: cs) p) as [->|[v ->]]; [left; reflexivity|]. cbn [bind].
    destruct (_ || _); [left; reflexivity|right; eauto].
Qed.

Lemma lexem_definite cs : definite (lexem cs).
Proof.
  induction cs as [|[v|] cs IH]; try (left; reflexivity). cbn [lexem]. destruct (v =? 0); [right; eauto|].
  destruct (_ || _); [left; reflexivity|]. destruct IH as [->|[w ->]]; [left; reflexivity|right; cbn [bind]; eauto].
Qed.

(** * The buffer *)

Definition closed (l : list Z) : Prop := Forall (fun v => 0 <= v < 256 /\ v <> 10) l.

(* The characters l are those of the buffer and those still to be fetched, up
   to the newline, or up to EOF. *)
Record view (b : buffer) (l : list Z) : Prop := {
  v_used : (used b <= length l)%nat;
  v_chars : forall i, (i < used b)%nat -> exists v, nth_error l i = Some v /\ nth_error (cells b) i = Some (Some v);
  v_queue :
    (closed l /\ if ended b then used b = length l else exists later, queue b = skipn (used b) l ++ 10 :: later) \/
    (ended b = false /\ exists pre, closed pre /\ l = pre ++ [-1] /\ queue b = skipn (used b) pre)
}.

Lemma closed_open pre : ~ closed (pre ++ [-1]).
Proof. intros C. apply Forall_app in C as [_ C]. inversion C; subst. lia. Qed.

Lemma view_values b l i v : view b l -> nth_error l i = Some v -> -1 <= v < 256 /\ v <> 10.
Proof.
  intros [_ _ Q] E. apply nth_error_In in E. destruct Q as [[C _]|(_ & pre & C & -> & _)].
  - unfold closed in C. rewrite Forall_forall in C. specialize (C _ E). lia.
  - unfold closed in C. rewrite Forall_forall in C. apply in_app_or in E as [E|[<-|[]]]; [specialize (C _ E); lia|lia].
Qed.

Lemma view_closed b l : view b l -> (exists i, nth_error l i = Some (-1) /\ S i = length l) \/ closed l.
Proof.
  intros [_ _ [[C _]|(_ & pre & C & -> & _)]]; [auto|left]. exists (length pre).
  rewrite nth_error_app2 by lia. rewrite Nat.sub_diag, app_length. cbn. split; [reflexivity|lia].
Qed.

Lemma view_next b l i v : view b l -> nth_error l i = Some v -> 0 <= v -> (S i < length l \/ S i = length l /\ closed l)%nat.
Proof.
  intros V E P. pose proof (nth_error_Some l i) as [NS _]. specialize (NS ltac:(congruence)).
  destruct (view_closed _ _ V) as [(j & EJ & LJ)|C]; [|destruct (Nat.eq_dec (S i) (length l)); [auto|lia]].
  left. destruct (Nat.eq_dec i j) as [->|N]; [rewrite E in EJ; injection EJ as ->; lia|lia].
Qed.

Lemma enlarge_view b l b' : view b l -> enlarge b = Ok b' ->
  view b' l /\ used b' = used b /\ ended b' = ended b /\ queue b' = queue b.
Proof.
  intros [V1 V2 V3] E. destruct (enlarge_keeps _ _ E) as (Q1 & Q2 & Q3).
  assert (U : used b' = used b).
  { rewrite Q3. destruct (cells b) as [|c cs] eqn:EC; [|reflexivity]. destruct (used b); [reflexivity|].
    destruct (V2 O ltac:(lia)) as (v & _ & X). discriminate. }
  split; [|auto]. split; rewrite ?U, ?Q1, ?Q2; auto. intros i L. destruct (V2 i L) as (v & X & Y). exists v. split; [exact X|].
  unfold enlarge in E. destruct (cells b) as [|c cs] eqn:EC; [destruct i; discriminate|].
  destruct (load (c :: cs) 0) as [w| | |]; cbn [bind] in E; try discriminate.
  destruct (_ && _); injection E as <-; cbn [cells]; [|rewrite EC; exact Y].
  rewrite resize_nth; [exact Y|lia|]. apply nth_error_Some. congruence.
Qed.

Lemma refill_view b l : view b l -> (used b < length l \/ used b = length l /\ closed l)%nat ->
  refill b = UB \/ exists s b', refill b = Ok (s, b') /\ view b' l /\
    ((used b < length l)%nat -> s = false /\ used b' = S (used b)) /\
    (used b = length l -> s = true /\ used b' = used b /\ ended b' = true).
Proof.
  intros V H. unfold refill. destruct (enlarge_definite b) as [->|[b1 E]]; [left; reflexivity|]. rewrite E. cbn [bind].
  destruct (enlarge_view _ _ _ V E) as (V1 & U & D & Q). rewrite <- U in *. clear V E U D Q b.
  destruct (ended b1) eqn:ED.
  { right. exists true, b1. split; [reflexivity|]. split; [exact V1|].
    destruct (v_queue _ _ V1) as [[_ X]|[X _]]; [|congruence]. rewrite ED in X. split; [lia|auto]. }
  destruct V1 as [W1 W2 W3].
  assert (FETCH : exists c q, (match queue b1 with [] => (-1, []) | c :: q => (c, q) end) = (c, q) /\
    ((used b1 < length l)%nat -> c <> 10 /\ nth_error l (used b1) = Some c /\
       ((closed l /\ exists later, q = skipn (S (used b1)) l ++ 10 :: later) \/
        (exists pre, closed pre /\ l = pre ++ [-1] /\ q = skipn (S (used b1)) pre))) /\
    (used b1 = length l -> c = 10)).
  { destruct W3 as [[C X]|(_ & pre & C & -> & X)].
    - rewrite ED in X. destruct X as [later X]. destruct (Nat.lt_ge_cases (used b1) (length l)) as [L|L].
      + destruct (nth_some l (used b1) L) as [c EC]. rewrite (skipn_cons _ _ _ EC) in X. rewrite X. cbn [app].
        exists c, (skipn (S (used b1)) l ++ 10 :: later). split; [reflexivity|]. split; [|lia]. intros _.
        split; [|split; [exact EC|left; eauto]]. unfold closed in C. rewrite Forall_forall in C. apply (C c), (nth_error_In _ _ EC).
      + rewrite skipn_all2 in X by lia. rewrite X. cbn [app]. exists 10, later. split; [reflexivity|]. split; [lia|auto].
    - rewrite app_length in *. cbn [length] in *. destruct H as [H|[_ H]]; [|destruct (closed_open _ H)].
      destruct (Nat.lt_ge_cases (used b1) (length pre)) as [L|L].
      + destruct (nth_some pre (used b1) L) as [c EC]. rewrite (skipn_cons _ _ _ EC) in X. rewrite X.
        exists c, (skipn (S (used b1)) pre). split; [reflexivity|]. split; [|lia]. intros _.
        split; [|split; [rewrite nth_error_app1 by lia; exact EC|right; eauto]].
        unfold closed in C. rewrite Forall_forall in C. apply (C c), (nth_error_In _ _ EC).
      + rewrite skipn_all2 in X by lia. rewrite X. exists (-1), []. split; [reflexivity|]. split; [|lia]. intros _.
        split; [discriminate|]. split.
        * rewrite nth_error_app2 by lia. replace (used b1 - length pre)%nat with O by lia. reflexivity.
        * right. exists pre. split; [exact C|]. split; [reflexivity|]. symmetry. apply skipn_all2. lia. }
  destruct FETCH as (c & q & -> & F1 & F2).
  destruct (store_definite (cells b1) (used b1) c) as [->|[cs S1]]; [left; reflexivity|]. rewrite S1. cbn [bind].
  destruct (store_nth _ _ _ _ S1) as (L1 & _ & N1 & O1).
  destruct H as [H|[H HC]].
  - destruct (F1 H) as (C10 & EC & QQ). destruct (Z.eqb_spec c 10) as [|_]; [contradiction|].
    destruct (store_definite cs (S (used b1)) 0) as [->|[cs' S2]]; [left; reflexivity|]. rewrite S2. cbn [bind].
    destruct (store_nth _ _ _ _ S2) as (L2 & _ & N2 & O2).
    right. exists false, (Buf cs' (S (used b1)) q false). split; [reflexivity|]. split; [|cbn [used]; split; [auto|lia]].
    split; cbn [used cells queue ended]; [lia| |].
    + intros i L. rewrite O2 by lia. destruct (Nat.eq_dec i (used b1)) as [->|NE]; [eauto|]. rewrite O1 by exact NE. apply W2. lia.
    + destruct QQ as [QQ|QQ]; [left; exact QQ|right; split; [reflexivity|exact QQ]].
  - rewrite (F2 H). cbn [Z.eqb Pos.eqb]. right. exists true, (Buf cs (used b1) q true). split; [reflexivity|].
    split; [|cbn [used ended]; split; [lia|auto]].
    split; cbn [used cells queue ended]; [lia| |left; auto].
    intros i L. rewrite O1 by lia. apply W2, L.
Qed.

Lemma get_loop_view l off : (off < length l \/ off = length l /\ closed l)%nat ->
  forall fuel b, view b l -> (S off <= used b + fuel)%nat ->
  get_loop fuel off b = UB \/ exists c b', get_loop fuel off b = Ok (c, b') /\ view b' l /\
    used b' = Nat.max (used b) (Nat.min (S off) (length l)) /\
    ((off < length l)%nat -> nth_error l off = Some c) /\
    (off = length l -> c = 10 /\ ended b' = true).
Proof.
  intros H. induction fuel as [|fuel IH]; intros b V F; cbn [get_loop]; destruct (Nat.leb_spec (used b) off) as [L|L]; try lia.
  1, 3: destruct (v_chars _ _ V off L) as (v & E1 & E2); rewrite (load_ok _ _ _ E2); cbn [bind]; right; exists v, b;
    pose proof (v_used _ _ V); split; [reflexivity|]; split; [exact V|]; split; [lia|]; split; [auto|lia].
  assert (H1 : (used b < length l \/ used b = length l /\ closed l)%nat).
  { pose proof (v_used _ _ V). destruct H as [H|[H C]]; [lia|]. destruct (Nat.eq_dec (used b) (length l)); [auto|lia]. }
  destruct (refill_view _ _ V H1) as [->|(s & b' & -> & V' & R1 & R2)]; [left; reflexivity|]. cbn [bind].
  destruct (Nat.eq_dec (used b) (length l)) as [EL|NL].
  - destruct (R2 EL) as (-> & U & D). right. exists 10, b'. split; [reflexivity|]. split; [exact V'|]. split; [lia|]. split; [lia|auto].
  - destruct (R1 ltac:(lia)) as (-> & U). destruct (IH b' V' ltac:(lia)) as [->|(c & b2 & -> & V2 & U2 & I1 & I2)]; [left; reflexivity|].
    right. exists c, b2. split; [reflexivity|]. split; [exact V2|]. split; [lia|]. split; auto.
Qed.

Lemma get_input_view l off b : (off < length l \/ off = length l /\ closed l)%nat -> view b l ->
  get_input off b = UB \/ exists c b', get_input off b = Ok (c, b') /\ view b' l /\
    used b' = Nat.max (used b) (Nat.min (S off) (length l)) /\
    ((off < length l)%nat -> nth_error l off = Some c) /\
    (off = length l -> c = 10 /\ ended b' = true).
Proof. intros H V. apply get_loop_view; [exact H|exact V|lia]. Qed.

Lemma scan_fread m f : forall t st n best, scan m st t n best = Ok f -> (n <= fread f)%nat /\ (t <> [] -> n < fread f)%nat.
Proof.
  induction t as [|c t IH]; intros st n best E; cbn [scan] in E.
  - injection E as <-. cbn. split; [lia|congruence].
  - enough (n < fread f)%nat by (split; [lia|auto]).
    destruct (dfa_step m st (code c)) as [o| | |]; try discriminate. cbn [bind] in E.
    destruct o as [st'|]; [|injection E as <-; cbn; lia].
    destruct (rd dfa_accept m) as [row| | |]; try discriminate. cbn [bind] in E.
    destruct (rd row st') as [a| | |]; try discriminate. cbn [bind] in E.
    destruct (0 <? a).
    + destruct (a - 1 =? 0); [injection E as <-; cbn; lia|].
      destruct (rd symbols (a - 1)) as [s| | |]; try discriminate. cbn [bind] in E.
      destruct (snd s); [apply IH in E; lia|injection E as <-; cbn; lia].
    + apply IH in E; lia.
Qed.

Definition finds (l : list Z) (n : nat) (f : found) (r : Z * nat * buffer) : Prop :=
  fst (fst r) = fsym f /\ snd (fst r) = flen f /\ view (snd r) l /\ used (snd r) = Nat.max n (fread f).

Lemma lex_loop_view m l : forall fuel st len c best b,
  nth_error l len = Some c -> view b l -> (len < used b)%nat -> (length l <= len + fuel)%nat ->
  follows (finds l (used b)) (scan m st (skipn len (map stand_in l)) len best) (lex_loop fuel m st c len best b).
Proof.
  induction fuel as [|fuel IH]; intros st len c best b EC V LN LF.
  { pose proof (nth_error_Some l len) as [NS _]. specialize (NS ltac:(congruence)). lia. }
  assert (EC' : nth_error (map stand_in l) len = Some (stand_in c)) by (rewrite nth_error_map, EC; reflexivity).
  rewrite (skipn_cons _ _ _ EC'). cbn [scan lex_loop]. destruct (view_values _ _ _ _ V EC) as [VB _].
  rewrite (dfa_step_stand m st c VB). apply follows_same. intros o EO. rewrite <- (dfa_step_stand m st c VB) in EO.
  assert (HERE : forall f sy le, fsym f = sy -> flen f = le -> fread f = S len ->
    follows (finds l (used b)) (Ok f) (Ok (sy, le, b))).
  { intros f sy le E1 E2 E3. exists f. split; [reflexivity|]. unfold finds. cbn [fst snd]. rewrite E3.
    split; [auto|]. split; [auto|]. split; [exact V|lia]. }
  destruct o as [st'|].
  - pose proof (view_next _ _ _ _ V EC (dfa_step_positive _ _ _ _ EO)) as NX. clear EO.
    apply follows_same. intros row ER. apply follows_same. intros a EA.
    assert (MORE : forall best,
      follows (finds l (used b)) (scan m st' (skipn (S len) (map stand_in l)) (S len) best)
        (bind (get_input (S len) b) (fun '(c0, b') =>
           if c0 =? 10 then Ok (best, b') else lex_loop fuel m st' c0 (S len) best b'))).
    { intros best'. destruct (get_input_view l (S len) b NX V) as [->|(d & b' & -> & V' & U & G1 & G2)]; [exact I|]. cbn [bind].
      destruct (Nat.eq_dec (S len) (length l)) as [EL|NL].
      - destruct (G2 EL) as [-> _]. cbn [Z.eqb Pos.eqb]. rewrite skipn_all2 by (rewrite map_length; lia). cbn [scan].
        exists (Found (fst best') (snd best') (S len)). split; [reflexivity|]. unfold finds. destruct best'. cbn [fst snd fsym flen fread].
        split; [reflexivity|]. split; [reflexivity|]. split; [exact V'|]. pose proof (v_used _ _ V). lia.
      - specialize (G1 ltac:(lia)). destruct (view_values _ _ _ _ V G1) as [_ D10]. apply Z.eqb_neq in D10. rewrite D10.
        specialize (IH st' (S len) d best' b' G1 V' ltac:(lia) ltac:(lia)).
        destruct (lex_loop fuel m st' d (S len) best' b') as [r| | |]; cbn [follows] in *; auto.
        destruct IH as (f & ES & F1 & F2 & F3 & F4). exists f. split; [exact ES|]. split; [exact F1|]. split; [exact F2|].
        split; [exact F3|]. apply scan_fread in ES as [_ FR].
        assert (NE : skipn (S len) (map stand_in l) <> []).
        { intros X. apply (f_equal (@length _)) in X. rewrite skipn_length, map_length in X. cbn [length] in X. lia. }
        specialize (FR NE). lia. }
    destruct (0 <? a).
    + destruct (a - 1 =? 0); [apply HERE; reflexivity|].
      apply follows_same. intros s Es. destruct (snd s); [apply MORE|apply HERE; reflexivity].
    + apply MORE.
  - destruct best. apply HERE; reflexivity.
Qed.

Lemma view_length b l : view b l -> (length l <= S (used b + length (queue b)))%nat.
Proof.
  intros [V1 V2 [[C X]|(_ & pre & C & -> & X)]].
  - destruct (ended b); [lia|]. destruct X as [later ->]. rewrite app_length, skipn_length. lia.
  - rewrite X, app_length, skipn_length. cbn [length]. lia.
Qed.

Lemma next_sym_view s b l : view b l ->
  follows (fun f r => finds l (used b) f r /\ (l = [] -> ended (snd r) = true)) (get_sym s (map stand_in l)) (next_sym s b).
Proof.
  intros V. unfold get_sym, next_sym. apply follows_same. intros m EM.
  assert (R0 : (0 < length l \/ 0 = length l /\ closed l)%nat).
  { destruct l as [|c l]; [right; split; [reflexivity|constructor]|left; cbn; lia]. }
  destruct (get_input_view l 0 b R0 V) as [->|(c & b' & -> & V' & U & G1 & G2)]; [exact I|]. cbn [bind].
  destruct l as [|v l].
  - destruct (G2 eq_refl) as [-> D]. cbn [Z.eqb Pos.eqb map]. eexists. split; [reflexivity|].
    unfold finds. cbn [fst snd fsym flen fread]. cbn [length] in U. split; [|auto].
    split; [reflexivity|]. split; [reflexivity|]. split; [exact V'|]. lia.
  - specialize (G1 ltac:(cbn; lia)). destruct (view_values _ _ _ _ V G1) as [_ C10]. apply Z.eqb_neq in C10. rewrite C10.
    cbn [map]. destruct (-1 <? m).
    + pose proof (lex_loop_view m (v :: l) (S (used b' + length (queue b'))) 0 0 c (-1, O) b' G1 V') as LL.
      cbn [length] in U. specialize (LL ltac:(lia) (view_length _ _ V')). cbn [skipn] in LL.
      change (map stand_in (v :: l)) with (stand_in v :: map stand_in l) in LL.
      destruct (lex_loop _ m 0 c 0 (-1, O) b') as [r| | |]; cbn [follows] in *; auto.
      destruct LL as (f & ES & F1 & F2 & F3 & F4). exists f. split; [exact ES|]. split; [|discriminate].
      split; [exact F1|]. split; [exact F2|]. split; [exact F3|].
      apply scan_fread in ES as [_ FR]. specialize (FR ltac:(discriminate)). lia.
    + eexists. split; [reflexivity|]. unfold finds. cbn [fst snd fsym flen fread]. cbn [length] in U. split; [|discriminate].
      split; [reflexivity|]. split; [reflexivity|]. split; [exact V'|]. lia.
Qed.

Lemma clear_view len b l p b' p' : view b l -> (0 < len <= used b)%nat -> Forall (fun v => 0 <= v) (firstn len l) ->
  clear len b p = Ok (b', p') -> view b' (skipn len l) /\ used b' = (used b - len)%nat.
Proof.
  intros [V1 V2 V3] L FP E. unfold clear in E. destruct (cells b) as [|c cs] eqn:EC.
  { destruct (V2 O ltac:(lia)) as (v & _ & X). discriminate. }
  destruct len as [|len]; [lia|]. remember (S len) as k eqn:EK. clear len EK. remember (c :: cs) as q eqn:EL. clear c cs EL.
  destruct (advance k q p); cbn [bind] in E; try discriminate.
  destruct ((used b <? k)%nat || (length q <? used b + 2)%nat) eqn:B; try discriminate.
  apply orb_false_iff in B as [B1 B2]. apply Nat.ltb_ge in B1, B2.
  injection E as <- <-. cbn [used]. split; [|reflexivity].
  split; cbn [used cells queue ended].
  - rewrite skipn_length. lia.
  - intros i Hi. destruct (V2 (k + i)%nat ltac:(lia)) as (v & X & Y). exists v. rewrite skipn_nth. split; [exact X|].
    rewrite nth_error_app1 by (rewrite firstn_length, skipn_length; lia).
    rewrite firstn_nth by lia. rewrite skipn_nth. exact Y.
  - assert (SK : forall m : list Z, skipn (used b - k) (skipn k m) = skipn (used b) m).
    { intros m. apply nth_error_ext_eq. intros i. rewrite !skipn_nth. f_equal. lia. }
    destruct V3 as [[C X]|(D & pre & C & -> & X)].
    + left. split; [unfold closed in *; rewrite <- (firstn_skipn k l) in C; apply Forall_app in C; apply C|].
      destruct (ended b); [rewrite skipn_length; lia|]. destruct X as [later X]. exists later. rewrite SK. exact X.
    + right. split; [exact D|]. rewrite app_length in *. cbn [length] in *. exists (skipn k pre).
      assert (LP : (k <= length pre)%nat).
      { destruct (Nat.le_gt_cases k (length pre)) as [|G]; [assumption|]. exfalso.
        rewrite firstn_all2 in FP by (rewrite app_length; cbn; lia). apply Forall_app in FP as [_ FP]. inversion FP; subst. lia. }
      split; [unfold closed in *; rewrite <- (firstn_skipn k pre) in C; apply Forall_app in C; apply C|].
      rewrite skipn_app. replace (k - length pre)%nat with O by lia. cbn [skipn]. split; [reflexivity|]. rewrite SK. exact X.
Qed.
