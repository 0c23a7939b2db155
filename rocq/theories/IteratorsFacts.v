(* Proofs about the iterators: programs without assignments, and with them *)
From Coq Require Import ZArith String List Bool Lia Permutation.
From Verif Require Import Base Maps MapsFacts Term Iterators IteratorsSpec.
Import ListNotations.
Open Scope string_scope.
Open Scope list_scope.
Open Scope Z_scope.

Notation names := (list (string * iterator)).
Notation spots := (list (Z * spot)).

Lemma Zeqb_ok : forall x y, (x =? y) = true <-> x = y.
Proof. intros. apply Z.eqb_eq. Qed.
Lemma Seqb_ok : forall x y, (x =? y)%string = true <-> x = y.
Proof. intros. apply String.eqb_eq. Qed.

(* ---- memory ---- *)

Lemma perm_lookup (l : spots) a s r : NoDup (map fst l) -> Permutation l ((a, s) :: r) -> lookup Z.eqb a l = Some s.
Proof.
  intros N P. apply (in_lookup Z.eqb Zeqb_ok); [exact N|]. eapply Permutation_in; [apply Permutation_sym; exact P|]. left. reflexivity.
Qed.

Lemma unset_away {V} (l : list (Z * V)) a : ~ In a (map fst l) -> unset Z.eqb a l = l.
Proof.
  induction l as [|[a' b'] l IH]; intros N; [reflexivity|]. unfold unset in *. cbn [filter fst].
  destruct (Z.eqb_spec a a') as [->|D]; cbn [negb].
  - exfalso. apply N. left. reflexivity.
  - rewrite IH; [reflexivity|]. intros I. apply N. right. exact I.
Qed.

Lemma unset_perm (l : spots) a b r : NoDup (map fst l) -> Permutation l ((a, b) :: r) ->
  Permutation (unset Z.eqb a l) r.
Proof.
  intros N P. assert (N' : NoDup (map fst ((a, b) :: r))).
  { eapply Permutation_NoDup; [|exact N]. apply Permutation_map. exact P. }
  assert (Q : forall l l' : spots, Permutation l l' -> Permutation (unset Z.eqb a l) (unset Z.eqb a l')).
  { clear. intros l l' P. unfold unset. induction P as [|x l l' P IH|x y l|l l' l'' P IH P' IH']; cbn [filter].
    - constructor.
    - destruct (negb (a =? fst x)); [constructor; exact IH|exact IH].
    - destruct (negb (a =? fst x)), (negb (a =? fst y)); try apply Permutation_refl. constructor.
    - exact (Permutation_trans IH IH'). }
  eapply Permutation_trans; [exact (Q _ _ P)|]. unfold unset. cbn [filter fst]. rewrite Z.eqb_refl. cbn [negb].
  cbn [map fst] in N'. inversion N' as [|x y X _]; subst. fold (unset Z.eqb a r). rewrite unset_away; [apply Permutation_refl|exact X].
Qed.

Lemma unset_in {V} (l : list (Z * V)) a x : In x (unset Z.eqb a l) -> In x l /\ a <> fst x.
Proof.
  unfold unset. intros I. apply filter_In in I. destruct I as [I E]. split; [exact I|].
  intros ->. rewrite Z.eqb_refl in E. discriminate E.
Qed.

Lemma top_fresh h : sound h -> ~ In (top h) (map fst (live h)).
Proof.
  intros [_ B] I. apply in_map_iff in I. destruct I as ([a s] & E & I). cbn in E. subst a.
  specialize (B _ _ I). lia.
Qed.

Lemma sound_new h s : sound h -> sound (Memory (top h + 1) ((top h, s) :: live h) (odd h)).
Proof.
  intros S. pose proof (top_fresh h S) as T. destruct S as [N B]. split; cbn [live top map fst].
  - constructor; [exact T|exact N].
  - intros a s' [E|I]; [injection E as <- <-; lia|]. specialize (B _ _ I). lia.
Qed.

Lemma sound_unset h a o : sound h -> sound (Memory (top h) (unset Z.eqb a (live h)) o).
Proof.
  intros [N B]. split; cbn [live top].
  - apply (unset_keys Z.eqb). exact N.
  - intros x s I. apply unset_in in I. exact (B _ _ (proj1 I)).
Qed.

Lemma sound_set h a s s0 o : sound h -> lookup Z.eqb a (live h) = Some s0 ->
  sound (Memory (top h) (Maps.set Z.eqb a s (live h)) o).
Proof.
  intros S L. pose proof (sound_unset h a o S) as [N' B']. cbn [live top] in *. split; cbn [live top].
  - unfold Maps.set. cbn [map fst]. constructor; [|exact N']. intros I. apply in_map_iff in I.
    destruct I as ([x y] & E & I). cbn in E. subst x. apply unset_in in I. apply (proj2 I). reflexivity.
  - intros x y [E|I]; [|exact (B' _ _ I)]. injection E as <- <-.
    apply (lookup_in Z.eqb Zeqb_ok) in L. exact (proj2 S _ _ L).
Qed.

(* ---- variables ---- *)

Lemma held_names vs ms l : held vs ms l -> map fst vs = map fst ms.
Proof. induction 1 as [|x i c p vs ms l H IH]; [reflexivity|]. cbn [map fst]. rewrite IH. reflexivity. Qed.

Lemma held_has vs ms l x : held vs ms l -> has String.eqb x vs = has String.eqb x ms.
Proof.
  unfold has. induction 1 as [|y i c p vs ms l H IH]; [reflexivity|]. cbn [lookup].
  destruct (x =? y)%string; [reflexivity|exact IH].
Qed.

Lemma held_lookup vs ms l x : held vs ms l ->
  match lookup String.eqb x vs with
  | None => lookup String.eqb x ms = None
  | Some i => exists c p l', lookup String.eqb x ms = Some (c, p) /\
                Permutation l ((it_ i, Spot (is_commutative i) c p) :: l')
  end.
Proof.
  induction 1 as [|y i c p vs ms l H IH]; [reflexivity|]. cbn [lookup].
  destruct (x =? y)%string.
  - exists c, p, l. split; [reflexivity|apply Permutation_refl].
  - destruct (lookup String.eqb x vs) as [j|]; [|exact IH].
    destruct IH as (c' & p' & l' & E & P). exists c', p', ((it_ i, Spot (is_commutative i) c p) :: l').
    split; [exact E|]. eapply Permutation_trans; [apply perm_skip; exact P|]. apply perm_swap.
Qed.

Lemma placed_away x q ms : ~ In x (map fst ms) -> placed x q ms = ms.
Proof.
  induction ms as [|[y r] ms IH]; intros N; [reflexivity|]. unfold placed in *. cbn [map fst].
  destruct (String.eqb_spec y x) as [->|D]; [exfalso; apply N; left; reflexivity|].
  rewrite IH; [reflexivity|]. intros I. apply N. right. exact I.
Qed.

Lemma held_placed vs ms l x i c p q : held vs ms l -> NoDup (map fst vs) ->
  lookup String.eqb x vs = Some i -> lookup String.eqb x ms = Some (c, p) ->
  exists l' r, Permutation l ((it_ i, Spot (is_commutative i) c p) :: r) /\
    held vs (placed x (c, q) ms) l' /\ Permutation l' ((it_ i, Spot (is_commutative i) c q) :: r).
Proof.
  intros H. induction H as [|y j d r vs ms l H IH]; intros N L L'; [discriminate L|].
  cbn [lookup map fst] in *. inversion N as [|u v U N']; subst. unfold placed. cbn [map fst].
  rewrite (String.eqb_sym y x). destruct (String.eqb_spec x y) as [->|D].
  - injection L as ->. injection L' as -> ->. fold (placed y (c, q) ms).
    rewrite placed_away; [|rewrite <- (held_names _ _ _ H); exact U].
    exists ((it_ i, Spot (is_commutative i) c q) :: l), l. split; [apply Permutation_refl|]. split; [constructor; exact H|apply Permutation_refl].
  - fold (placed x (c, q) ms). destruct (IH N' L L') as (l' & r' & P & K & P').
    exists ((it_ j, Spot (is_commutative j) d r) :: l'), ((it_ j, Spot (is_commutative j) d r) :: r').
    split; [|split; [constructor; exact K|]].
    + eapply Permutation_trans; [apply perm_skip; exact P|apply perm_swap].
    + eapply Permutation_trans; [apply perm_skip; exact P'|apply perm_swap].
Qed.

Lemma held_away {V} (l : list (string * V)) x : ~ In x (map fst l) -> unset String.eqb x l = l.
Proof.
  induction l as [|[y v] l IH]; intros N; [reflexivity|]. unfold unset in *. cbn [filter fst].
  destruct (String.eqb_spec x y) as [->|D]; [exfalso; apply N; left; reflexivity|]. cbn [negb].
  rewrite IH; [reflexivity|]. intros I. apply N. right. exact I.
Qed.

Lemma held_unset vs ms l x i c p : held vs ms l -> NoDup (map fst vs) ->
  lookup String.eqb x vs = Some i -> lookup String.eqb x ms = Some (c, p) ->
  exists l', held (unset String.eqb x vs) (unset String.eqb x ms) l' /\
    Permutation l ((it_ i, Spot (is_commutative i) c p) :: l').
Proof.
  intros H. induction H as [|y j d r vs ms l H IH]; intros N L L'; [discriminate L|].
  cbn [lookup map fst] in *. inversion N as [|u v U N']; subst. unfold unset. cbn [filter fst].
  destruct (String.eqb_spec x y) as [->|D]; cbn [negb].
  - injection L as ->. injection L' as -> ->. fold (unset String.eqb y vs). fold (unset String.eqb y ms).
    rewrite (held_away vs y U), (held_away ms y); [|rewrite <- (held_names _ _ _ H); exact U].
    exists l. split; [exact H|apply Permutation_refl].
  - fold (unset String.eqb x vs). fold (unset String.eqb x ms). destruct (IH N' L L') as (l' & K & P).
    exists ((it_ j, Spot (is_commutative j) d r) :: l'). split; [constructor; exact K|].
    eapply Permutation_trans; [apply perm_skip; exact P|apply perm_swap].
Qed.

(* ---- programs without assignments ---- *)

Record agree (kind : Z -> bool) (F : spots) (m : machine) (h : memory) (v : view) : Prop := {
  a_conts : conts m = boxes v;
  a_sound : sound h;
  a_names : NoDup (map fst (vars m));
  a_held : exists l, held (vars m) (marks v) l /\ Permutation (live h) (l ++ F) /\
             forall a s, In (a, s) l -> of_set s = kind (owner s);
  a_kind : forall c k, lookup Z.eqb c (conts m) = Some k -> commutative k = kind c
}.

Definition follows kind F (r : memory * res (machine * list seen)) (w : res (view * list seen)) : Prop :=
  match w with
  | Ok (v, out) => exists h m, r = (h, Ok (m, out)) /\ agree kind F m h v
  | UB => exists h, r = (h, UB)
  | _ => False
  end.

(* the block of a variable *)
Lemma agree_var kind F m h v x : agree kind F m h v ->
  match lookup String.eqb x (vars m) with
  | None => mark v x = UB
  | Some i => exists c p, mark v x = Ok (c, p) /\
      lookup Z.eqb (it_ i) (live h) = Some (Spot (is_commutative i) c p) /\ is_commutative i = kind c
  end.
Proof.
  intros [EC S N (l & H & P & K) KC]. pose proof (held_lookup _ _ _ x H) as L. unfold mark.
  destruct (lookup String.eqb x (vars m)) as [i|]; [|rewrite L; reflexivity].
  destruct L as (c & p & l' & E & P'). exists c, p. rewrite E. split; [reflexivity|]. split.
  - eapply perm_lookup; [exact (proj1 S)|]. eapply Permutation_trans; [exact P|].
    apply (Permutation_app_tail F) in P'. exact P'.
  - apply (K (it_ i) (Spot (is_commutative i) c p)). eapply Permutation_in; [apply Permutation_sym; exact P'|]. left. reflexivity.
Qed.

Lemma agree_declare kind F m h v x s : agree kind F m h v -> has String.eqb x (vars m) = false ->
  of_set s = kind (owner s) ->
  agree kind F (Machine (conts m) ((x, It (of_set s) (top h)) :: vars m))
    (Memory (top h + 1) ((top h, s) :: live h) (odd h)) (View (boxes v) ((x, (owner s, place s)) :: marks v)).
Proof.
  intros [EC S N (l & H & P & K) KC] E O. constructor; cbn [conts boxes vars marks live].
  - exact EC.
  - apply sound_new. exact S.
  - cbn [map fst]. constructor; [|exact N]. intros I. apply in_map_iff in I. destruct I as ([y i] & E' & I).
    cbn in E'. subst y. apply (in_lookup String.eqb Seqb_ok) in I; [|exact N].
    unfold has in E. rewrite I in E. discriminate E.
  - exists ((top h, s) :: l). split; [|split].
    + destruct s as [k c p]. cbn [of_set owner place]. exact (H_var x (It k (top h)) c p _ _ _ H).
    + cbn [app]. apply perm_skip. exact P.
    + intros a t [E'|I]; [injection E' as <- <-; exact O|exact (K a t I)].
  - exact KC.
Qed.

Lemma declared kind F m h v x (i : M iterator) (q : res (Z * Z)) : agree kind F m h v ->
  match q with
  | Ok (c, p) => i h = (Memory (top h + 1) ((top h, Spot (kind c) c p) :: live h) (odd h), Ok (It (kind c) (top h)))
  | UB => exists h', i h = (h', UB)
  | _ => False
  end ->
  follows kind F (declare m x i h) (note v x q).
Proof.
  intros A I. unfold declare, note. destruct (a_held _ _ _ _ _ A) as (l & H & _).
  rewrite <- (held_has _ _ _ x H). destruct (has String.eqb x (vars m)) eqn:E; [exists h; reflexivity|].
  unfold mbind. destruct q as [[c p]| | |]; try contradiction.
  - rewrite I. cbn [bind follows]. eexists _, _. split; [reflexivity|].
    exact (agree_declare kind F m h v x (Spot (kind c) c p) A E eq_refl).
  - destruct I as (h' & ->). exists h'. reflexivity.
Qed.

Lemma var_eq m x h : var m x h = (h, match lookup String.eqb x (vars m) with Some i => Ok i | None => UB end).
Proof. reflexivity. Qed.

(* x read, then something *)
Lemma with_var kind F m h v x (f : iterator -> M (machine * list seen)) (g : Z * Z -> res (view * list seen)) :
  agree kind F m h v ->
  (forall i c p, lookup String.eqb x (vars m) = Some i -> lookup String.eqb x (marks v) = Some (c, p) ->
     lookup Z.eqb (it_ i) (live h) = Some (Spot (kind c) c p) -> is_commutative i = kind c ->
     follows kind F (f i h) (g (c, p))) ->
  follows kind F (mbind (var m x) f h) (bind (mark v x) g).
Proof.
  intros A C. pose proof (agree_var _ _ _ _ _ x A) as L. unfold mbind. rewrite var_eq.
  destruct (lookup String.eqb x (vars m)) as [i|] eqn:E.
  - destruct L as (c & p & E' & B & K). rewrite E'. cbn [bind]. rewrite K in B.
    apply C; try assumption; [reflexivity|]. unfold mark in E'. destruct (lookup String.eqb x (marks v)) as [y|]; [|discriminate E'].
    injection E' as ->. reflexivity.
  - rewrite L. exists h. reflexivity.
Qed.

Lemma read_block kind h i c p : lookup Z.eqb (it_ i) (live h) = Some (Spot (kind c) c p) -> is_commutative i = kind c ->
  read (is_commutative i) (it_ i) h = (h, Ok (Spot (kind c) c p)).
Proof. intros E K. unfold read. rewrite E. cbn [of_set]. rewrite K, eqb_reflx. reflexivity. Qed.

Lemma moved_onward kind F m h v c p n : agree kind F m h v ->
  moved (conts m) (Spot (kind c) c p) n =
  match onward v (c, p) n with Ok (d, q) => Ok (Spot (kind d) d q) | UB => UB | Throw => Throw | OutOfFuel => OutOfFuel end.
Proof.
  intros A. unfold moved, onward. cbn [owner place of_set fst snd]. rewrite (a_conts _ _ _ _ _ A).
  destruct (lookup Z.eqb c (boxes v)) as [k|]; [|reflexivity].
  destruct ((0 <=? p + n) && (p + n <=? Z.of_nat (length (members k)))); reflexivity.
Qed.

Lemma onward_cases v c p n : (exists q, onward v (c, p) n = Ok (c, q)) \/ onward v (c, p) n = UB.
Proof.
  unfold onward. cbn [fst snd]. destruct (lookup Z.eqb c (boxes v)) as [k|]; [|right; reflexivity].
  destruct ((0 <=? p + n) && (p + n <=? Z.of_nat (length (members k)))); [left|right]; eauto.
Qed.

Lemma plus_onward kind F m h v i c p n : agree kind F m h v ->
  lookup Z.eqb (it_ i) (live h) = Some (Spot (kind c) c p) -> is_commutative i = kind c ->
  match onward v (c, p) n with
  | Ok (d, q) => plus (conts m) i n h =
      (Memory (top h + 1) ((top h, Spot (kind d) d q) :: live h) (odd h), Ok (It (kind d) (top h)))
  | UB => exists h', plus (conts m) i n h = (h', UB)
  | _ => False
  end.
Proof.
  intros A L K. unfold plus, mbind. rewrite (read_block kind h i c p L K). unfold lift.
  rewrite (moved_onward _ _ _ _ _ c p n A). destruct (onward_cases v c p n) as [(q & ->)| ->].
  - unfold new, ret. rewrite K. reflexivity.
  - exists h. reflexivity.
Qed.

Lemma equal_same kind F m h v i j c p d q : agree kind F m h v ->
  lookup Z.eqb (it_ i) (live h) = Some (Spot (kind c) c p) -> is_commutative i = kind c ->
  lookup Z.eqb (it_ j) (live h) = Some (Spot (kind d) d q) -> is_commutative j = kind d ->
  equal (conts m) i j h = (h, same v (c, p) (d, q)).
Proof.
  intros A L K L' K'. unfold equal, mbind. rewrite (read_block kind h i c p L K). unfold read. rewrite L'. cbn [of_set].
  unfold same. cbn [fst snd]. rewrite K. destruct (Z.eqb_spec c d) as [<-|D].
  - rewrite eqb_reflx. unfold lift. cbn [owner place]. rewrite Z.eqb_refl, (a_conts _ _ _ _ _ A). reflexivity.
  - cbn [andb]. destruct (Bool.eqb (kind c) (kind d)); [|reflexivity]. unfold lift. cbn [owner place].
    rewrite (proj2 (Z.eqb_neq c d) D). reflexivity.
Qed.

Lemma agree_moved kind F m h v x i c p q : agree kind F m h v ->
  lookup String.eqb x (vars m) = Some i -> lookup String.eqb x (marks v) = Some (c, p) ->
  agree kind F m (Memory (top h) (Maps.set Z.eqb (it_ i) (Spot (kind c) c q) (live h)) (odd h))
    (View (boxes v) (placed x (c, q) (marks v))).
Proof.
  intros A LV LM. pose proof (agree_var _ _ _ _ _ x A) as L0. rewrite LV in L0.
  destruct L0 as (c' & p' & E' & L & K). unfold mark in E'. rewrite LM in E'. injection E' as <- <-.
  destruct A as [EC S N (l & H & P & KK) KC].
  destruct (held_placed _ _ _ x i c p q H N LV LM) as (l' & r & P1 & H' & P2). rewrite K in P1, P2.
  constructor; cbn [conts boxes vars marks live]; try assumption.
  - exact (sound_set h (it_ i) (Spot (kind c) c q) _ (odd h) S L).
  - exists l'. split; [exact H'|]. split.
    + unfold Maps.set. eapply Permutation_trans; [apply perm_skip; eapply (unset_perm (live h) (it_ i) (Spot (kind c) c p) (r ++ F))|].
      * exact (proj1 S).
      * eapply Permutation_trans; [exact P|]. apply (Permutation_app_tail F) in P1. exact P1.
      * apply Permutation_sym. apply (Permutation_app_tail F) in P2. exact P2.
    + intros a s I. eapply Permutation_in in I; [|exact P2]. destruct I as [I|I].
      * injection I as <- <-. reflexivity.
      * apply (KK a s). eapply Permutation_in; [apply Permutation_sym; exact P1|]. right. exact I.
Qed.

Lemma agree_dropped kind F m h v x i c p o : agree kind F m h v ->
  lookup String.eqb x (vars m) = Some i -> lookup String.eqb x (marks v) = Some (c, p) ->
  agree kind F (Machine (conts m) (unset String.eqb x (vars m))) (Memory (top h) (unset Z.eqb (it_ i) (live h)) o)
    (View (boxes v) (unset String.eqb x (marks v))).
Proof.
  intros [EC S N (l & H & P & KK) KC] LV LM.
  destruct (held_unset _ _ _ x i c p H N LV LM) as (l' & H' & P').
  constructor; cbn [conts boxes vars marks live]; try assumption.
  - exact (sound_unset h (it_ i) o S).
  - apply (unset_keys String.eqb). exact N.
  - exists l'. split; [exact H'|]. split.
    + eapply unset_perm; [exact (proj1 S)|]. eapply Permutation_trans; [exact P|].
      apply (Permutation_app_tail F) in P'. exact P'.
    + intros a s I. apply (KK a s). eapply Permutation_in; [apply Permutation_sym; exact P'|]. right. exact I.
Qed.

Lemma agree_gone kind F m h v c : agree kind F m h v ->
  agree kind F (Machine (unset Z.eqb c (conts m)) (vars m)) h (View (unset Z.eqb c (boxes v)) (marks v)).
Proof.
  intros [EC S N (l & H & P & KK) KC]. constructor; cbn [conts boxes vars marks]; try assumption.
  - rewrite EC. reflexivity.
  - exists l. repeat split; assumption.
  - intros d k L. destruct (Z.eq_dec d c) as [->|D].
    + rewrite (lookup_unset_same Z.eqb) in L. discriminate L.
    + rewrite (lookup_unset_other Z.eqb Zeqb_ok) in L by exact D. exact (KC d k L).
Qed.

Lemma exec_follows kind F m h v i : agree kind F m h v -> plain i = true ->
  follows kind F (exec m i h) (ideally v i).
Proof.
  intros A PL. destruct i as [x c|x c|x y|x y|x y n|x y n|x y|x|x|x y|x y|x|c]; try discriminate PL; cbn [exec ideally].
  - apply declared; [exact A|]. unfold begin_of. rewrite (a_conts _ _ _ _ _ A).
    destruct (lookup Z.eqb c (boxes v)) as [k|] eqn:L; [|exists h; reflexivity].
    rewrite <- (a_conts _ _ _ _ _ A) in L. rewrite (a_kind _ _ _ _ _ A c k L). reflexivity.
  - apply declared; [exact A|]. unfold end_of. rewrite (a_conts _ _ _ _ _ A).
    destruct (lookup Z.eqb c (boxes v)) as [k|] eqn:L; [|exists h; reflexivity].
    rewrite <- (a_conts _ _ _ _ _ A) in L. rewrite (a_kind _ _ _ _ _ A c k L). reflexivity.
  - apply with_var; [exact A|]. intros i c p LV LM L K. apply declared; [exact A|].
    unfold copy, mbind. rewrite (read_block kind h i c p L K). unfold new, ret. rewrite K. reflexivity.
  - apply with_var; [exact A|]. intros i c p LV LM L K. apply declared; [exact A|].
    apply (plus_onward kind F m h v i c p n A L K).
  - apply with_var; [exact A|]. intros i c p LV LM L K. apply declared; [exact A|].
    apply (plus_onward kind F m h v i c p (- n) A L K).
  - apply with_var; [exact A|]. intros i c p LV LM L K. unfold incr, mbind. rewrite (read_block kind h i c p L K).
    unfold lift. rewrite (moved_onward _ _ _ _ _ c p 1 A). destruct (onward_cases v c p 1) as [(q & ->)| ->]; cbn [bind].
    + unfold write, ret. eexists _, _. split; [reflexivity|]. exact (agree_moved _ _ _ _ _ x i c p q A LV LM).
    + exists h. reflexivity.
  - apply with_var; [exact A|]. intros i c p LV LM L K. unfold deref, mbind. rewrite (read_block kind h i c p L K).
    unfold lift, element. cbn [owner place fst snd]. rewrite (a_conts _ _ _ _ _ A).
    destruct (lookup Z.eqb c (boxes v)) as [k|]; [|exists h; reflexivity].
    destruct (p <? 0); [exists h; reflexivity|]. destruct (nth_error (members k) (Z.to_nat p)) as [t|]; [|exists h; reflexivity].
    cbn [bind]. eexists _, _. split; [reflexivity|exact A].
  - apply with_var; [exact A|]. intros i c p LV LM L K. apply with_var; [exact A|]. intros j d q LV' LM' L' K'.
    unfold mbind. rewrite (equal_same _ _ _ _ _ i j c p d q A L K L' K').
    unfold same. cbn [fst snd]. destruct ((c =? d) && has Z.eqb c (boxes v)); cbn [bind]; [|exists h; reflexivity].
    eexists _, _. split; [reflexivity|exact A].
  - apply with_var; [exact A|]. intros i c p LV LM L K. apply with_var; [exact A|]. intros j d q LV' LM' L' K'.
    unfold differ, mbind. rewrite (equal_same _ _ _ _ _ i j c p d q A L K L' K').
    unfold same. cbn [fst snd]. destruct ((c =? d) && has Z.eqb c (boxes v)); cbn [bind]; [|exists h; reflexivity].
    eexists _, _. split; [reflexivity|exact A].
  - apply with_var; [exact A|]. intros i c p LV LM L K. unfold destroy, delete, mbind. rewrite L. cbn [of_set].
    eexists _, _. split; [reflexivity|]. exact (agree_dropped _ _ _ _ _ x i c p _ A LV LM).
  - rewrite <- (a_conts _ _ _ _ _ A). destruct (has Z.eqb c (conts m)); [|exists h; reflexivity].
    eexists _, _. split; [reflexivity|]. rewrite (a_conts _ _ _ _ _ A) at 2. exact (agree_gone _ _ _ _ _ c A).
Qed.

Lemma ideal_app v p q : ideal v (p ++ q) = bind (ideal v p) (fun r => bind (ideal (fst r) q) (fun s => Ok (fst s, snd r ++ snd s))).
Proof.
  revert v. induction p as [|i p IH]; intros v; cbn [ideal app].
  - cbn [bind fst snd]. destruct (ideal v q) as [[v' o]| | |]; reflexivity.
  - destruct (ideally v i) as [[v1 o1]| | |]; cbn [bind fst snd]; try reflexivity. rewrite IH.
    destruct (ideal v1 p) as [[v2 o2]| | |]; cbn [bind fst snd]; try reflexivity.
    destruct (ideal v2 q) as [[v3 o3]| | |]; cbn [bind fst snd]; try reflexivity. rewrite app_assoc. reflexivity.
Qed.

(* Iterator x(y++) *)
Lemma post_follows kind F m h v x y : agree kind F m h v ->
  follows kind F (exec m (Post x y) h) (ideal v [Next y; Copy x y]).
Proof.
  intros A. pose proof (exec_follows kind F m h v (Next y) A eq_refl) as E. cbn [ideal].
  cbn [exec ideally] in E |- *. unfold mbind in E |- *. rewrite var_eq in E |- *.
  destruct (lookup String.eqb y (vars m)) as [i|] eqn:LV.
  - destruct (bind (mark v y) _) as [[v1 o1]| | |] eqn:ID; try contradiction.
    + destruct E as (h1 & m1 & E & A1).
      assert (X : incr (conts m) i h = (h1, Ok tt) /\ m1 = m /\ o1 = []).
      { destruct (incr (conts m) i h) as [h0 [[]| | |]]; try discriminate E. injection E as <- <- <-. repeat split. }
      destruct X as (X & -> & ->). cbn [bind fst snd].
      pose proof (exec_follows kind F m h1 v1 (Copy x y) A1 eq_refl) as E2. cbn [exec ideally] in E2.
      unfold mbind in E2. rewrite var_eq, LV in E2.
      unfold declare in *. destruct (has String.eqb x (vars m)) eqn:HX.
      * destruct (bind (mark v1 y) _) as [[v2 o2]| | |]; try contradiction.
        -- destruct E2 as (h2 & m2 & E2 & _). discriminate E2.
        -- exists h. reflexivity.
      * unfold post_incr, mbind. rewrite X. unfold ret at 1. unfold mbind in E2.
        destruct (bind (mark v1 y) _) as [[v2 o2]| | |]; try contradiction; cbn [bind fst snd].
        -- destruct E2 as (h2 & m2 & E2 & A2). exists h2, m2. rewrite app_nil_r. split; [exact E2|exact A2].
        -- exact E2.
    + cbn [bind]. destruct E as (h1 & E). unfold declare. destruct (has String.eqb x (vars m)); [exists h; reflexivity|].
      unfold post_incr, mbind. destruct (incr (conts m) i h) as [h0 [u| | |]]; try discriminate E; exists h0; reflexivity.
  - destruct (bind (mark v y) _) as [[v1 o1]| | |] eqn:ID; try contradiction.
    + destruct E as (h1 & m1 & E & _). discriminate E.
    + exists h. reflexivity.
Qed.

Lemma step_follows kind F m h v i : agree kind F m h v -> unassigned i = true ->
  follows kind F (exec m i h) (ideal v (stepped i)).
Proof.
  intros A U.
  assert (G : plain i = true -> follows kind F (exec m i h) (ideal v [i])).
  { intros PL. pose proof (exec_follows kind F m h v i A PL) as E. cbn [ideal].
    destruct (ideally v i) as [[v1 o1]| | |]; cbn [bind fst snd]; try exact E. rewrite app_nil_r. exact E. }
  destruct i; try discriminate U; try (exact (G eq_refl)).
  apply post_follows. exact A.
Qed.

Lemma run_follows kind F p : forall m h v, agree kind F m h v -> forallb unassigned p = true ->
  follows kind F (run m p h) (ideal v (flat_map stepped p)).
Proof.
  induction p as [|i p IH]; intros m h v A U; cbn [run flat_map].
  - exists h, m. split; [reflexivity|exact A].
  - cbn [forallb] in U. apply andb_prop in U. destruct U as [U U']. rewrite ideal_app.
    pose proof (step_follows kind F m h v i A U) as E. unfold mbind.
    destruct (ideal v (stepped i)) as [[v1 o1]| | |]; try contradiction; cbn [bind fst snd].
    + destruct E as (h1 & m1 & -> & A1). cbn [fst snd]. specialize (IH m1 h1 v1 A1 U').
      destruct (ideal v1 (flat_map stepped p)) as [[v2 o2]| | |]; try contradiction; cbn [bind fst snd].
      * destruct IH as (h2 & m2 & -> & A2). exists h2, m2. split; [reflexivity|exact A2].
      * destruct IH as (h2 & ->). exists h2. reflexivity.
    + destruct E as (h1 & ->). exists h1. reflexivity.
Qed.

Lemma stepped_plain p : forallb plain p = true -> flat_map stepped p = p /\ forallb unassigned p = true.
Proof.
  induction p as [|i p IH]; intros P; [split; reflexivity|]. cbn [forallb flat_map] in *.
  apply andb_prop in P. destruct P as [P P']. destruct (IH P') as [-> ->]. destruct i; try discriminate P; split; reflexivity.
Qed.

Lemma agree_start cs h : sound h -> exists kind, agree kind (live h) (Machine cs []) h (View cs []).
Proof.
  intros S. exists (fun c => match lookup Z.eqb c cs with Some k => commutative k | None => false end).
  constructor; cbn [conts boxes vars marks].
  - reflexivity.
  - exact S.
  - constructor.
  - exists []. split; [constructor|]. split; [apply Permutation_refl|]. intros a s [].
  - intros c k ->. reflexivity.
Qed.

(* From no variables at all *)
Theorem programs cs h p : sound h -> forallb unassigned p = true ->
  match ideal (View cs []) (flat_map stepped p) with
  | Ok (v, out) => exists h' m l, run (Machine cs []) p h = (h', Ok (m, out)) /\ conts m = boxes v /\ sound h' /\
      held (vars m) (marks v) l /\ Permutation (live h') (l ++ live h)
  | UB => exists h', run (Machine cs []) p h = (h', UB)
  | _ => False
  end.
Proof.
  intros S U. destruct (agree_start cs h S) as (kind & A).
  pose proof (run_follows kind (live h) p _ _ _ A U) as E.
  destruct (ideal (View cs []) (flat_map stepped p)) as [[v out]| | |]; try exact E.
  destruct E as (h' & m & E & [EC S' N (l & H & P & K) KC]). exists h', m, l. repeat split; try assumption; try apply S'.
Qed.
