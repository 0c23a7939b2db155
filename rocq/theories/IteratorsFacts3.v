(* Proofs about the iterators: loops over the components, in C++ and in Python *)
From Coq Require Import ZArith String List Bool Lia Permutation.
From Verif Require Import Base Maps MapsFacts Term Printer Iterators IteratorsSpec IteratorsFacts IteratorsFacts2.
Import ListNotations.
Open Scope string_scope.
Open Scope list_scope.
Open Scope Z_scope.

(* ---- folding ---- *)

Lemma along_folded A (f : A -> term -> res A) l : forall p acc, along A (fun _ => f) p l acc = folded f l acc.
Proof.
  induction l as [|t l IH]; intros p acc; [reflexivity|]. cbn [along folded].
  destruct (f acc t) as [a| | |]; cbn [bind]; try reflexivity. apply IH.
Qed.

Theorem looping cs c k : lookup Z.eqb c cs = Some k -> forall A (f : A -> term -> res A) acc h, sound h ->
  exists h', for_each cs c (fun it acc => mbind (deref cs it) (fun t => lift (f acc t))) acc h = (h', folded f (members k) acc) /\
  (folded f (members k) acc <> UB -> folded f (members k) acc <> OutOfFuel -> sound h' /\ live h' = live h).
Proof.
  intros T A f acc h S.
  pose proof (for_each_along cs c k T A (fun it acc => mbind (deref cs it) (fun t => lift (f acc t))) (fun _ => f)) as E.
  specialize (E ltac:(
    intros a p rest h0 t acc0 H NE; unfold mbind;
    rewrite (at_deref cs c k T a (Z.of_nat p) rest h0 t H ltac:(lia)) by (rewrite Nat2Z.id; exact NE);
    unfold lift; destruct (f acc0 t); eexists; try (split; [reflexivity|exact H]); reflexivity) h acc S).
  rewrite along_folded in E. destruct (folded f (members k) acc) as [a| | |].
  - destruct E as (h' & -> & S' & L). exists h'. split; [reflexivity|]. intros _ _. split; assumption.
  - destruct E as (h' & ->). exists h'. split; [reflexivity|]. intros X. contradiction.
  - destruct E as (h' & -> & S' & L). exists h'. split; [reflexivity|]. intros _ _. split; assumption.
  - destruct E as (h' & ->). exists h'. split; [reflexivity|]. intros _ X. contradiction.
Qed.

Lemma folded_all l : forall acc, folded (fun acc t => Ok (acc ++ [t])) l acc = Ok (acc ++ l).
Proof.
  induction l as [|t l IH]; intros acc; cbn [folded bind]; [rewrite app_nil_r; reflexivity|].
  rewrite IH, <- app_assoc. reflexivity.
Qed.

Theorem collecting cs c k h : lookup Z.eqb c cs = Some k -> sound h ->
  exists h', collect cs c h = (h', Ok (members k)) /\ sound h' /\ live h' = live h.
Proof.
  intros T S. destruct (looping cs c k T (list term) (fun acc t => Ok (acc ++ [t])) [] h S) as (h' & E & L).
  rewrite folded_all in *. exists h'. split; [exact E|]. apply L; discriminate.
Qed.

(* ---- the separators ---- *)

Lemma app_nil_s (s : string) : (s ++ "")%string = s.
Proof. induction s as [|a s IH]; [reflexivity|]. cbn. rewrite IH. reflexivity. Qed.

Lemma app_assoc_s (s t u : string) : (s ++ (t ++ u))%string = ((s ++ t) ++ u)%string.
Proof. induction s as [|a s IH]; [reflexivity|]. cbn. rewrite IH. reflexivity. Qed.

Section Separated.
Variable colored : bool.
Variable interpret : term -> res string.
Variable n : nat.

Definition sep : res string := if colored then fg color_seperator ", " [] else Ok ", ".

Definition piece (p : nat) (acc : string) (t : term) : res string :=
  bind (interpret t) (fun s =>
  if Nat.eqb p (n - 1) then Ok (acc ++ s)%string else bind sep (fun x => Ok (acc ++ s ++ x)%string)).

Lemma along_pieces l : forall p acc, (p + length l = n)%nat ->
  along string piece p l acc = bind (append_strs colored interpret l) (fun s => Ok (acc ++ s)%string).
Proof.
  induction l as [|t l IH]; intros p acc E; cbn [along].
  - cbn [append_strs bind]. rewrite app_nil_s. reflexivity.
  - cbn [length] in E. destruct l as [|u l].
    + cbn [length] in E. cbn [append_strs]. unfold piece. destruct (interpret t) as [s| | |]; cbn [bind]; try reflexivity.
      destruct (Nat.eqb_spec p (n - 1)) as [_|X]; [reflexivity|lia].
    + assert (F : append_strs colored interpret (t :: u :: l) =
        bind (interpret t) (fun a => bind sep (fun x => bind (append_strs colored interpret (u :: l)) (fun b => Ok (a ++ x ++ b)%string)))) by reflexivity.
      rewrite F. clear F. unfold piece at 1. destruct (interpret t) as [s| | |]; cbn [bind]; try reflexivity.
      destruct (Nat.eqb_spec p (n - 1)) as [X|_]; [cbn [length] in E; lia|].
      destruct sep as [x| | |]; cbn [bind]; try reflexivity. rewrite (IH (S p)) by lia.
      destruct (append_strs colored interpret (u :: l)) as [b| | |]; cbn [bind]; try reflexivity.
      rewrite !app_assoc_s. reflexivity.
Qed.
End Separated.

Theorem appending cs c k h colored interpret : lookup Z.eqb c cs = Some k -> sound h ->
  exists h', append_loop cs colored interpret c h = (h', append_strs colored interpret (members k)) /\
  (append_strs colored interpret (members k) <> UB -> append_strs colored interpret (members k) <> OutOfFuel ->
   sound h' /\ live h' = live h).
Proof.
  intros T S.
  set (body := fun it acc =>
    mbind (deref cs it) (fun t => mbind (lift (interpret t)) (fun s =>
    mbind (end_of cs c) (fun e => mbind (leaving (mbind (minus cs e 1) (fun l => leaving (differ cs it l) (destroy l))) (destroy e)) (fun more =>
    if (more : bool) then
      mbind (lift (sep colored)) (fun x => ret (acc ++ s ++ x)%string)
    else ret (acc ++ s)%string))))).
  pose proof (for_each_along cs c k T string body (piece colored interpret (length (members k)))) as E.
  assert (B : forall a p rest h t acc, here c k a (Z.of_nat p) rest h -> nth_error (members k) p = Some t ->
    match piece colored interpret (length (members k)) p acc t with
    | Ok acc' => exists h', body (it k a) acc h = (h', Ok acc') /\ here c k a (Z.of_nat p) rest h'
    | Throw => exists h', body (it k a) acc h = (h', Throw) /\ here c k a (Z.of_nat p) rest h'
    | UB => exists h', body (it k a) acc h = (h', UB)
    | OutOfFuel => exists h', body (it k a) acc h = (h', OutOfFuel)
    end).
  { clear h S E. intros a p rest h t acc H NE.
    assert (B : exists h', body (it k a) acc h = (h', piece colored interpret (length (members k)) p acc t) /\ here c k a (Z.of_nat p) rest h').
    { unfold body, mbind at 1.
      rewrite (at_deref cs c k T a (Z.of_nat p) rest h t H ltac:(lia)) by (rewrite Nat2Z.id; exact NE).
      unfold mbind at 1, lift at 1, piece. destruct (interpret t) as [s| | |]; cbn [bind];
        try (exists h; split; [reflexivity|exact H]).
      assert (PL : (p < length (members k))%nat) by (apply nth_error_Some; congruence).
      assert (ME : members k <> []) by (intros X; rewrite X in PL; cbn in PL; lia).
      pose proof (at_last cs c k T a (Z.of_nat p) rest h H ME) as X. unfold mbind at 1 in X. unfold mbind at 1.
      destruct (end_of cs c h) as [h1 [e| | |]]; try discriminate X. unfold mbind at 1. rewrite X.
      pose proof (here_temp c k a (Z.of_nat p) rest h 2 2 H ltac:(lia)) as H'.
      destruct (Nat.eqb_spec p (length (members k) - 1)) as [Y|Y];
        (destruct (Z.eqb_spec (Z.of_nat p) (Z.of_nat (length (members k)) - 1)) as [Z|Z]; try lia); cbn [negb].
      - eexists. split; [reflexivity|exact H'].
      - unfold mbind, lift. destruct (sep colored) as [x| | |]; cbn [bind]; eexists; (split; [reflexivity|exact H']). }
    destruct B as (h' & EB & HB). rewrite EB. destruct (piece _ _ _ _ _ _); exists h'; try (split; [reflexivity|exact HB]); reflexivity. }
  specialize (E B h "" S). rewrite along_pieces in E by reflexivity.
  change (append_loop cs colored interpret c) with (for_each cs c body "").
  destruct (append_strs colored interpret (members k)) as [s| | |]; cbn [bind] in E.
  - destruct E as (h' & E & S' & L). exists h'. split; [exact E|]. intros _ _. split; assumption.
  - destruct E as (h' & E). exists h'. split; [exact E|]. intros X. contradiction.
  - destruct E as (h' & E & S' & L). exists h'. split; [exact E|]. intros _ _. split; assumption.
  - destruct E as (h' & E). exists h'. split; [exact E|]. intros _ X. contradiction.
Qed.

(* ---- Python ---- *)

Section Python.
Variable c : Z.
Variable k : container.

Definition both (a e p : Z) (F : spots) (h : memory) : Prop :=
  sound h /\ Permutation (live h)
    ((a, Spot (commutative k) c p) :: (e, Spot (commutative k) c (Z.of_nat (length (members k)))) :: F).

Lemma both_it a e p F h : both a e p F h -> lookup Z.eqb a (live h) = Some (Spot (commutative k) c p).
Proof. intros [S P]. eapply perm_lookup; [exact (proj1 S)|exact P]. Qed.

Lemma both_end a e p F h : both a e p F h ->
  lookup Z.eqb e (live h) = Some (Spot (commutative k) c (Z.of_nat (length (members k)))).
Proof.
  intros [S P]. eapply perm_lookup; [exact (proj1 S)|]. eapply Permutation_trans; [exact P|apply perm_swap].
Qed.

Lemma both_read a e p F h : both a e p F h ->
  read (commutative k) a h = (h, Ok (Spot (commutative k) c p)).
Proof. intros B. unfold read. rewrite (both_it _ _ _ _ _ B). cbn [of_set]. rewrite eqb_reflx. reflexivity. Qed.

Variable cs : containers.

Lemma both_equal a e p F h : both a e p F h ->
  equal cs (It (commutative k) a) (It (commutative k) e) h =
  (h, if has Z.eqb c cs then Ok (p =? Z.of_nat (length (members k))) else UB).
Proof.
  intros B. unfold equal, mbind. cbn [is_commutative it_]. rewrite (both_read _ _ _ _ _ B). unfold read.
  rewrite (both_end _ _ _ _ _ B). cbn [of_set]. rewrite eqb_reflx. unfold lift. cbn [owner place]. rewrite Z.eqb_refl. reflexivity.
Qed.

Lemma both_incr a e p F h : both a e p F h -> lookup Z.eqb c cs = Some k -> 0 <= p < Z.of_nat (length (members k)) ->
  exists h', incr cs (It (commutative k) a) h = (h', Ok tt) /\ both a e (p + 1) F h'.
Proof.
  intros B T P. unfold incr, mbind. cbn [is_commutative it_]. rewrite (both_read _ _ _ _ _ B). unfold lift, moved. cbn [owner place of_set].
  rewrite T. destruct (Z.leb_spec 0 (p + 1)) as [_|X]; [|lia].
  destruct (Z.leb_spec (p + 1) (Z.of_nat (length (members k)))) as [_|X]; [|lia]. cbn [andb].
  unfold write. eexists. split; [reflexivity|]. pose proof (both_it _ _ _ _ _ B) as L. destruct B as [S PM]. split.
  - exact (sound_set h a _ _ _ S L).
  - cbn [live]. unfold Maps.set. apply perm_skip. eapply unset_perm; [exact (proj1 S)|exact PM].
Qed.

Lemma both_deref a e p F h t : both a e (Z.of_nat p) F h -> lookup Z.eqb c cs = Some k ->
  nth_error (members k) p = Some t -> deref cs (It (commutative k) a) h = (h, Ok t).
Proof.
  intros B T NE. unfold deref, mbind. cbn [is_commutative it_]. rewrite (both_read _ _ _ _ _ B). unfold lift. cbn [owner place].
  rewrite T. destruct (Z.ltb_spec (Z.of_nat p) 0) as [X|_]; [lia|]. rewrite Nat2Z.id, NE. reflexivity.
Qed.

End Python.

Lemma both_destroy c k a e p F h : both c k a e p F h ->
  exists h1 h2, destroy (It (commutative k) e) h = (h1, Ok tt) /\ destroy (It (commutative k) a) h1 = (h2, Ok tt) /\
    sound h2 /\ Permutation (live h2) F.
Proof.
  intros B. pose proof (both_end _ _ _ _ _ _ _ B) as LE. destruct B as [S P].
  unfold destroy, delete at 1. cbn [is_commutative it_]. rewrite LE. cbn [of_set]. eexists.
  assert (P1 : Permutation (unset Z.eqb e (live h)) ((a, Spot (commutative k) c p) :: F)).
  { eapply unset_perm; [exact (proj1 S)|]. eapply Permutation_trans; [exact P|apply perm_swap]. }
  set (o := if Bool.eqb (negb (commutative k)) (commutative k) then odd h else Datatypes.S (odd h)).
  pose proof (sound_unset h e o S) as S1.
  pose proof (perm_lookup _ a _ F (proj1 S1) P1) as LA. cbn [live] in LA.
  eexists. split; [reflexivity|]. split; [|split].
  - unfold delete. cbn [live]. rewrite LA. reflexivity.
  - exact (sound_unset _ a _ S1).
  - cbn [live]. eapply unset_perm; [exact (proj1 S1)|exact P1].
Qed.

(* ---- for (auto &t : c) ---- *)

Lemma both_differ c k cs a e p F h : both c k a e p F h -> lookup Z.eqb c cs = Some k ->
  differ cs (It (commutative k) a) (It (commutative k) e) h = (h, Ok (negb (p =? Z.of_nat (length (members k))))).
Proof.
  intros B T. unfold differ, mbind. rewrite (both_equal c k cs a e p F h B). unfold has. rewrite T. reflexivity.
Qed.

Lemma range_goes cs c k A (f : A -> term -> res A) : lookup Z.eqb c cs = Some k -> forall l p a e F h fuel acc,
  skipn p (members k) = l -> (p <= length (members k))%nat -> (length l < fuel)%nat -> both c k a e (Z.of_nat p) F h ->
  exists h' q, range_loop cs fuel (It (commutative k) a) (It (commutative k) e) f acc h = (h', folded f l acc) /\
    both c k a e q F h'.
Proof.
  intros T. induction l as [|t l IH]; intros p a e F h fuel acc E LE FU B; (destruct fuel as [|fuel]; [inversion FU|]).
  - assert (P : p = length (members k)).
    { apply (f_equal (@length term)) in E. rewrite skipn_length in E. cbn in E. lia. }
    cbn [range_loop folded]. unfold mbind. rewrite (both_differ c k cs a e _ F h B T). rewrite P, Z.eqb_refl. cbn [negb].
    exists h, (Z.of_nat p). split; [reflexivity|exact B].
  - assert (P : (p < length (members k))%nat).
    { apply (f_equal (@length term)) in E. rewrite skipn_length in E. cbn in E. lia. }
    assert (NE : nth_error (members k) p = Some t).
    { rewrite <- (firstn_skipn p (members k)), E. rewrite nth_error_app2; rewrite firstn_length_le by lia; [|lia].
      rewrite Nat.sub_diag. reflexivity. }
    pose proof (skipn_next p (members k) t l E) as E'. cbn [length] in FU.
    cbn [range_loop folded]. unfold mbind. rewrite (both_differ c k cs a e _ F h B T).
    destruct (Z.eqb_spec (Z.of_nat p) (Z.of_nat (length (members k)))) as [Y|_]; [lia|]. cbn [negb].
    rewrite (both_deref c k cs a e p F h t B T NE). unfold lift.
    destruct (f acc t) as [acc'| | |]; cbn [bind]; try (exists h, (Z.of_nat p); split; [reflexivity|exact B]).
    destruct (both_incr c k cs a e _ F h B T ltac:(lia)) as (h1 & -> & B1).
    apply (IH (S p)); [exact E'|lia|lia|]. replace (Z.of_nat (S p)) with (Z.of_nat p + 1) by lia. exact B1.
Qed.

Lemma leaving_by {A} (m : M A) cl h h2 h3 r : m h = (h2, r) -> cl h2 = (h3, Ok tt) ->
  leaving m cl h = (match r with Ok _ | Throw => h3 | _ => h2 end, r).
Proof. intros E D. unfold leaving. rewrite E. destruct r; unfold mbind; try rewrite D; reflexivity. Qed.

Theorem ranging cs c k : lookup Z.eqb c cs = Some k -> forall A (f : A -> term -> res A) acc h, sound h ->
  exists h', range_for cs c f acc h = (h', folded f (members k) acc) /\
  (folded f (members k) acc <> UB -> folded f (members k) acc <> OutOfFuel -> sound h' /\ Permutation (live h') (live h)).
Proof.
  intros T A f acc h S. unfold range_for, mbind at 1, begin_of. rewrite T. unfold mbind at 1, new at 1, ret at 1.
  unfold leaving at 1, mbind at 1, end_of. rewrite T. unfold mbind at 1, new at 1, ret at 1. cbn [top live odd].
  set (h1 := Memory (top h + 1 + 1)
     ((top h + 1, Spot (commutative k) c (Z.of_nat (length (members k)))) :: (top h, Spot (commutative k) c 0) :: live h) (odd h)).
  assert (B : both c k (top h) (top h + 1) (Z.of_nat 0) (live h) h1).
  { split; [|apply perm_swap]. exact (sound_new _ _ (sound_new h _ S)). }
  destruct (range_goes cs c k A f T (members k) 0 (top h) (top h + 1) (live h) h1 (Datatypes.S (size cs c)) acc eq_refl
    ltac:(lia) ltac:(unfold size; rewrite T; lia) B) as (h2 & q & E & B2).
  destruct (both_destroy c k _ _ q _ h2 B2) as (h3 & h4 & D1 & D2 & S4 & P4).
  rewrite (leaving_by _ _ _ h2 h3 _ E D1).
  destruct (folded f (members k) acc) as [r| | |]; cbv iota.
  - unfold mbind. rewrite D2. exists h4. split; [reflexivity|]. intros _ _. split; assumption.
  - exists h2. split; [reflexivity|]. intros X. contradiction.
  - unfold mbind. rewrite D2. exists h4. split; [reflexivity|]. intros _ _. split; assumption.
  - exists h2. split; [reflexivity|]. intros _ X. contradiction.
Qed.

(* how the rounds go; fresh only before the first *)
Lemma py_rounds_go c k : forall l cs p a e F h fuel gone (fresh : bool), lookup Z.eqb c cs = Some k -> skipn p (members k) = l ->
  (p <= length (members k))%nat -> (length l < fuel)%nat ->
  both c k a e (if fresh then Z.of_nat p else Z.of_nat p - 1) F h -> (fresh = false -> (0 < p)%nat) ->
  match gone with
  | None => exists h', py_rounds fuel cs c None (Py (It (commutative k) a) (It (commutative k) e) fresh) h = (h', Ok l) /\
              sound h' /\ Permutation (live h') F
  | Some n => if (n <=? length l)%nat
      then exists h', py_rounds fuel cs c (Some n) (Py (It (commutative k) a) (It (commutative k) e) fresh) h = (h', UB)
      else exists h', py_rounds fuel cs c (Some n) (Py (It (commutative k) a) (It (commutative k) e) fresh) h = (h', Ok l) /\
              sound h' /\ Permutation (live h') F
  end.
Proof.
  induction l as [|t l IH]; intros cs p a e F h fuel gone fresh T E LE FU B FR; (destruct fuel as [|fuel]; [inversion FU|]).
  - assert (P : p = length (members k)).
    { apply (f_equal (@length term)) in E. rewrite skipn_length in E. cbn in E. lia. }
    assert (OK : exists h', py_rounds (S fuel) cs c None (Py (It (commutative k) a) (It (commutative k) e) fresh) h = (h', Ok []) /\
              sound h' /\ Permutation (live h') F).
    { cbn [py_rounds]. unfold mbind, py_next, mbind. cbn [py_fresh py_it py_end].
      assert (X : exists h1, (if fresh then ret tt else incr cs (It (commutative k) a)) h = (h1, Ok tt) /\ both c k a e (Z.of_nat p) F h1).
      { destruct fresh; [exists h; split; [reflexivity|exact B]|]. specialize (FR eq_refl).
        destruct (both_incr c k cs a e _ F h B T ltac:(lia)) as (h1 & E1 & B1). exists h1. split; [exact E1|].
        replace (Z.of_nat p) with (Z.of_nat p - 1 + 1) by lia. exact B1. }
      destruct X as (h1 & -> & B1). rewrite (both_equal c k cs a e _ F h1 B1). unfold has. rewrite T, P, Z.eqb_refl. cbn [snd ret].
      destruct (both_destroy c k a e _ F h1 B1) as (h2 & h3 & D1 & D2 & S3 & P3).
      unfold ret. cbn [snd]. rewrite D1, D2. exists h3. split; [reflexivity|]. split; assumption. }
    destruct gone as [n|]; [|exact OK]. cbn [length].
    destruct n as [|n]; cbn [Nat.leb].
    + cbn [py_rounds]. unfold mbind, py_next, mbind. cbn [py_fresh py_it py_end]. destruct fresh.
      * unfold ret at 1. rewrite (both_equal c k _ a e _ F h B). unfold has. rewrite (lookup_unset_same Z.eqb). exists h. reflexivity.
      * unfold incr, mbind. cbn [is_commutative it_]. rewrite (both_read c k _ _ _ _ _ B). unfold lift, moved. cbn [owner].
        rewrite (lookup_unset_same Z.eqb). exists h. reflexivity.
    + destruct OK as (h' & OK & R). exists h'. split; [|exact R]. cbn [py_rounds] in OK |- *.
      unfold mbind in OK |- *. destruct (py_next cs _ h) as [h1 [[q [t|]]| | |]]; cbn [snd fst] in *; try exact OK.
      exfalso. destruct (py_rounds fuel cs c (option_map Init.Nat.pred None) q h1) as [h2 [r| | |]]; discriminate OK.
  - assert (P : (p < length (members k))%nat).
    { apply (f_equal (@length term)) in E. rewrite skipn_length in E. cbn in E. lia. }
    assert (NE : nth_error (members k) p = Some t).
    { rewrite <- (firstn_skipn p (members k)), E. rewrite nth_error_app2; rewrite firstn_length_le by lia; [|lia].
      rewrite Nat.sub_diag. reflexivity. }
    pose proof (skipn_next p (members k) t l E) as E'.
    assert (X : exists h1, (if fresh then ret tt else incr cs (It (commutative k) a)) h = (h1, Ok tt) /\ both c k a e (Z.of_nat p) F h1).
    { destruct fresh; [exists h; split; [reflexivity|exact B]|]. specialize (FR eq_refl).
      destruct (both_incr c k cs a e _ F h B T ltac:(lia)) as (h1 & E1 & B1). exists h1. split; [exact E1|].
      replace (Z.of_nat p) with (Z.of_nat p - 1 + 1) by lia. exact B1. }
    destruct X as (h1 & X & B1).
    assert (NX : py_next cs (Py (It (commutative k) a) (It (commutative k) e) fresh) h =
                 (h1, Ok (Py (It (commutative k) a) (It (commutative k) e) false, Some t))).
    { unfold py_next, mbind. cbn [py_fresh py_it py_end]. rewrite X. rewrite (both_equal c k cs a e _ F h1 B1). unfold has. rewrite T.
      destruct (Z.eqb_spec (Z.of_nat p) (Z.of_nat (length (members k)))) as [Y|_]; [lia|].
      rewrite (both_deref c k cs a e p F h1 t B1 T NE). reflexivity. }
    assert (B2 : both c k a e (Z.of_nat (S p) - 1) F h1).
    { replace (Z.of_nat (S p) - 1) with (Z.of_nat p) by lia. exact B1. }
    cbn [length] in FU.
    destruct gone as [n|].
    + destruct n as [|n]; cbn [Nat.leb length].
      * cbn [py_rounds]. unfold mbind, py_next, mbind. cbn [py_fresh py_it py_end]. destruct fresh.
        -- unfold ret at 1. rewrite (both_equal c k _ a e _ F h B). unfold has. rewrite (lookup_unset_same Z.eqb). exists h. reflexivity.
        -- unfold incr, mbind. cbn [is_commutative it_]. rewrite (both_read c k _ _ _ _ _ B). unfold lift, moved. cbn [owner].
           rewrite (lookup_unset_same Z.eqb). exists h. reflexivity.
      * pose proof (IH cs (S p) a e F h1 fuel (Some n) false T E' ltac:(lia) ltac:(lia) B2 ltac:(lia)) as R. cbv iota in R.
        cbn [py_rounds]. unfold mbind. rewrite NX. cbn [snd fst option_map Nat.pred].
        destruct (n <=? length l)%nat.
        -- destruct R as (h' & ->). exists h'. reflexivity.
        -- destruct R as (h' & -> & R). exists h'. split; [reflexivity|exact R].
    + pose proof (IH cs (S p) a e F h1 fuel None false T E' ltac:(lia) ltac:(lia) B2 ltac:(lia)) as R. cbv iota in R.
      cbn [py_rounds]. unfold mbind. rewrite NX. cbn [snd fst option_map]. destruct R as (h' & -> & R). exists h'. split; [reflexivity|exact R].
Qed.

Theorem pythonic cs c k h gone : lookup Z.eqb c cs = Some k -> sound h ->
  match gone with
  | Some n => if (n <=? length (members k))%nat then exists h', py_for cs c gone h = (h', UB)
              else exists h', py_for cs c gone h = (h', Ok (members k)) /\ sound h' /\ Permutation (live h') (live h)
  | None => exists h', py_for cs c gone h = (h', Ok (members k)) /\ sound h' /\ Permutation (live h') (live h)
  end.
Proof.
  intros T S. unfold py_for, py_terms, mbind, begin_of, end_of. rewrite T. unfold mbind, new, ret. cbn [top live odd].
  set (h1 := Memory (top h + 1 + 1)
     ((top h + 1, Spot (commutative k) c (Z.of_nat (length (members k)))) :: (top h, Spot (commutative k) c 0) :: live h) (odd h)).
  assert (B : both c k (top h) (top h + 1) (Z.of_nat 0) (live h) h1).
  { split; [|apply perm_swap]. exact (sound_new _ _ (sound_new h _ S)). }
  pose proof (py_rounds_go c k (members k) cs 0 (top h) (top h + 1) (live h) h1 (Datatypes.S (size cs c)) gone true T eq_refl
    ltac:(lia) ltac:(unfold size; rewrite T; lia) B ltac:(discriminate)) as R.
  destruct gone as [n|]; exact R.
Qed.
