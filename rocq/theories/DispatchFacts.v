(* What is found under the address of a name. *)
From Coq Require Import ZArith String Ascii List Bool Lia.
From Verif Require Import Base Maps Enums Term Tables Actions Grammar ParserRuns Dispatch DispatchSpec.
From Verif Require Interning Parser.
Import ListNotations.
Open Scope string_scope.
Open Scope list_scope.
Local Open Scope Z_scope.

Lemma lookup_set {V} (k a : Z) (v : V) m : lookup Z.eqb a (set Z.eqb k v m) = if a =? k then Some v else lookup Z.eqb a m.
Proof.
  unfold set. cbn [lookup]. destruct (a =? k) eqn:E; [reflexivity|]. unfold unset.
  induction m as [|[k' v'] m IH]; [reflexivity|]. cbn [filter fst]. destruct (k =? k') eqn:F; cbn [negb lookup].
  - apply Z.eqb_eq in F. subst k'. rewrite E. exact IH.
  - destruct (a =? k'); [reflexivity|exact IH].
Qed.

Section Facts.
Variable ord : list (option connector * list term) -> list (option connector * list term).
Variable fresh : Interning.world -> Z.
Notation methods := (methods ord fresh).
Notation names := (map fst methods).

Lemma regist_all_sound pl l : forall i m a f, lookup Z.eqb a (regist_all pl i l m) = Some f ->
  (exists k n, nth_error l k = Some (n, f) /\ pl (InRegistration (i + k)) = a) \/ lookup Z.eqb a m = Some f.
Proof.
  induction l as [|[n g] l IH]; intros i m a f H; [right; exact H|]. cbn [regist_all] in H.
  destruct (IH _ _ _ _ H) as [(k & n' & E & P)|L].
  - left. exists (S k), n'. split; [exact E|]. rewrite Nat.add_succ_r. exact P.
  - unfold regist in L. rewrite lookup_set in L. destruct (a =? pl (InRegistration i)) eqn:Q; [|right; exact L].
    left. exists 0%nat, n. rewrite Nat.add_0_r. apply Z.eqb_eq in Q. split; [|congruence]. cbn. congruence.
Qed.

Lemma regist_all_keeps pl l : forall i m a f, lookup Z.eqb a m = Some f ->
  exists g, lookup Z.eqb a (regist_all pl i l m) = Some g.
Proof.
  induction l as [|[n g] l IH]; intros i m a f H; [exists f; exact H|]. cbn [regist_all]. unfold regist.
  destruct (a =? pl (InRegistration i)) eqn:Q.
  - apply IH with g. rewrite lookup_set, Q. reflexivity.
  - apply IH with f. rewrite lookup_set, Q. exact H.
Qed.

Lemma regist_all_complete pl l : forall i m k n f, nth_error l k = Some (n, f) ->
  exists g, lookup Z.eqb (pl (InRegistration (i + k))) (regist_all pl i l m) = Some g.
Proof.
  induction l as [|[n g] l IH]; intros i m k n' f H; [destruct k; discriminate H|]. cbn [regist_all].
  destruct k as [|k].
  - rewrite Nat.add_0_r. apply regist_all_keeps with g. unfold regist. rewrite lookup_set, Z.eqb_refl. reflexivity.
  - rewrite Nat.add_succ_r. apply (IH (S i) _ k n' f). exact H.
Qed.

Lemma names_once : NoDup names.
Proof.
  cbn. repeat constructor; cbn; repeat (intros [E|E]; [discriminate E|revert E]); intros E; exact E.
Qed.

Lemma once n f g : In (n, f) methods -> In (n, g) methods -> f = g.
Proof.
  pose proof names_once as N. induction methods as [|[m h] l IH]; [intros []|]. cbn [map fst] in N.
  apply NoDup_cons_iff in N. destruct N as [N1 N2].
  intros [E|I] [F|J].
  - congruence.
  - injection E as -> ->. exfalso. apply N1. apply in_map_iff. exists (n, g). split; [reflexivity|exact J].
  - injection F as -> ->. exfalso. apply N1. apply in_map_iff. exists (n, f). split; [reflexivity|exact I].
  - exact (IH N2 I J).
Qed.

Lemma lookup_in n f : In (n, f) methods -> lookup String.eqb n methods = Some f.
Proof.
  intros I. assert (G : exists g, lookup String.eqb n methods = Some g).
  { revert I. generalize methods. intros l. induction l as [|[m h] l IH]; [intros []|]. intros [E|I]; cbn [lookup].
    - injection E as -> ->. rewrite String.eqb_refl. exists f. reflexivity.
    - destruct (n =? m)%string; [exists h; reflexivity|exact (IH I)]. }
  destruct G as [g G]. rewrite G. f_equal. apply (once n); [|exact I]. revert G. clear I.
  generalize methods. intros l. induction l as [|[m h] l IH]; [discriminate|]. cbn [lookup].
  destruct (n =? m)%string eqn:E; intros H; [|right; exact (IH H)]. apply String.eqb_eq in E. left. congruence.
Qed.

Lemma lookup_sound n f : lookup String.eqb n methods = Some f -> In (n, f) methods.
Proof.
  generalize methods. intros l. induction l as [|[m h] l IH]; [discriminate|]. cbn [lookup].
  destruct (n =? m)%string eqn:E; intros H; [|right; exact (IH H)]. apply String.eqb_eq in E. left. congruence.
Qed.

Lemma nth_names k n f : nth_error methods k = Some (n, f) -> says names (InRegistration k) = Some n.
Proof. intros H. cbn [says]. rewrite nth_error_map, H. reflexivity. Qed.

Lemma named_says pl e a : named pl e a -> exists s, says names s = Some e /\ pl s = a.
Proof.
  intros [i e' g H|i e' n lhs H]; [exists (InSymbols i)|exists (InProductions i)]; cbn [says]; rewrite H; split; reflexivity.
Qed.

Lemma found_own pl e a f : legal names pl -> named pl e a ->
  get_function (registered ord fresh pl) a = Some f -> In (e, f) methods.
Proof.
  intros L N G. unfold get_function, registered in G. destruct (regist_all_sound _ _ _ _ _ _ G) as [(k & n & E & P)|G']; [|discriminate G'].
  cbn [Nat.add] in P. destruct (named_says _ _ _ N) as (s & S1 & S2).
  assert (Q : n = e) by (apply (L (InRegistration k) s); [apply (nth_names _ _ f E)|exact S1|congruence]). subst n.
  exact (nth_error_In _ _ E).
Qed.

Lemma found_exactly pl e a : legal names pl -> named pl e a ->
  ((exists f, get_function (registered ord fresh pl) a = Some f) <->
   exists k, nth_error names k = Some e /\ pl (InRegistration k) = a).
Proof.
  intros L N. split.
  - intros [f G]. unfold get_function, registered in G. destruct (regist_all_sound _ _ _ _ _ _ G) as [(k & n & E & P)|G']; [|discriminate G'].
    exists k. cbn [Nat.add] in P. destruct (named_says _ _ _ N) as (s & S1 & S2).
    assert (Q : n = e) by (apply (L (InRegistration k) s); [apply (nth_names _ _ f E)|exact S1|congruence]). subst n.
    split; [|exact P]. rewrite nth_error_map, E. reflexivity.
  - intros (k & E & P). rewrite nth_error_map in E. destruct (nth_error methods k) as [[n f]|] eqn:M; [|discriminate E].
    destruct (regist_all_complete pl methods 0 [] k n f M) as [g G]. exists g. unfold get_function, registered.
    cbn [Nat.add] in G. rewrite P in G. exact G.
Qed.

Lemma found_merged pl e a : legal names pl -> merged names pl -> named pl e a ->
  get_function (registered ord fresh pl) a = lookup String.eqb e methods.
Proof.
  intros L M N. destruct (lookup String.eqb e methods) as [f|] eqn:E.
  - apply lookup_sound in E. destruct (In_nth_error _ _ E) as [k K].
    destruct (proj2 (found_exactly pl e a L N)) as [g G].
    { exists k. split; [exact (nth_names _ _ _ K)|]. destruct (named_says _ _ _ N) as (s & S1 & <-).
      exact (M _ _ e (nth_names _ _ _ K) S1). }
    rewrite G. f_equal. apply (once e); [exact (found_own pl e a g L N G)|exact E].
  - destruct (get_function (registered ord fresh pl) a) as [f|] eqn:G; [|reflexivity].
    apply (found_own pl e a f L N) in G. apply lookup_in in G. congruence.
Qed.

Lemma named_copy pl n m : copy pl n m ->
  match n, m with
  | Parser.Leaf e t, PLeaf a t' => named pl e a /\ t = t'
  | Parser.Node e ks, PNode a ks' => named pl e a /\ Forall2 (copy pl) ks ks'
  | _, _ => False
  end.
Proof.
  intros [i e g t H|i e k lhs ks ks' H F]; split; auto; [exact (N_symbol pl i e g H)|exact (N_production pl i e k lhs H)].
Qed.

Fixpoint copy_ind' (P : Parser.ast -> Prop) (HL : forall e t, P (Parser.Leaf e t))
  (HN : forall e ks, Forall P ks -> P (Parser.Node e ks)) (n : Parser.ast) : P n :=
  match n with
  | Parser.Leaf e t => HL e t
  | Parser.Node e ks => HN e ks ((fix go l : Forall P l := match l with [] => Forall_nil P | x :: l' => Forall_cons x (copy_ind' P HL HN x) (go l') end) ks)
  end.

Lemma same_by_name pl : legal names pl -> merged names pl -> forall n m st, copy pl n m ->
  ptransform (registered ord fresh pl) st m = transform ord fresh st n.
Proof.
  intros L M. induction n as [e t|e ks IH] using copy_ind'; intros m st C.
  - apply named_copy in C. destruct m as [a t'|]; [|destruct C]. destruct C as [N <-]. cbn [ptransform transform].
    unfold pcall, call. rewrite (found_merged pl e a L M N). reflexivity.
  - apply named_copy in C. destruct m as [|a ks']; [destruct C|]. destruct C as [N F]. cbn [ptransform transform].
    assert (B : (match ks' with [] => None | _ => Some (A:=list value) [] end) = match ks with [] => None | _ => Some [] end)
      by (inversion F; reflexivity).
    assert (D : forall vs, match ks' with [] => None | _ => Some (A:=list value) vs end = match ks with [] => None | _ => Some vs end)
      by (intros vs; destruct ks, ks'; try discriminate B; reflexivity).
    clear B. revert D. generalize (fun vs : list value => match ks' with [] => None | _ => Some vs end) as X.
    generalize (fun vs : list value => match ks with [] => None | _ => Some vs end) as Y. intros Y X D.
    match goal with |- bind ?A _ = bind ?B _ => assert (Q : A = B) end.
    { clear N D. revert st. induction F as [|x y ks ks' C F IHF]; intros st; [reflexivity|].
      apply Forall_cons_iff in IH. destruct IH as [H1 H2]. rewrite (H1 y st C).
      destruct (transform ord fresh st x) as [[st1 v]| | |]; cbn [bind]; try reflexivity. rewrite (IHF H2). reflexivity. }
    rewrite Q. match goal with |- bind ?A _ = _ => destruct A as [[st1 vs]| | |] end; cbn [bind]; try reflexivity.
    rewrite D. unfold pcall, call. rewrite (found_merged pl e a L M N). reflexivity.
Qed.

Lemma all_by_name pl : legal names pl -> merged names pl -> forall l l', Forall2 (copy pl) l l' -> forall st,
  ptransform_all (registered ord fresh pl) st l' = transform_all ord fresh st l.
Proof.
  intros L M l l' F. induction F as [|x y l l' C F IH]; intros st; [reflexivity|]. cbn [ptransform_all transform_all].
  rewrite (same_by_name pl L M x y st C). destruct (transform ord fresh st x) as [[st1 v]| | |]; cbn [bind]; try reflexivity.
  rewrite IH. reflexivity.
Qed.

(* ---- separate literals ---- *)

Lemma separate_legal pl : separate pl -> legal names pl.
Proof. intros S a b s t A B E. apply S in E. subst b. congruence. Qed.

Lemma found_none pl e a : separate pl -> named pl e a -> get_function (registered ord fresh pl) a = None.
Proof.
  intros S N. destruct (get_function (registered ord fresh pl) a) as [f|] eqn:G; [|reflexivity]. exfalso.
  unfold get_function, registered in G. destruct (regist_all_sound _ _ _ _ _ _ G) as [(k & n & E & P)|G']; [|discriminate G'].
  destruct N as [i e g H|i e m lhs H]; apply S in P; discriminate P.
Qed.

Lemma nothing_done pl : separate pl -> forall n m st, copy pl n m ->
  ptransform (registered ord fresh pl) st m = Ok (st, VNull).
Proof.
  intros S. induction n as [e t|e ks IH] using copy_ind'; intros m st C.
  - apply named_copy in C. destruct m as [a t'|]; [|destruct C]. destruct C as [N <-]. cbn [ptransform].
    unfold pcall. rewrite (found_none pl e a S N). reflexivity.
  - apply named_copy in C. destruct m as [|a ks']; [destruct C|]. destruct C as [N F]. cbn [ptransform].
    match goal with |- bind ?A _ = _ => assert (Q : exists vs, A = Ok (st, vs)) end.
    { clear N. induction F as [|x y ks ks' C F IHF]; [exists []; reflexivity|].
      apply Forall_cons_iff in IH. destruct IH as [H1 H2]. rewrite (H1 y st C). cbn [bind].
      destruct (IHF H2) as [vs ->]. cbn [bind]. eexists. reflexivity. }
    destruct Q as [vs ->]. cbn [bind]. unfold pcall. rewrite (found_none pl e a S N). reflexivity.
Qed.

Lemma nothing_returned pl : separate pl -> forall n l m l' st, Forall2 (copy pl) (n :: l) (m :: l') ->
  preturned ord fresh pl st (m :: l') = Ok (st, VNull).
Proof.
  intros S n l m l' st F. unfold preturned.
  assert (Q : forall l l', Forall2 (copy pl) l l' -> exists vs, ptransform_all (registered ord fresh pl) st l' = Ok (st, vs) /\ Forall (eq VNull) vs /\ List.length vs = List.length l').
  { clear F. intros k k' F. induction F as [|x y k k' C F IH]; [exists []; repeat split; constructor|]. cbn [ptransform_all].
    rewrite (nothing_done pl S x y st C). cbn [bind]. destruct IH as (vs & -> & V & W). cbn [bind].
    eexists. split; [reflexivity|]. split; [constructor; auto|cbn; congruence]. }
  destruct (Q _ _ F) as (vs & -> & V & W). cbn [bind]. destruct V as [|v vs <-]; [discriminate W|reflexivity].
Qed.

End Facts.

(* ---- copies exist ---- *)

Definition has_name {A} (f : A -> string) (e : string) (l : list A) : Prop := exists i x, nth_error l i = Some x /\ f x = e.

Fixpoint find_name {A} (f : A -> string) (e : string) (l : list A) : bool :=
  match l with [] => false | x :: l' => if (f x =? e)%string then true else find_name f e l' end.

Lemma find_name_sound {A} (f : A -> string) e l : find_name f e l = true -> has_name f e l.
Proof.
  induction l as [|x l IH]; [discriminate|]. cbn. destruct (f x =? e)%string eqn:E.
  - intros _. apply String.eqb_eq in E. exists 0%nat, x. split; [reflexivity|exact E].
  - intros H. destruct (IH H) as (i & y & N & F). exists (S i), y. split; assumption.
Qed.

Lemma rule_names : forallb (fun r => find_name (fun p => fst (fst p)) (snd r) productions) rules = true.
Proof. vm_compute. reflexivity. Qed.

Lemma token_names : forall sym, 0 <= sym < 59 -> find_name fst (token_name sym) symbols = true.
Proof.
  assert (H : forallb (fun n => find_name fst (token_name (Z.of_nat n)) symbols) (seq 0 59) = true) by (vm_compute; reflexivity).
  intros sym B. rewrite forallb_forall in H. specialize (H (Z.to_nat sym)). rewrite Z2Nat.id in H by lia.
  apply H. apply in_seq. lia.
Qed.

Lemma derivation_copy pl : forall t, derivation t -> exists l, Forall2 (copy pl) (projection t) l.
Proof.
  fix IH 2. intros t [sym txt B M|r lhs rhs name kids R K F].
  - cbn [projection]. destruct (token_name sym =? "")%string; [exists []; constructor|].
    destruct (find_name_sound _ _ _ (token_names sym B)) as (i & [e g] & N & E). cbn in E. subst e.
    eexists [_]. constructor; [|constructor]. exact (C_leaf pl i _ g _ N).
  - cbn [projection]. rewrite R.
    assert (P : exists l, Forall2 (copy pl) (concat (map projection kids)) l).
    { clear R K. induction F as [|k kids D F IHF]; [exists []; constructor|]. cbn [map concat].
      destruct (IH k D) as [l1 L1]. destruct IHF as [l2 L2]. exists (l1 ++ l2). apply Forall2_app; assumption. }
    destruct P as [l P]. destruct (name =? "")%string; [exists l; exact P|].
    pose proof rule_names as H. rewrite forallb_forall in H. specialize (H _ (nth_error_In _ _ R)). cbn [snd] in H.
    destruct (find_name_sound _ _ _ H) as (i & [[e m] lhs'] & N & E). cbn in E. subst e.
    eexists [_]. constructor; [|constructor]. exact (C_node pl i name m lhs' _ l N P).
Qed.

Lemma accepted_copy pl room input trees left : (match room with Some n => 1 <= n | None => True end)%nat ->
  Parser.parse room [] input = Ok (Parser.Accepted trees, left) -> exists l, Forall2 (copy pl) trees l.
Proof.
  intros R P. destruct (accepted room input trees left R P) as (t & D & _ & _ & ->). exact (derivation_copy pl t D).
Qed.

(* ---- placements ---- *)

(* Every literal at an address of its own, with room for 64 characters. *)
Definition apart : placement := fun s =>
  match s with
  | InSymbols i => 4096 + 64 * (4 * Z.of_nat i)
  | InProductions i => 4096 + 64 * (4 * Z.of_nat i + 1)
  | InRegistration i => 4096 + 64 * (4 * Z.of_nat i + 2)
  | InGenerator => 4096 + 64 * 3
  end.

Lemma apart_separate : separate apart.
Proof.
  intros [i|i|i|] [j|j|j|] H; unfold apart in H; try reflexivity;
    try (exfalso; lia); (replace j with i by lia; reflexivity).
Qed.

(* Every literal at an address that its text determines. *)
Fixpoint position (s : string) (l : list string) : Z :=
  match l with
  | [] => 0
  | t :: l' => if (s =? t)%string then 0 else 1 + position s l'
  end.

Lemma position_bound s l : 0 <= position s l.
Proof. induction l as [|t l IH]; cbn [position]; [lia|]. destruct (s =? t)%string; lia. Qed.

Lemma position_inj l s t : In s l -> position s l = position t l -> s = t.
Proof.
  induction l as [|x l IH]; [intros []|]. cbn [position].
  destruct (s =? x)%string eqn:E, (t =? x)%string eqn:F.
  - intros _ _. apply String.eqb_eq in E, F. congruence.
  - intros _ H. pose proof (position_bound t l). lia.
  - intros _ H. pose proof (position_bound s l). lia.
  - intros [->|I] H; [rewrite String.eqb_refl in E; discriminate E|]. apply IH; [exact I|lia].
Qed.

Definition pooled (names : list string) : placement := fun s =>
  match says names s with Some t => 4096 + 64 * position t ("" :: names) | None => 0 end.

Section Pooled.
Variable ord : list (option connector * list term) -> list (option connector * list term).
Variable fresh : Interning.world -> Z.
Notation names := (map fst (methods ord fresh)).

Lemma table_names : forallb (fun p => find_name (fun x => x) (fst p) ("" :: names)) symbols = true /\
  forallb (fun p => find_name (fun x => x) (fst (fst p)) ("" :: names)) productions = true.
Proof. split; vm_compute; reflexivity. Qed.

Lemma find_in e l : find_name (fun x : string => x) e l = true -> In e l.
Proof. intros H. destruct (find_name_sound _ _ _ H) as (i & x & N & <-). exact (nth_error_In _ _ N). Qed.

Lemma says_known a s : says names a = Some s -> In s ("" :: names).
Proof.
  destruct table_names as [T1 T2]. rewrite forallb_forall in T1, T2. destruct a as [i|i|i|]; cbn [says]; intros H.
  - destruct (nth_error symbols i) as [p|] eqn:E; [|discriminate H]. injection H as <-.
    apply find_in. exact (T1 _ (nth_error_In _ _ E)).
  - destruct (nth_error productions i) as [p|] eqn:E; [|discriminate H]. injection H as <-.
    apply find_in. exact (T2 _ (nth_error_In _ _ E)).
  - right. exact (nth_error_In _ _ H).
  - left. congruence.
Qed.

Lemma pooled_good : legal names (pooled names) /\ merged names (pooled names).
Proof.
  split.
  - intros a b s t A B. unfold pooled. rewrite A, B. intros H. apply (position_inj ("" :: names)); [exact (says_known a s A)|lia].
  - intros a b s A B. unfold pooled. rewrite A, B. reflexivity.
Qed.
End Pooled.

(* With every literal at an address of its own nothing is found. *)
Theorem nothing_ever : exists pl, forall ord fresh, legal (map fst (methods ord fresh)) pl /\
  forall st trees l, trees <> [] -> Forall2 (copy pl) trees l -> preturned ord fresh pl st l = Ok (st, VNull).
Proof.
  exists apart. intros ord fresh. split; [exact (separate_legal ord fresh apart apart_separate)|].
  intros st trees l N F. destruct F as [|n m trees l C F]; [destruct (N eq_refl)|].
  exact (nothing_returned ord fresh apart apart_separate n trees m l st (Forall2_cons _ _ C F)).
Qed.
