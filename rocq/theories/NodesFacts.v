(* Proofs about the memory of the syntax tree: a small program logic, and
   linking, reading and freeing nodes *)
From Coq Require Import ZArith String Ascii List Bool Lia Permutation.
From Verif Require Import Base Maps Parser Nodes NodesSpec.
Import ListNotations.
Open Scope string_scope.
Open Scope list_scope.
Open Scope Z_scope.

Notation blocks := (list (Z * block)).

(* ---- lookups in the live blocks ---- *)

Lemma lookup_in (l : blocks) a b : NoDup (map fst l) -> In (a, b) l -> lookup Z.eqb a l = Some b.
Proof.
  induction l as [|[a' b'] l IH]; intros N I; [destruct I|]. cbn [map fst] in N. inversion N as [|x y X N']; subst.
  cbn [lookup]. destruct I as [E|I].
  - injection E as -> ->. rewrite Z.eqb_refl. reflexivity.
  - destruct (Z.eqb_spec a a') as [->|D]; [|exact (IH N' I)].
    exfalso. apply X. apply (in_map fst) in I. exact I.
Qed.

Lemma unset_away (l : blocks) a : ~ In a (map fst l) -> unset Z.eqb a l = l.
Proof.
  induction l as [|[a' b'] l IH]; intros N; [reflexivity|]. unfold unset in *. cbn [filter fst].
  destruct (Z.eqb_spec a a') as [->|D]; cbn [negb].
  - exfalso. apply N. left. reflexivity.
  - rewrite IH; [reflexivity|]. intros I. apply N. right. exact I.
Qed.

Lemma unset_perm (l : blocks) a b r : NoDup (map fst l) -> Permutation l ((a, b) :: r) ->
  Permutation (unset Z.eqb a l) r.
Proof.
  intros N P. assert (N' : NoDup (map fst ((a, b) :: r))).
  { eapply Permutation_NoDup; [|exact N]. apply Permutation_map. exact P. }
  assert (Q : forall l l' : blocks, Permutation l l' -> Permutation (unset Z.eqb a l) (unset Z.eqb a l')).
  { clear. intros l l' P. unfold unset. induction P as [|x l l' P IH|x y l|l l' l'' P IH P' IH']; cbn [filter].
    - constructor.
    - destruct (negb (a =? fst x)); [constructor; exact IH|exact IH].
    - destruct (negb (a =? fst x)), (negb (a =? fst y)); try apply Permutation_refl. constructor.
    - exact (Permutation_trans IH IH'). }
  eapply Permutation_trans; [exact (Q _ _ P)|]. unfold unset. cbn [filter fst]. rewrite Z.eqb_refl. cbn [negb].
  cbn [map fst] in N'. inversion N' as [|x y X _]; subst. fold (unset Z.eqb a r). rewrite unset_away; [apply Permutation_refl|exact X].
Qed.

Lemma unset_in (l : blocks) a x : In x (unset Z.eqb a l) -> In x l.
Proof. unfold unset. intros I. apply filter_In in I. exact (proj1 I). Qed.

Lemma unset_nodup (l : blocks) a : NoDup (map fst l) -> NoDup (map fst (unset Z.eqb a l)).
Proof.
  intros N. unfold unset. induction l as [|x l IH]; [constructor|]. cbn [map filter] in *.
  inversion N as [|u v U N']; subst. destruct (negb (a =? fst x)); [|exact (IH N')].
  cbn [map]. constructor; [|exact (IH N')]. intros I. apply U. apply in_map_iff in I.
  destruct I as (y & E & I). apply filter_In in I. apply in_map_iff. exists y. split; [exact E|exact (proj1 I)].
Qed.

(* ---- the logic ---- *)

(* From the blocks pre, whatever else there is, m does what r says, turning
   pre into blocks described by Q. *)
Definition does {A B} (pre : blocks) (m : M A) (r : res B) (Q : A -> B -> blocks -> Prop) : Prop :=
  forall h F, sound h -> Permutation (live h) (pre ++ F) ->
  match r with
  | Ok b => exists h' a post, m h = (h', Ok a) /\ sound h' /\ Q a b post /\ Permutation (live h') (post ++ F)
  | Throw => exists h', m h = (h', Throw)
  | UB => exists h', m h = (h', UB)
  | OutOfFuel => exists h', m h = (h', OutOfFuel)
  end.

Lemma does_perm {A B} pre pre' (m : M A) (r : res B) Q : Permutation pre' pre -> does pre m r Q -> does pre' m r Q.
Proof.
  intros P D h F S L. apply (D h F S). eapply Permutation_trans; [exact L|]. apply Permutation_app_tail. exact P.
Qed.

Lemma does_weaken {A B} pre (m : M A) (r : res B) (Q Q' : A -> B -> blocks -> Prop) :
  (forall a b post, Q a b post -> Q' a b post) -> does pre m r Q -> does pre m r Q'.
Proof.
  intros I D h F S L. specialize (D h F S L). destruct r; try exact D.
  destruct D as (h' & x & post & E & S' & q & L'). exists h', x, post. repeat split; try assumption; [exact (proj1 S')|exact (proj2 S')|exact (I _ _ _ q)].
Qed.

Lemma does_frame {A B} pre R (m : M A) (r : res B) Q : does pre m r Q ->
  does (pre ++ R) m r (fun a b post => exists q, Q a b q /\ post = q ++ R).
Proof.
  intros D h F S L. rewrite <- app_assoc in L. specialize (D h (R ++ F) S L). destruct r; try exact D.
  destruct D as (h' & x & post & E & S' & q & L'). exists h', x, (post ++ R).
  split; [exact E|]. split; [exact S'|]. split; [exists post; split; [exact q|reflexivity]|]. rewrite <- app_assoc. exact L'.
Qed.

Lemma does_bind {A B A' B'} pre (m : M A) (r : res B) Q (f : A -> M A') (g : B -> res B') Q' :
  does pre m r Q -> (forall a b post, r = Ok b -> Q a b post -> does post (f a) (g b) Q') ->
  does pre (mbind m f) (bind r g) Q'.
Proof.
  intros D C h F S L. specialize (D h F S L). unfold mbind. destruct r as [b| | |]; cbn [bind].
  - destruct D as (h' & x & post & E & S' & q & L'). rewrite E. exact (C _ _ _ eq_refl q h' F S' L').
  - destruct D as (h' & E). rewrite E. exists h'. reflexivity.
  - destruct D as (h' & E). rewrite E. exists h'. reflexivity.
  - destruct D as (h' & E). rewrite E. exists h'. reflexivity.
Qed.

(* A step that the trees know nothing of, on some of the blocks *)
Lemma does_step {A A' B'} pre l R (m : M A) Q (f : A -> M A') (g : res B') Q' :
  does l m (Ok tt) (fun a (_ : unit) post => Q a post) -> Permutation pre (l ++ R) ->
  (forall a post, Q a post -> does (post ++ R) (f a) g Q') ->
  does pre (mbind m f) g Q'.
Proof.
  intros D P C. apply (does_perm (l ++ R)); [exact P|]. change g with (bind (Ok tt) (fun _ => g)).
  eapply does_bind; [apply does_frame; exact D|]. cbn beta. intros a b post _ (q & H & ->). exact (C _ _ H).
Qed.

Lemma does_ret {A B} pre (a : A) (b : B) (Q : A -> B -> blocks -> Prop) : Q a b pre -> does pre (ret a) (Ok b) Q.
Proof.
  intros q h F S L. exists h, a, pre. unfold ret. split; [reflexivity|]. split; [exact S|]. split; [exact q|exact L].
Qed.

(* up to the order of the blocks *)
Lemma does_done {A B} pre pre' (a : A) (b : B) (Q : A -> B -> blocks -> Prop) : Permutation pre pre' -> Q a b pre' -> does pre (ret a) (Ok b) Q.
Proof. intros P q. apply (does_perm pre'); [exact P|]. apply does_ret. exact q. Qed.

Lemma does_lift {A} pre (r : res A) : does pre (lift r) r (fun a b post => a = b /\ post = pre).
Proof.
  intros h F S L. unfold lift. destruct r as [a| | |]; try (exists h; reflexivity).
  exists h, a, pre. split; [reflexivity|]. split; [exact S|]. split; [split; reflexivity|exact L].
Qed.

Lemma does_lifted {A A' B'} pre (r : res A) (f : A -> M A') (g : A -> res B') Q' :
  (forall a, r = Ok a -> does pre (f a) (g a) Q') -> does pre (mbind (lift r) f) (bind r g) Q'.
Proof.
  intros C. eapply does_bind; [apply does_lift|]. cbn beta. intros a b post E [-> ->]. exact (C _ E).
Qed.

(* what the memory does after the trees have been found *)
Lemma does_into {A A' B B'} pre l R (m : M A) (r : res B) Q (f : A -> M A') (g : B -> res B') Q' :
  does l m r Q -> Permutation pre (l ++ R) ->
  (forall a b post, r = Ok b -> Q a b post -> does (post ++ R) (f a) (g b) Q') ->
  does pre (mbind m f) (bind r g) Q'.
Proof.
  intros D P C. apply (does_perm (l ++ R)); [exact P|].
  eapply does_bind; [apply does_frame; exact D|]. cbn beta. intros a b post E (q & H & ->). exact (C _ _ _ E H).
Qed.

Lemma does_rounds {A B} pre (f : nat -> M A) (r : res B) Q :
  (forall fuel, (length pre < fuel)%nat -> does pre (f fuel) r Q) -> does pre (rounds f) r Q.
Proof.
  intros D h F S L. unfold rounds. apply (D (Datatypes.S (length (live h)))); [|exact S|exact L].
  rewrite (Permutation_length L), app_length. lia.
Qed.

Lemma does_new pre b : does pre (new b) (Ok tt) (fun a (_ : unit) post => post = (a, b) :: pre).
Proof.
  intros h F [N U] L. exists (Heap (top h + 1) ((top h, b) :: live h)), (top h), ((top h, b) :: pre).
  unfold new. split; [reflexivity|]. split.
  - split; cbn [live top map fst].
    + constructor; [|exact N]. intros I. apply in_map_iff in I. destruct I as ([x y] & E & I). cbn [fst] in E. subst x.
      specialize (U _ _ I). lia.
    + intros x y [E|I]; [injection E as <- <-; lia|specialize (U _ _ I); lia].
  - split; [reflexivity|]. cbn [live app]. constructor. exact L.
Qed.

Lemma does_node a n : does [(a, BNode n)] (node_at (Some a)) (Ok tt) (fun x (_ : unit) post => x = n /\ post = [(a, BNode n)]).
Proof.
  intros h F [N U] L. exists h, n, [(a, BNode n)]. unfold node_at.
  rewrite (lookup_in _ _ (BNode n) N); [|apply (Permutation_in _ (Permutation_sym L)); left; reflexivity].
  split; [reflexivity|]. split; [exact (conj N U)|]. split; [split; reflexivity|exact L].
Qed.

Lemma does_text a s : does [(a, BText s)] (text_at (Some a)) (Ok tt) (fun x (_ : unit) post => x = s /\ post = [(a, BText s)]).
Proof.
  intros h F [N U] L. exists h, s, [(a, BText s)]. unfold text_at.
  rewrite (lookup_in _ _ (BText s) N); [|apply (Permutation_in _ (Permutation_sym L)); left; reflexivity].
  split; [reflexivity|]. split; [exact (conj N U)|]. split; [split; reflexivity|exact L].
Qed.

Lemma does_free a b : does [(a, b)] (free (Some a)) (Ok tt) (fun x (_ : unit) post => post = []).
Proof.
  intros h F [N U] P. cbn [app] in P.
  exists (Heap (top h) (unset Z.eqb a (live h))), tt, []. unfold free, has.
  rewrite (lookup_in _ _ b N); [|apply (Permutation_in _ (Permutation_sym P)); left; reflexivity].
  split; [reflexivity|]. split.
  - split; cbn [live top]; [apply unset_nodup; exact N|]. intros x y X. exact (U _ _ (unset_in _ _ _ X)).
  - split; [reflexivity|]. cbn [live]. exact (unset_perm _ _ _ _ N P).
Qed.

Lemma does_free_null pre : does pre (free None) (Ok tt) (fun x (_ : unit) post => post = pre).
Proof. intros h F S L. exists h, tt, pre. repeat split; try exact (proj1 S); try exact (proj2 S). exact L. Qed.

Lemma does_update a n f : does [(a, BNode n)] (update (Some a) f) (Ok tt) (fun x (_ : unit) post => post = [(a, BNode (f n))]).
Proof.
  intros h F [N U] P. cbn [app] in P.
  exists (Heap (top h) (set Z.eqb a (BNode (f n)) (live h))), tt, [(a, BNode (f n))]. unfold update.
  assert (A : In (a, BNode n) (live h)) by (apply (Permutation_in _ (Permutation_sym P)); left; reflexivity).
  rewrite (lookup_in _ _ (BNode n) N A). split; [reflexivity|]. split.
  - unfold set. split; cbn [live top map fst].
    + constructor; [|apply unset_nodup; exact N]. intros X. apply in_map_iff in X. destruct X as ([x y] & E & X).
      unfold unset in X. apply filter_In in X. destruct X as [_ X]. cbn [fst] in *. subst x. rewrite Z.eqb_refl in X. discriminate X.
    + intros x y [E|X]; [injection E as <- <-; exact (U _ _ A)|exact (U _ _ (unset_in _ _ _ X))].
  - split; [reflexivity|]. cbn [live]. unfold set. cbn [app]. constructor. exact (unset_perm _ _ _ _ N P).
Qed.

(* ---- lists of nodes ---- *)

Lemma nodes_none before p trees l : nodes_at before p trees l -> (p = None <-> trees = []) /\ (trees = [] -> l = []).
Proof. intros H. inversion H; subst; split; try split; intros; congruence || discriminate. Qed.

(* The first node of a list *)
Lemma nodes_first before trees l a : nodes_at before (Some a) trees l ->
  exists n r, Permutation l ((a, BNode n) :: r) /\ prev n = before /\
    forall before', exists l', nodes_at before' (Some a) trees l' /\ Permutation l' ((a, BNode (set_prev before' n)) :: r).
Proof.
  intros H. inversion H as [| b a' t e s q ts k K|b a' e c kids k q ts k' K K']; subst.
  - eexists _, _. split; [apply Permutation_refl|]. split; [reflexivity|].
    intros before'. eexists. split; [constructor; exact K|apply Permutation_refl].
  - eexists _, _. split; [apply Permutation_refl|]. split; [reflexivity|].
    intros before'. eexists. split; [constructor; [exact K|exact K']|apply Permutation_refl].
Qed.

(* ---- the loops ---- *)

Lemma first_found l a trees : nodes_at None (Some a) trees l ->
  does l (rounds (fun fuel => first fuel (Some a))) (Ok tt) (fun x (_ : unit) post => x = Some a /\ Permutation post l).
Proof.
  intros H. apply does_rounds. intros [|fuel] L; [lia|]. cbn [first].
  destruct (nodes_first _ _ _ _ H) as (n & r & P & PV & _).
  eapply does_step; [apply does_node|exact P|]. cbn beta. intros x post [-> ->]. rewrite PV.
  apply does_ret. split; [reflexivity|]. apply Permutation_sym. exact P.
Qed.

(* The last node of a list: what can be linked to it, and that it is found *)
Lemma final_found before p trees l : nodes_at before p trees l -> forall a, p = Some a ->
  exists z n r, Permutation l ((z, BNode n) :: r) /\ nxt n = None /\ (length trees = 1%nat -> z = a) /\
    (forall q trees' k, nodes_at (Some z) q trees' k ->
      exists l', nodes_at before p (trees ++ trees') l' /\ Permutation l' ((z, BNode (set_next q n)) :: r ++ k)) /\
    forall fuel, (length l <= fuel)%nat ->
      does l (final fuel p) (Ok tt) (fun x (_ : unit) post => x = Some z /\ Permutation post l).
Proof.
  assert (LINK : forall b a a1 n k l z (ts : list ast), a1 = Some a -> nxt n = Some b ->
    (forall fuel, (length l <= fuel)%nat ->
      does l (final fuel (Some b)) (Ok tt) (fun x (_ : unit) post => x = Some z /\ Permutation post l)) ->
    forall fuel, (length ((a, BNode n) :: k ++ l) <= fuel)%nat ->
      does ((a, BNode n) :: k ++ l) (final fuel a1) (Ok tt)
        (fun x (_ : unit) post => x = Some z /\ Permutation post ((a, BNode n) :: k ++ l))).
  { intros b a a1 n k l0 z ts -> NX D [|fuel] L; [cbn [length] in L; lia|]. cbn [final].
    eapply does_step; [apply does_node|apply (Permutation_refl ([_] ++ _))|]. cbn beta. intros x post [-> ->]. rewrite NX.
    eapply does_perm; [|eapply does_weaken; [|apply (does_frame l0 ((a, BNode n) :: k)); apply D]].
    - cbn [app]. eapply Permutation_trans; [apply perm_skip; apply Permutation_app_comm|]. apply Permutation_middle.
    - cbn beta. intros x y post (q & [-> P] & ->). split; [reflexivity|].
      eapply Permutation_trans; [apply Permutation_app_tail; exact P|].
      eapply Permutation_trans; [apply Permutation_sym; apply Permutation_middle|]. apply perm_skip. apply Permutation_app_comm.
    - cbn [length] in L. rewrite app_length in L. lia. }
  assert (LAST : forall a a1 n k, a1 = Some a -> nxt n = None ->
    forall fuel, (length ((a, BNode n) :: k) <= fuel)%nat ->
      does ((a, BNode n) :: k) (final fuel a1) (Ok tt)
        (fun x (_ : unit) post => x = Some a /\ Permutation post ((a, BNode n) :: k))).
  { intros a a1 n k -> NX [|fuel] L; [cbn [length] in L; lia|]. cbn [final].
    eapply does_step; [apply does_node|apply (Permutation_refl ([_] ++ _))|]. cbn beta. intros x post [-> ->]. rewrite NX.
    apply does_ret. split; [reflexivity|apply Permutation_refl]. }
  induction 1 as [|b a' t e s q ts k K IH|b a' e c kids k q ts k' K _ K' IH]; intros a0 E; [discriminate| |]; injection E as <-.
  - destruct q as [a1|].
    + destruct (IH a1 eq_refl) as (z & n & r & P & NX & _ & C & D).
      exists z, n, ((a', BNode (Nd e (Some t) None b (Some a1))) :: (t, BText s) :: r).
      split; [|split; [exact NX|split; [|split]]].
      * eapply Permutation_trans; [do 2 apply perm_skip; exact P|].
        eapply Permutation_trans; [apply perm_skip; apply perm_swap|]. apply perm_swap.
      * intros L1. exfalso. destruct ts; [inversion K|cbn [length] in L1; discriminate].
      * intros q' trees' k2 K2. destruct (C _ _ _ K2) as (l' & N & P'). eexists. split; [cbn [app]; constructor; exact N|].
        eapply Permutation_trans; [do 2 apply perm_skip; exact P'|]. cbn [app].
        eapply Permutation_trans; [apply perm_skip; apply perm_swap|]. apply perm_swap.
      * apply (LINK a1 a' (Some a') _ [(t, BText s)] k z ts eq_refl); [reflexivity|exact D].
    + exists a', (Nd e (Some t) None b None), [(t, BText s)]. destruct (nodes_none _ _ _ _ K) as [[TN _] LN].
      specialize (TN eq_refl). subst ts. rewrite (LN eq_refl). split; [apply Permutation_refl|]. split; [reflexivity|]. split; [reflexivity|].
      split; [|apply LAST; reflexivity].
      intros q' trees' k2 K2. eexists. split; [cbn [app]; constructor; exact K2|apply Permutation_refl].
  - destruct q as [a1|].
    + destruct (IH a1 eq_refl) as (z & n & r & P & NX & _ & C & D).
      exists z, n, ((a', BNode (Nd e None c b (Some a1))) :: k ++ r).
      split; [|split; [exact NX|split; [|split]]].
      * eapply Permutation_trans; [apply perm_skip; apply Permutation_app_head; exact P|].
        eapply Permutation_trans; [apply perm_skip; apply Permutation_sym; apply Permutation_middle|]. apply perm_swap.
      * intros L1. exfalso. destruct ts; [inversion K'|cbn [length] in L1; discriminate].
      * intros q' trees' k2 K2. destruct (C _ _ _ K2) as (l' & N & P'). eexists. split; [cbn [app]; constructor; [exact K|exact N]|].
        eapply Permutation_trans; [apply perm_skip; apply Permutation_app_head; exact P'|]. cbn [app].
        eapply Permutation_trans; [apply perm_skip; apply Permutation_sym; apply Permutation_middle|].
        rewrite <- app_assoc. apply perm_swap.
      * apply (LINK a1 a' (Some a') _ k k' z ts eq_refl); [reflexivity|exact D].
    + exists a', (Nd e None c b None), k. destruct (nodes_none _ _ _ _ K') as [[TN _] LN].
      specialize (TN eq_refl). subst ts. rewrite (LN eq_refl), app_nil_r. split; [apply Permutation_refl|]. split; [reflexivity|]. split; [reflexivity|].
      split; [|apply LAST; reflexivity].
      intros q' trees' k2 K2. eexists. split; [cbn [app]; constructor; [exact K|exact K2]|apply Permutation_refl].
Qed.

(* ---- linking lists ---- *)

Lemma does_join p q ts us k l : nodes_at None p ts k -> nodes_at None q us l -> chain ts us = ts ++ us ->
  does (k ++ l) (join p q) (Ok tt) (fun x (_ : unit) post => nodes_at None x (ts ++ us) post).
Proof.
  intros K L C. unfold join. destruct p as [a|].
  2:{ destruct (nodes_none _ _ _ _ K) as [[T _] KN]. rewrite (T eq_refl), (KN (T eq_refl)). apply does_ret. exact L. }
  destruct q as [b|].
  2:{ destruct (nodes_none _ _ _ _ L) as [[T _] KN]. rewrite (T eq_refl), (KN (T eq_refl)), !app_nil_r. apply does_ret. exact K. }
  assert (ONE : length ts = 1%nat).
  { destruct (nodes_none _ _ _ _ L) as [[_ T] _]. destruct (nodes_none _ _ _ _ K) as [[_ T'] _].
    destruct us as [|u us]; [discriminate (T eq_refl)|]. destruct ts as [|t ts]; [discriminate (T' eq_refl)|].
    cbn [chain app] in C. injection C as C. destruct ts as [|t' ts]; [reflexivity|].
    exfalso. assert (X : length (u :: us) = length ((t' :: ts) ++ u :: us)) by (rewrite <- C; reflexivity).
    rewrite app_length in X. cbn [length] in X. lia. }
  eapply does_step; [apply (first_found l b us); exact L|apply Permutation_app_comm|]. cbn beta. intros x post [-> P1].
  destruct (nodes_first _ _ _ _ L) as (n & r & P & PV & S1).
  eapply does_step; [apply (does_update b n)| |].
  { eapply Permutation_trans; [apply Permutation_app_tail; eapply Permutation_trans; [exact P1|exact P]|]. apply (Permutation_refl ([_] ++ r ++ k)). }
  cbn beta. intros _ post' ->. destruct (final_found _ _ _ _ K a eq_refl) as (z & m & r' & P' & NX & Z1 & S2 & _).
  specialize (Z1 ONE). subst z. destruct (S1 (Some a)) as (l' & L' & PL').
  eapply (does_step _ [(a, BNode m)] (r' ++ l')); [apply does_update| |].
  { cbn [app]. eapply Permutation_trans; [apply perm_skip; apply Permutation_app_comm|].
    eapply Permutation_trans; [apply perm_skip; apply Permutation_app_tail; exact P'|].
    cbn [app]. eapply Permutation_trans; [apply perm_swap|]. apply perm_skip.
    eapply Permutation_trans; [apply Permutation_middle|]. apply Permutation_app_head. apply Permutation_sym. exact PL'. }
  cbn beta. intros _ post'' ->. destruct (S2 _ _ _ L') as (l2 & N2 & P2).
  apply (does_done _ l2); [apply Permutation_sym; exact P2|exact N2].
Qed.

Lemma does_append p q ts us k l : nodes_at None p ts k -> nodes_at None q us l ->
  does (k ++ l) (append p q) (Ok tt) (fun x (_ : unit) post => nodes_at None x (ts ++ us) post).
Proof.
  intros K L. unfold append. destruct q as [b|].
  2:{ destruct (nodes_none _ _ _ _ L) as [[T _] KN]. rewrite (T eq_refl), (KN (T eq_refl)), !app_nil_r. apply does_ret. exact K. }
  destruct p as [a|].
  2:{ destruct (nodes_none _ _ _ _ K) as [[T _] KN]. rewrite (T eq_refl), (KN (T eq_refl)). apply does_ret. exact L. }
  destruct (final_found _ _ _ _ K a eq_refl) as (z & m & r & P & NX & _ & S2 & D).
  eapply does_step; [apply does_rounds; intros fuel F; apply D; lia|apply Permutation_refl|]. cbn beta. intros x post [-> P1].
  eapply does_step; [apply (does_update z m)| |].
  { eapply Permutation_trans; [apply Permutation_app_tail; eapply Permutation_trans; [exact P1|exact P]|]. apply (Permutation_refl ([_] ++ r ++ l)). }
  cbn beta. intros _ post' ->. destruct (nodes_first _ _ _ _ L) as (n & r' & P' & PV & S1). destruct (S1 (Some z)) as (l' & L' & PL').
  eapply (does_step _ [(b, BNode n)] ((z, BNode (set_next (Some b) m)) :: r ++ r')); [apply does_update| |].
  { cbn [app]. eapply Permutation_trans; [apply perm_skip; apply Permutation_app_head; exact P'|].
    eapply Permutation_trans; [apply perm_skip; apply Permutation_sym; apply Permutation_middle|]. apply perm_swap. }
  cbn beta. intros _ post'' ->. destruct (S2 _ _ _ L') as (l2 & N2 & P2).
  apply (does_done _ l2); [|exact N2]. apply Permutation_sym. eapply Permutation_trans; [exact P2|]. cbn [app].
  eapply Permutation_trans; [apply perm_skip; apply Permutation_app_head; exact PL'|].
  eapply Permutation_trans; [apply perm_skip; apply Permutation_sym; apply Permutation_middle|]. apply perm_swap.
Qed.

Lemma does_wrap name p ts k : nodes_at None p ts k ->
  does k (wrap name p) (Ok tt)
    (fun x (_ : unit) post => nodes_at None x (if (name =? "")%string then ts else [Node name ts]) post).
Proof.
  intros K. unfold wrap. destruct (name =? "")%string; [apply does_ret; exact K|]. cbn [ast_create].
  eapply does_step; [eapply does_step; [apply does_new|apply (Permutation_refl ([] ++ []))|]|apply (Permutation_refl ([] ++ k))|].
  { cbn beta. intros a post ->. apply does_ret. instantiate (1 := fun x post => exists a, x = Some a /\ post = [(a, BNode (Nd name None None None None))]).
    exists a. split; reflexivity. }
  cbn beta. intros x post (a & -> & ->).
  eapply does_step; [apply does_update|apply Permutation_refl|]. cbn beta. intros _ post ->.
  apply (does_done _ ((a, BNode (Nd name None p None None)) :: k ++ [])); [rewrite app_nil_r; apply Permutation_refl|].
  constructor; [exact K|constructor].
Qed.

(* ---- tokens ---- *)

Inductive lexem_at : ptr -> blocks -> Prop :=
  | X_none : lexem_at None []
  | X_some a s : lexem_at (Some a) [(a, BText s)].

Lemma does_free_lexem p l : lexem_at p l -> does l (free p) (Ok tt) (fun x (_ : unit) post => post = []).
Proof. intros H. inversion H; subst; [apply does_free_null|apply does_free]. Qed.

Lemma does_lexem p l s : lexem_at p l ->
  does l (get_lexem p s) (Ok tt) (fun x (_ : unit) post => exists a, x = Some a /\ post = [(a, BText s)]).
Proof.
  intros H. unfold get_lexem. eapply does_step; [apply does_free_lexem; exact H|rewrite app_nil_r; apply Permutation_refl|].
  cbn beta. intros _ post ->. eapply does_step; [apply does_new|apply (Permutation_refl ([] ++ []))|].
  cbn beta. intros a post ->. apply does_ret. exists a. split; reflexivity.
Qed.

Lemma does_leaf name a s :
  does [(a, BText s)] (ast_create name (Some a)) (Ok tt)
    (fun x (_ : unit) post => exists l, nodes_at None x [Leaf name s] l /\ post = l ++ [(a, BText s)]).
Proof.
  cbn [ast_create].
  eapply does_step; [apply does_new|apply (Permutation_refl ([] ++ _))|]. cbn beta. intros b post ->.
  eapply (does_step _ [(a, BText s)] [(b, BNode (Nd name None None None None))]); [apply does_text|apply perm_swap|].
  cbn beta. intros x post [-> ->].
  eapply (does_step _ [] _); [apply does_new|apply Permutation_refl|]. cbn beta. intros t post ->.
  eapply (does_step _ [(b, BNode (Nd name None None None None))] [(t, BText s); (a, BText s)]); [apply does_update| |].
  { cbn [app]. eapply Permutation_trans; [apply perm_skip; apply perm_swap|]. apply perm_swap. }
  cbn beta. intros _ post ->. apply does_ret. eexists. split; [constructor; constructor|reflexivity].
Qed.

(* ---- reading and freeing a whole tree ---- *)

Lemma does_walk before p trees l : nodes_at before p trees l -> forall fuel, (length l < fuel)%nat ->
  does l (walk fuel p) (Ok tt) (fun x (_ : unit) post => x = trees /\ Permutation post l).
Proof.
  induction 1 as [b|b a t e s q ts k K IH|b a e c kids k q ts k' K IHc K' IH]; intros [|fuel] L; try lia; cbn [walk].
  - apply does_ret. split; [reflexivity|apply Permutation_refl].
  - cbn [length] in L.
    eapply does_step; [apply does_node|apply (Permutation_refl ([_] ++ _))|]. cbn beta. intros x post [-> ->]. cbn [token emit nxt].
    eapply (does_step _ [(t, BText s)]); [apply does_text|apply perm_swap|]. cbn beta. intros x post [-> ->].
    eapply does_step; [apply IH; lia|apply (Permutation_app_comm [_; _] k)|].
    cbn beta. intros x post [-> P]. apply does_ret. split; [reflexivity|].
    eapply Permutation_trans; [apply Permutation_app_tail; exact P|].
    eapply Permutation_trans; [apply Permutation_app_comm|]. apply perm_swap.
  - cbn [length] in L. rewrite app_length in L.
    eapply does_step; [apply does_node|apply (Permutation_refl ([_] ++ _))|]. cbn beta. intros x post [-> ->]. cbn [token emit nxt child].
    eapply (does_step _ k); [apply IHc; lia|cbn [app]; eapply Permutation_trans; [apply Permutation_middle|]; apply Permutation_refl|].
    cbn beta. intros x post [-> P].
    eapply (does_step _ k'); [apply IH; lia|eapply Permutation_trans; [apply Permutation_app_comm|];
      eapply Permutation_trans; [apply (Permutation_app_comm ((a, BNode (Nd e None c b q)) :: k') post)|];
      eapply Permutation_trans; [apply Permutation_sym; apply Permutation_middle|];
      eapply Permutation_trans; [apply perm_skip; apply Permutation_app_comm|]; apply Permutation_middle|].
    cbn beta. intros x post' [-> P']. apply does_ret. split; [reflexivity|].
    eapply Permutation_trans; [apply Permutation_app; [exact P'|apply perm_skip; exact P]|].
    eapply Permutation_trans; [apply Permutation_sym; apply Permutation_middle|]. apply perm_skip. apply Permutation_app_comm.
Qed.

Lemma does_ast_free before p trees l : nodes_at before p trees l -> forall fuel, (length l < fuel)%nat ->
  does l (ast_free fuel p) (Ok tt) (fun x (_ : unit) post => post = []).
Proof.
  induction 1 as [b|b a t e s q ts k K IH|b a e c kids k q ts k' K IHc K' IH]; intros [|fuel] L; try lia; cbn [ast_free].
  - apply does_ret. reflexivity.
  - cbn [length] in L. set (n := Nd e (Some t) None b q).
    eapply does_step; [apply does_node|apply (Permutation_refl ([_] ++ _))|]. cbn beta. intros x post [-> ->]. cbn [child n].
    destruct fuel as [|fuel]; [lia|]. 
    eapply (does_step _ []); [cbn [ast_free]; apply does_ret; instantiate (1 := fun _ post => post = []); reflexivity|apply Permutation_refl|].
    cbn beta. intros _ post ->.
    eapply does_step; [apply does_node|apply (Permutation_refl ([_] ++ _))|]. cbn beta. intros x post [-> ->]. fold n. cbn [nxt n].
    eapply (does_step _ k); [apply IH; lia|apply (Permutation_app_comm [_; _] k)|]. cbn beta. intros _ post ->. fold n. cbn [app].
    eapply (does_step _ [(a, BNode n)] [(t, BText s)]); [apply does_node|apply Permutation_refl|]. cbn beta. intros x post [-> ->]. cbn [token n].
    eapply (does_step _ [(t, BText s)] [(a, BNode n)]); [apply does_free|apply perm_swap|]. cbn beta. intros _ post ->.
    apply (does_free a (BNode n)).
  - cbn [length] in L. rewrite app_length in L. set (n := Nd e None c b q).
    eapply does_step; [apply does_node|apply (Permutation_refl ([_] ++ _))|]. cbn beta. intros x post [-> ->]. cbn [child n]. fold n.
    eapply (does_step _ k ((a, BNode n) :: k')); [apply IHc; lia|cbn [app]; apply Permutation_middle|]. cbn beta. intros _ post ->. cbn [app].
    eapply does_step; [apply does_node|apply (Permutation_refl ([_] ++ _))|]. cbn beta. intros x post [-> ->]. cbn [nxt n]. fold n.
    eapply (does_step _ k'); [apply IH; lia|apply (Permutation_app_comm [_] k')|]. cbn beta. intros _ post ->. cbn [app].
    eapply (does_step _ [(a, BNode n)] []); [apply does_node|apply Permutation_refl|]. cbn beta. intros x post [-> ->]. cbn [token n].
    eapply (does_step _ [] [(a, BNode n)]); [apply does_free_null|apply Permutation_refl|]. cbn beta. intros _ post ->.
    apply (does_free a (BNode n)).
Qed.
