(* Proofs about the memory of the semantic actions: a small program logic *)
From Coq Require Import ZArith String Ascii List Bool Lia Permutation.
From Verif Require Import Base Enums Term Terms Compound Maps Float Truth Numeral Actions ActionsSpec Storage StorageSpec.
From Verif Require Interning Evidence Parser.
Import ListNotations.
Open Scope string_scope.
Open Scope Z_scope.
Open Scope list_scope.

Notation blocks := (list (Z * block)).

(* ---- lookups in the live blocks ---- *)

Lemma lookup_in (l : blocks) a b : NoDup (map fst l) -> In (a, b) l -> lookup Z.eqb a l = Some b.
Proof.
  induction l as [|[a' b'] l IH]; intros N I; [destruct I|]. cbn [map fst] in N. inversion N as [|x y X N']; subst.
  cbn [lookup]. destruct I as [E|I].
  - injection E as -> ->. rewrite Z.eqb_refl. reflexivity.
  - destruct (Z.eqb_spec a a') as [->|D]; [|exact (IH N' I)].
    exfalso. apply X. apply (in_map fst) in I. exact I.
Qed.

Lemma unset_away (l : blocks) a : ~ In a (map fst l) -> unset Z.eqb a l = l.
Proof.
  induction l as [|[a' b'] l IH]; intros N; [reflexivity|]. unfold unset in *. cbn [filter fst].
  destruct (Z.eqb_spec a a') as [->|D]; cbn [negb].
  - exfalso. apply N. left. reflexivity.
  - rewrite IH; [reflexivity|]. intros I. apply N. right. exact I.
Qed.

Lemma unset_perm (l : blocks) a b r : NoDup (map fst l) -> Permutation l ((a, b) :: r) ->
  Permutation (unset Z.eqb a l) r.
Proof.
  intros N P. assert (N' : NoDup (map fst ((a, b) :: r))).
  { eapply Permutation_NoDup; [|exact N]. apply Permutation_map. exact P. }
  assert (Q : forall l l' : blocks, Permutation l l' -> Permutation (unset Z.eqb a l) (unset Z.eqb a l')).
  { clear. intros l l' P. unfold unset. induction P as [|x l l' P IH|x y l|l l' l'' P IH P' IH']; cbn [filter].
    - constructor.
    - destruct (negb (a =? fst x)); [constructor; exact IH|exact IH].
    - destruct (negb (a =? fst x)), (negb (a =? fst y)); try apply Permutation_refl. constructor.
    - exact (Permutation_trans IH IH'). }
  eapply Permutation_trans; [exact (Q _ _ P)|]. unfold unset. cbn [filter fst]. rewrite Z.eqb_refl. cbn [negb].
  cbn [map fst] in N'. inversion N' as [|x y X _]; subst. fold (unset Z.eqb a r). rewrite unset_away; [apply Permutation_refl|exact X].
Qed.

Lemma unset_in (l : blocks) a x : In x (unset Z.eqb a l) -> In x l.
Proof. unfold unset. intros I. apply filter_In in I. exact (proj1 I). Qed.

Lemma unset_nodup (l : blocks) a : NoDup (map fst l) -> NoDup (map fst (unset Z.eqb a l)).
Proof.
  intros N. unfold unset. induction l as [|x l IH]; [constructor|]. cbn [map filter] in *.
  inversion N as [|u v U N']; subst. destruct (negb (a =? fst x)); [|exact (IH N')].
  cbn [map]. constructor; [|exact (IH N')]. intros I. apply U. apply in_map_iff in I.
  destruct I as (y & E & I). apply filter_In in I. apply in_map_iff. exists y. split; [exact E|exact (proj1 I)].
Qed.

(* ---- the logic ---- *)

(* From the blocks pre, whatever else there is, m does what r says, turning
   pre into blocks described by Q.  When r throws nothing else is lost. *)
Definition does {A B} (pre : blocks) (m : M A) (r : res B) (Q : A -> B -> blocks -> Prop) : Prop :=
  forall h F, sound h -> Permutation (live h) (pre ++ F) ->
  match r with
  | Ok b => exists h' a post, m h = (h', Ok a) /\ sound h' /\ Q a b post /\ Permutation (live h') (post ++ F)
  | Throw => exists h' lost, m h = (h', Throw) /\ sound h' /\ Permutation (live h') (lost ++ F)
  | UB | OutOfFuel => True
  end.

Lemma does_perm {A B} pre pre' (m : M A) (r : res B) Q : Permutation pre' pre -> does pre m r Q -> does pre' m r Q.
Proof.
  intros P D h F S L. apply (D h F S). eapply Permutation_trans; [exact L|]. apply Permutation_app_tail. exact P.
Qed.

Lemma does_weaken {A B} pre (m : M A) (r : res B) (Q Q' : A -> B -> blocks -> Prop) :
  (forall a b post, Q a b post -> Q' a b post) -> does pre m r Q -> does pre m r Q'.
Proof.
  intros I D h F S L. specialize (D h F S L). destruct r; try exact D.
  destruct D as (h' & x & post & E & S' & q & L'). exists h', x, post. repeat split; try assumption; [exact (proj1 S')|exact (proj2 S')|exact (I _ _ _ q)].
Qed.

Lemma does_frame {A B} pre R (m : M A) (r : res B) Q : does pre m r Q ->
  does (pre ++ R) m r (fun a b post => exists q, Q a b q /\ post = q ++ R).
Proof.
  intros D h F S L. rewrite <- app_assoc in L. specialize (D h (R ++ F) S L). destruct r; try exact D.
  - destruct D as (h' & x & post & E & S' & q & L'). exists h', x, (post ++ R).
    split; [exact E|]. split; [exact S'|]. split; [exists post; split; [exact q|reflexivity]|]. rewrite <- app_assoc. exact L'.
  - destruct D as (h' & lost & E & S' & L'). exists h', (lost ++ R). split; [exact E|]. split; [exact S'|].
    rewrite <- app_assoc. exact L'.
Qed.

Lemma does_bind_eq {A B A' B'} pre (m : M A) (r : res B) Q (f : A -> M A') (g : B -> res B') Q' :
  does pre m r Q -> (forall a b post, r = Ok b -> Q a b post -> does post (f a) (g b) Q') ->
  does pre (mbind m f) (bind r g) Q'.
Proof.
  intros D C h F S L. specialize (D h F S L). unfold mbind. destruct r as [b| | |]; cbn [bind]; try exact I.
  - destruct D as (h' & x & post & E & S' & q & L'). rewrite E. exact (C _ _ _ eq_refl q h' F S' L').
  - destruct D as (h' & lost & E & S' & L'). rewrite E. exists h', lost. split; [reflexivity|]. split; [exact S'|exact L'].
Qed.

Lemma does_bind {A B A' B'} pre (m : M A) (r : res B) Q (f : A -> M A') (g : B -> res B') Q' :
  does pre m r Q -> (forall a b post, Q a b post -> does post (f a) (g b) Q') ->
  does pre (mbind m f) (bind r g) Q'.
Proof. intros D C. eapply does_bind_eq; [exact D|]. intros a b post _ q. exact (C _ _ _ q). Qed.

(* A step of the memory that the values know nothing of *)
Lemma does_step {A A' B'} pre (m : M A) Q (f : A -> M A') (g : res B') Q' :
  does pre m (Ok tt) (fun a (_ : unit) post => Q a post) -> (forall a post, Q a post -> does post (f a) g Q') ->
  does pre (mbind m f) g Q'.
Proof.
  intros D C. change g with (bind (Ok tt) (fun _ => g)). eapply does_bind; [exact D|]. intros a b post q. exact (C _ _ q).
Qed.

Lemma does_ret {A B} pre (a : A) (b : B) (Q : A -> B -> blocks -> Prop) : Q a b pre -> does pre (ret a) (Ok b) Q.
Proof.
  intros q h F S L. exists h, a, pre. unfold ret. split; [reflexivity|]. split; [exact S|]. split; [exact q|exact L].
Qed.

Lemma does_lift {A} pre (r : res A) : does pre (lift r) r (fun a b post => a = b /\ post = pre).
Proof.
  intros h F S L. unfold lift. destruct r as [a| | |]; try exact I.
  - exists h, a, pre. split; [reflexivity|]. split; [exact S|]. split; [split; reflexivity|exact L].
  - exists h, pre. split; [reflexivity|]. split; [exact S|exact L].
Qed.

(* the value part may be bound to a computation without memory *)
Lemma does_value {A B C} pre (m : M A) (r : res C) (g : C -> res B) Q :
  (forall c, r = Ok c -> does pre m (g c) Q) -> (r = Throw -> does pre m (@Throw B) Q) -> does pre m (bind r g) Q.
Proof.
  intros H T. destruct r as [c| | |]; cbn [bind]; [exact (H c eq_refl)| |exact (T eq_refl)|]; intros h F S L; exact I.
Qed.

Lemma does_new pre b : does pre (new b) (Ok tt) (fun a (_ : unit) post => post = (a, b) :: pre).
Proof.
  intros h F [N U] L. exists (Heap (top h + 1) ((top h, b) :: live h)), (top h), ((top h, b) :: pre).
  unfold new. split; [reflexivity|]. split.
  - split; cbn [live top map fst].
    + constructor; [|exact N]. intros I. apply in_map_iff in I. destruct I as ([x y] & E & I). cbn [fst] in E. subst x.
      specialize (U _ _ I). lia.
    + intros x y [E|I]; [injection E as <- <-; lia|specialize (U _ _ I); lia].
  - split; [reflexivity|]. cbn [live app]. constructor. exact L.
Qed.

Section Types.
Variable strict : bool.

Lemma does_read pre T a b : In (a, b) pre -> may_read strict T (type_of b) = true ->
  does pre (read strict T (At a)) (Ok tt) (fun x (_ : unit) post => x = b /\ post = pre).
Proof.
  intros I R h F [N U] L. exists h, b, pre. unfold read.
  rewrite (lookup_in _ _ b N); [|apply (Permutation_in _ (Permutation_sym L)); apply in_or_app; left; exact I].
  rewrite R. split; [reflexivity|]. split; [exact (conj N U)|]. split; [split; reflexivity|exact L].
Qed.

Lemma does_delete pre T a b r : Permutation pre ((a, b) :: r) -> may_delete strict T (type_of b) = true ->
  does pre (delete strict T (At a)) (Ok tt) (fun x (_ : unit) post => post = r).
Proof.
  intros I R h F [N U] L. assert (P : Permutation (live h) ((a, b) :: r ++ F)).
  { eapply Permutation_trans; [exact L|]. exact (Permutation_app_tail F I). }
  exists (Heap (top h) (unset Z.eqb a (live h))), tt, r. unfold delete.
  rewrite (lookup_in _ _ b N); [|apply (Permutation_in _ (Permutation_sym P)); left; reflexivity].
  rewrite R. split; [reflexivity|]. split.
  - split; cbn [live top]; [apply unset_nodup; exact N|]. intros x y X. exact (U _ _ (unset_in _ _ _ X)).
  - split; [reflexivity|]. cbn [live]. exact (unset_perm _ _ _ _ N P).
Qed.

Lemma does_write pre a b b' r : Permutation pre ((a, b) :: r) -> may_read strict (type_of b') (type_of b) = true ->
  does pre (write strict (At a) b') (Ok tt) (fun x (_ : unit) post => post = (a, b') :: r).
Proof.
  intros I R h F [N U] L. assert (P : Permutation (live h) ((a, b) :: r ++ F)).
  { eapply Permutation_trans; [exact L|]. exact (Permutation_app_tail F I). }
  exists (Heap (top h) (set Z.eqb a b' (live h))), tt, ((a, b') :: r). unfold write.
  assert (A : In (a, b) (live h)) by (apply (Permutation_in _ (Permutation_sym P)); left; reflexivity).
  rewrite (lookup_in _ _ b N A). rewrite R. split; [reflexivity|]. split.
  - unfold set. split; cbn [live top map fst].
    + constructor; [|apply unset_nodup; exact N]. intros X. apply in_map_iff in X. destruct X as ([x y] & E & X).
      unfold unset in X. apply filter_In in X. destruct X as [_ X]. cbn [fst] in *. subst x. rewrite Z.eqb_refl in X. discriminate X.
    + intros x y [E|X]; [injection E as <- <-; exact (U _ _ A)|exact (U _ _ (unset_in _ _ _ X))].
  - split; [reflexivity|]. cbn [live]. unfold set. cbn [app]. constructor. exact (unset_perm _ _ _ _ N P).
Qed.

(* ---- taking values out of their blocks ---- *)

Lemma does_get pre r p t l : stored p (VTerm t) l -> Permutation pre (l ++ r) ->
  does pre (get strict p) (Ok tt) (fun x (_ : unit) post => x = t /\ post = r).
Proof.
  intros S P. inversion S; subst. unfold get.
  eapply does_step; [apply (does_read _ _ _ (BTerm t)); [apply (Permutation_in _ (Permutation_sym P)); left; reflexivity|reflexivity]|].
  cbn beta. intros x post [-> ->].
  eapply does_step; [apply (does_delete _ _ _ (BTerm t) r); [exact P|reflexivity]|].
  cbn beta. intros _ post ->. apply does_ret. split; reflexivity.
Qed.

Lemma does_number pre r p v l : stored p (VNumber v) l -> Permutation pre (l ++ r) ->
  does pre (take_number strict p) (Ok tt) (fun x (_ : unit) post => x = v /\ post = r).
Proof.
  intros S P. inversion S; subst. unfold take_number.
  eapply does_step; [apply (does_read _ _ _ (BDouble v)); [apply (Permutation_in _ (Permutation_sym P)); left; reflexivity|reflexivity]|].
  cbn beta. intros x post [-> ->].
  eapply does_step; [apply (does_delete _ _ _ (BDouble v) r); [exact P|reflexivity]|].
  cbn beta. intros _ post ->. apply does_ret. split; reflexivity.
Qed.

Lemma does_string pre r p s l : stored p (VString s) l -> Permutation pre (l ++ r) ->
  does pre (string_at strict p) (Ok tt) (fun x (_ : unit) post => x = s /\ post = pre).
Proof.
  intros S P. inversion S; subst. unfold string_at.
  eapply does_step; [apply (does_read _ _ _ (BString s)); [apply (Permutation_in _ (Permutation_sym P)); left; reflexivity|reflexivity]|].
  cbn beta. intros x post [-> ->]. apply does_ret. split; reflexivity.
Qed.

End Types.

(* ---- vectors of pointers ---- *)

Inductive stored_all : list pointer -> list value -> blocks -> Prop :=
  | SA_nil : stored_all [] [] []
  | SA_cons p v l ps vs ls : stored p v l -> stored_all ps vs ls -> stored_all (p :: ps) (v :: vs) (l ++ ls).

Lemma stored_all_length ps vs l : stored_all ps vs l -> length ps = length vs.
Proof. induction 1; cbn [length]; congruence. Qed.

Lemma stored_all_snoc ps vs l p v l' : stored_all ps vs l -> stored p v l' ->
  stored_all (ps ++ [p]) (vs ++ [v]) (l ++ l').
Proof.
  induction 1 as [|q w k qs ws ks S SA IH]; intros X; cbn [app].
  - rewrite <- (app_nil_r l'). constructor; [exact X|constructor].
  - rewrite <- app_assoc. constructor; [exact S|exact (IH X)].
Qed.
