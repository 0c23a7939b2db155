(* The classes of copulas and connectors, and statements turned round. *)
From Coq Require Import ZArith List Bool String Ascii Lia Permutation Sorting.
From Verif Require Import Base Hash Enums Term TermSpec TermFacts Terms TermsFacts CompoundSpec CompoundFacts Compound
  TermCases CompoundCases SignsSpec.
Import ListNotations.
Local Open Scope Z_scope.

Lemma copula_classes c :
  (cop_commutative c = true <-> mirror (cop_repr c) = cop_repr c)
  /\ (cop_higher_order c = true <-> ~ contains "-" (cop_repr c))
  /\ (cop_temporal c = true <-> timed (cop_repr c)).
Proof.
  unfold timed. destruct c; vm_compute;
    (split; [|split]); split; intros H;
    repeat match goal with
    | K : _ \/ _ |- _ => destruct K
    | K : False |- _ => contradiction
    end; try discriminate; try reflexivity; try (intros K;
    repeat match goal with
    | Q : _ \/ _ |- _ => destruct Q
    | Q : False |- _ => contradiction
    end; discriminate); try (exfalso; apply H; auto; fail); auto 10.
Qed.

Lemma connector_classes c :
  (is_temporal c = true <-> exists x, con_repr c = String "&" (String x "") /\ x <> "&"%char).
Proof.
  destruct c; vm_compute; split; intros H; try discriminate; try reflexivity;
    try (destruct H as (x & H & N); try discriminate H; injection H as <-; contradiction N; reflexivity);
    (eexists; split; [reflexivity | discriminate]).
Qed.

Lemma signs_differ : (forall c c', cop_repr c = cop_repr c' -> c = c')
  /\ (forall c c', con_repr c = con_repr c' -> c = c')
  /\ (forall k k', vk_repr k = vk_repr k' -> k = k').
Proof.
  split; [|split].
  - intros c c'; destruct c, c'; intros H; first [reflexivity | discriminate H].
  - intros c c'; destruct c, c'; intros H; first [reflexivity | discriminate H].
  - intros c c'; destruct c, c'; intros H; first [reflexivity | discriminate H].
Qed.

Lemma symmetrize_table c d : symmetrize_tab c = Some d <-> both_ways (cop_repr c) (cop_repr d).
Proof.
  unfold both_ways. split.
  - intros H. destruct c; try discriminate H; injection H as <-; do 2 eexists; split; reflexivity.
  - intros (a & b & E1 & E2). destruct c; try discriminate E1; injection E1 as <- <-;
      destruct d; try discriminate E2; reflexivity.
Qed.

Lemma reverse_table c d : reverse_tab c = Some d <-> timed (cop_repr c) /\ turned (cop_repr c) = cop_repr d.
Proof.
  split.
  - intros H. destruct c; try discriminate H; injection H as <-; split; try reflexivity; vm_compute; auto 10.
  - intros (T & E). destruct c; try (exfalso; vm_compute in T;
      repeat match goal with
      | Q : _ \/ _ |- _ => destruct Q
      | Q : False |- _ => contradiction
      end; discriminate); destruct d; try discriminate E; reflexivity.
Qed.

(* ---- statements turned round ---- *)

Lemma turned_round_unequal :
  ~ (forall c s p, cop_commutative c = true -> teq (Stmt c s p) (Stmt c p s) = Ok true).
Proof. intros H. specialize (H Similarity A B eq_refl). vm_compute in H. discriminate H. Qed.

Lemma turned_round c s p : only_ivars s -> only_ivars p -> teq (Stmt c s p) (Stmt c p s) = teq s p.
Proof.
  intros Os Op. rewrite teq_stmt. rewrite (teq_sym p s Op Os).
  destruct (teq_defined s p Os Op) as (b & E). rewrite E. destruct b.
  - pose proof (teq_hash _ _ E) as Eh.
    assert (X : thash (Stmt c s p) = thash (Stmt c p s)) by (cbn [thash]; rewrite Eh; reflexivity).
    rewrite X, Z.eqb_refl. cbn [negb bind]. unfold cop_eqb. rewrite Z.eqb_refl. reflexivity.
  - destruct (negb _); reflexivity.
Qed.

Lemma turned_apart c s p : s <> p -> Stmt c s p <> Stmt c p s.
Proof. intros N E. injection E as E _. exact (N E). Qed.

Lemma both_kept ord b con c s p : any_order ord -> set_like con ->
  s <> p -> collision_free (fun t => t = Stmt c s p \/ t = Stmt c p s) ->
  exists l, compound ord b con [Stmt c s p; Stmt c p s] = Ok (Comp con l) /\ List.length l = 2%nat /\
    forall x, In x l <-> x = Stmt c s p \/ x = Stmt c p s.
Proof.
  intros Ho Hs N F. set (x := Stmt c s p) in *. set (y := Stmt c p s) in *.
  assert (Nxy : x <> y) by (apply turned_apart; exact N).
  destruct (exact_components ord b con [x; y] [x; y] Ho Hs) as (r & E & As & M).
  - constructor; [apply tidy_other; intros (c' & l & X & _); discriminate X|].
    constructor; [apply tidy_other; intros (c' & l & X & _); discriminate X|constructor].
  - apply unf_other; [intros l X; discriminate X|]. apply unf_other; [intros l X; discriminate X|constructor].
  - destruct F as (F1 & F2).
    assert (K : forall t, In t [x; y] \/ In t [x; y] -> t = x \/ t = y).
    { intros t [[<-|[<-|[]]]|[<-|[<-|[]]]]; auto. }
    split; [intros t Ht; apply F1, K, Ht | intros t u Ht Hu; apply F2; apply K; assumption].
  - split; [left; exists x, y; split; [left; reflexivity|split; [right; left; reflexivity|exact Nxy]]|].
    intros _ s' a b' _ [X|[X|[]]]; discriminate X.
  - exists r. split; [exact E|].
    assert (M' : forall z, In z r <-> z = x \/ z = y).
    { intros z. rewrite M. split; [intros [<-|[<-|[]]]; auto | intros [->| ->]; simpl; auto]. }
    split; [|exact M'].
    assert (Nd : NoDup r).
    { clear -As. induction As as [|z l A IH H]; constructor; auto. intros I. rewrite Forall_forall in H.
      specialize (H _ I). simpl in H. lia. }
    assert (L1 : (List.length r <= 2)%nat).
    { apply (NoDup_incl_length Nd (l' := [x; y])). intros z Hz. apply M' in Hz. destruct Hz as [->| ->]; simpl; auto. }
    assert (L2 : (2 <= List.length r)%nat).
    { assert (N2 : NoDup [x; y]). { constructor; [intros [X|[]]; apply Nxy; symmetry; exact X|]. constructor; [intros []|constructor]. }
      apply (NoDup_incl_length N2). intros z [<-|[<-|[]]]; apply M'; auto. }
    lia.
Qed.

Lemma turned_case : cop_commutative Similarity = true /\ only_ivars A /\ only_ivars B /\ A <> B /\
  collision_free (fun t => t = Stmt Similarity A B \/ t = Stmt Similarity B A) /\
  teq A B = Ok false.
Proof.
  split; [reflexivity|]. split; [intros k i H; inversion H|]. split; [intros k i H; inversion H|].
  split; [discriminate|]. split; [|vm_compute; reflexivity].
  assert (F : collision_free (fun t => In t [Stmt Similarity A B; Stmt Similarity B A]))
    by (apply cf_list; vm_compute; reflexivity).
  destruct F as (F1 & F2). split.
  - intros t [->| ->]; apply F1; simpl; auto.
  - intros t u Ht Hu. apply F2; [destruct Ht as [->| ->]|destruct Hu as [->| ->]]; simpl; auto.
Qed.
