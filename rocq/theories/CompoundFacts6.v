(* A tidy set-like compound given to a constructor alone or repeated. *)
From Coq Require Import ZArith List Bool Lia.
From Verif Require Import Base Hash Enums Term Terms Compound TermSpec CompoundSpec CompoundSpec2 TermsFacts
  CompoundFacts CompoundFacts2 CompoundFacts3 CompoundCases.
Import ListNotations.

Lemma many_same t n : var_free t -> terms_set (t :: repeat t n) = [t].
Proof.
  intro V.
  assert (Hall : forall x, In x (t :: repeat t n) -> x = t).
  { intros x [<-|Hx]; [reflexivity | apply repeat_spec in Hx; exact Hx]. }
  assert (F : Forall vf (t :: repeat t n)).
  { apply Forall_forall. intros x Hx. rewrite (Hall x Hx). apply vf_iff. exact V. }
  apply sorted_unique; [apply terms_set_sorted; exact F | repeat constructor|].
  intro x. split.
  - intro Hx. left. symmetry. apply Hall. apply terms_set_in. exact Hx.
  - intros [<-|[]].
    destruct (terms_set_hash (t :: repeat t n) t F (or_introl eq_refl)) as (z & Hz & _).
    rewrite <- (Hall z (terms_set_in _ _ Hz)) at 1. exact Hz.
Qed.

Lemma tidy_var_free c l : fits c l -> var_free (Comp c l).
Proof.
  intros Hf k i O. pose proof (fits_var_free _ _ Hf) as V. rewrite Forall_forall in V.
  inversion O; subst; eapply V; eassumption.
Qed.

Lemma repeated_set_compound ord b con c l n : any_order ord -> set_like con -> set_like c -> tidy (Comp c l) ->
  (c = con \/ (con = IntensionalIntersection /\ c = ExtensionalSet)
     \/ (con = ExtensionalIntersection /\ c = IntensionalSet) ->
   compound ord b con (Comp c l :: repeat (Comp c l) n) = Ok (Comp c l))
  /\ (~ (c = con \/ (con = IntensionalIntersection /\ c = ExtensionalSet)
     \/ (con = ExtensionalIntersection /\ c = IntensionalSet)) ->
   compound ord b con (Comp c l :: repeat (Comp c l) n) = Ok (Comp con l)).
Proof.
  intros Ho Hs Hc T. destruct (tidy_components c l Hc T) as [Hf Ht].
  pose proof (tidy_var_free c l Hf) as V.
  apply set_like_iff in Hs as Hs1. apply set_like_iff in Hc as Hc1.
  assert (E : terms_set l = l)
    by (apply terms_set_id; [apply (fits_ascending _ _ Hf) | apply Forall_vf, (fits_var_free _ _ Hf)]).
  assert (R : is_reducible con = true).
  { destruct Hs; reflexivity. }
  unfold compound, mk_terms. rewrite Hs1, (many_same _ n V).
  destruct (con_eqb c con) eqn:Ec.
  - assert (c = con) by (destruct c, con; try reflexivity; discriminate Ec). subst c.
    split; [intros _ | intro N; exfalso; apply N; left; reflexivity].
    eapply build_fits; [exact Ho | apply below_fuel_for | exact Hs | | exact Hf | exact Ht].
    unfold flatten_set. cbn [flat_map has_connector components]. rewrite Ec, app_nil_r. exact E.
  - rewrite (compound_of_terms_eq ord b con _ Ho). unfold preprocess. rewrite R, Hs1. cbn [negb].
    assert (F : flatten_set con [Comp c l] = [Comp c l]).
    { unfold flatten_set. cbn [flat_map has_connector components]. rewrite Ec, app_nil_r. apply terms_set_one. }
    rewrite F. unfold categories. cbn [fold_left category cat_add]. rewrite Hc1.
    rewrite (any_order_single ord _ Ho). cbn [cat_add].
    assert (M : norm_all con [(Some c, [Comp c l])] = Ok [(Some c, l)]).
    { cbn [norm_all norm_entry]. unfold merge_compounds. cbn [map components]. rewrite Hc1.
      destruct Hs, Hc; try discriminate Ec; cbn; unfold terms_unordered; cbn [t_comm t_elems]; try (change (fold_left (fun (s : list term) (x : term) => sinsert x s) l []) with (terms_set l)); rewrite ?E; reflexivity. }
    rewrite M. cbn [bind length Nat.ltb Nat.leb]. clear M F V Hf Ht T.
    destruct Hs, Hc; try discriminate Ec; cbn [step4 bind is_commutative]; rewrite E; unfold mk_terms; cbn [is_commutative]; rewrite ?E;
      (split; [intro K; try (destruct b; reflexivity); exfalso; destruct K as [K|[[K K']|[K K']]]; discriminate
              | intro N; try (destruct b; reflexivity); exfalso; apply N; intuition reflexivity]).
Qed.
