(* How deep the terms are that are read. *)
From Coq Require Import ZArith String Ascii List Bool Lia Permutation.
From Verif Require Import Base Enums Term Terms TermsFacts Compound CompoundFacts.
From Verif Require Import Tables Parser Grammar Maps MapsFacts Actions DepthSpec.
From Verif Require Interning Evidence ActionsFacts ActionsSpec DepthFacts.
Import ListNotations.
Open Scope string_scope.
Open Scope list_scope.
Local Open Scope Z_scope.

(** * Building a compound *)

Lemma forall_depth k l : Forall (fun t => (depth t <= k)%nat) l -> (list_max (map depth l) <= k)%nat.
Proof. intros H. apply list_max_le. rewrite Forall_map. exact H. Qed.

Section Build.
Variable ord : cmap -> cmap.
Hypothesis Hord : any_order ord.

Definition shallow (k : nat) (t : term) : Prop := (depth t <= k)%nat.

Lemma shallow_down k : down_closed (shallow k).
Proof.
  intros c l H. apply Forall_forall. intros x I. unfold shallow in *.
  pose proof (depth_component c l x I). lia.
Qed.

Lemma collect_depth k mk parent : forall norm all,
  (forall c ts t, check_valid c (Z.of_nat (length ts)) = true ->
     Forall (fun t => (S (depth t) <= k)%nat) ts -> mk c ts = Ok t -> (depth t <= k)%nat) ->
  Forall (norm_ok (shallow k)) norm -> Forall (norm_depth k) norm ->
  Compound.collect mk parent norm = Ok all -> Forall (shallow k) all.
Proof.
  induction norm as [|[o ts] norm IH]; cbn [Compound.collect]; intros all Hmk H D E.
  - injection E as <-. constructor.
  - inversion H as [|? ? [H1 H2] Hn]; subst. inversion D as [|? ? D1 Dn]; subst. cbn [fst snd] in *.
    destruct (Compound.collect mk parent norm) as [b| | |] eqn:Eb.
    2-4: destruct o as [c|]; cbn [bind] in E;
        [destruct (con_eqb c parent); [discriminate E|];
         destruct (check_valid c _); [destruct (mk c ts); discriminate E | discriminate E]
        | discriminate E].
    specialize (IH b Hmk Hn Dn eq_refl).
    destruct o as [c|]; cbn [bind] in E; [|injection E as <-; apply Forall_app; auto].
    destruct (con_eqb c parent); [cbn [bind] in E; injection E as <-; apply Forall_app; auto|].
    destruct (check_valid c _) eqn:V; [|cbn [bind] in E; injection E as <-; exact IH].
    destruct (mk c ts) as [t| | |] eqn:Et; try discriminate E. cbn [bind app] in E. injection E as <-.
    constructor; [|exact IH]. apply (Hmk c ts t V); [|exact Et]. apply D1. discriminate.
Qed.

Lemma expand_depth k parent ts : Forall (shallow k) ts ->
  Forall (shallow k) (flat_map (fun t => if has_connector parent t then components t else [t]) ts).
Proof.
  intros H. apply Forall_forall. intros x I. apply in_flat_map in I as (t & It & I).
  rewrite Forall_forall in H. specialize (H t It).
  destruct (has_connector parent t) eqn:E; [|destruct I as [<-|[]]; exact H].
  destruct t as [| | | |c l]; try discriminate E. cbn [components] in I.
  pose proof (shallow_down k c l H) as Q. rewrite Forall_forall in Q. exact (Q x I).
Qed.

Lemma valid_empty c : check_valid c (Z.of_nat (@length term [])) = false.
Proof. destruct c; reflexivity. Qed.

Lemma compound_fuel_depth : forall fuel b con ts t k, Forall (shallow k) ts ->
  compound_fuel ord fuel b con ts = Ok t -> (depth t <= S k)%nat.
Proof.
  induction fuel as [|fuel IH]; intros b con ts t k H E; [discriminate E|]. cbn [compound_fuel] in E.
  destruct (preprocess ord (compound_fuel ord fuel false) con ts) as [[c l]| | |] eqn:Ep; try discriminate E.
  cbn [bind] in E. injection E as <-.
  assert (L : Forall (shallow k) l).
  { unfold preprocess in Ep. destruct (is_reducible con) eqn:Hr; cbn [negb] in Ep;
      [|injection Ep as <- <-; exact H].
    destruct (is_commutative con) eqn:Hc; [|injection Ep as <- <-; apply expand_depth; exact H].
    assert (Hcat : Forall (entry_ok (shallow k)) (ord (categories (flatten_set con ts)))).
    { apply any_order_forall; [exact Hord|]. apply categories_ok. unfold flatten_set.
      apply terms_set_forall, expand_depth, H. }
    destruct (norm_all con _) as [norm| | |] eqn:En; try discriminate Ep. cbn [bind] in Ep.
    pose proof (norm_all_ok (shallow k) con _ norm (shallow_down k) Hcat En) as Hn.
    pose proof (norm_all_depth k con _ norm Hcat En) as Hd.
    assert (Hn' : Forall (fun e => Forall (shallow k) (snd e)) norm)
      by (eapply Forall_impl; [|exact Hn]; intros e [He _]; exact He).
    destruct (Nat.ltb 1 (length norm)); [|exact (proj2 (step4_forall _ _ _ _ _ Hc Hn' Ep))].
    destruct (Compound.collect (compound_fuel ord fuel false) con norm) as [all| | |] eqn:Ec; try discriminate Ep.
    cbn [bind] in Ep.
    assert (Ha : Forall (shallow k) all).
    { apply (collect_depth k (compound_fuel ord fuel false) con norm all); try assumption.
      intros c' ts' t' V F E'. destruct k as [|k'].
      - destruct ts' as [|x ts']; [rewrite valid_empty in V; discriminate V|].
        inversion F; lia.
      - apply (IH false c' ts' t' k'); [|exact E']. eapply Forall_impl; [|exact F].
        unfold shallow. cbv beta. intros; lia. }
    destruct (Nat.ltb 1 (length all)); [injection Ep as <- <-; apply terms_set_forall; exact Ha|].
    destruct (single all) as [n2| | |] eqn:Es; try discriminate Ep. cbn [bind] in Ep.
    refine (proj2 (step4_forall _ _ _ _ _ Hc _ Ep)).
    destruct all as [|x all]; [discriminate Es|]. inversion Ha as [|? ? Hx Hall]; subst.
    assert (Hs : Forall (shallow k) (terms_set (x :: all))) by (apply terms_set_forall; exact Ha).
    destruct x; simpl in Es; injection Es as <-; constructor; try constructor; cbn [snd]; try exact Hs.
    exact (shallow_down _ _ _ Hx). }
  cbn [depth]. apply le_n_S, forall_depth.
  destruct b; [exact L|]. unfold mk_terms. destruct (is_commutative c); [apply terms_set_forall|]; exact L.
Qed.

Lemma compound_depth b con l t k : Forall (shallow k) l -> compound ord b con l = Ok t -> (depth t <= S k)%nat.
Proof.
  intros H. apply compound_fuel_depth. unfold mk_terms.
  destruct (is_commutative con); [apply terms_set_forall|]; exact H.
Qed.
End Build.
