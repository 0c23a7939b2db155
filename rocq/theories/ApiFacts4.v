(* The Python module: numbers, names, arguments, attributes. *)
From Coq Require Import ZArith String Ascii List Bool Lia Permutation Reals Lra.
From Flocq Require Import Core BinarySingleNaN.
From Verif Require Import Base Enums Term TermSpec TermsFacts Compound CompoundFacts CompoundSpec CompoundFacts2 CompoundFacts3 CompoundCases.
From Verif Require Import Float FloatFacts Truth Maps Actions ActionsSpec.
From Verif Require Import Forms FormFacts5 FormFacts6 Api ApiSpec ApiFacts ApiFacts2 ApiFacts3.
From Verif Require Import Interning InterningSpec.
Import ListNotations.
Open Scope string_scope.
Open Scope list_scope.
Open Scope Z_scope.

(** * Numbers *)

Lemma nearest_rnd v : nearest_single v = rnd32 v.
Proof. reflexivity. Qed.

Lemma narrowed x : moderate x -> at_ (to64 (to32 x)) (nearest_single (B2R x)).
Proof.
  intros (F & L). rewrite nearest_rnd in *. apply to64_at.
  destruct x as [s|s| |s m e BB]; try discriminate F.
  - split; [reflexivity|]. cbn. rewrite rnd_id by apply fmt_0. reflexivity.
  - pose proof (binary_normalize_correct 24 128 prec32 emax32 mode_NE (cond_Zopp s (Zpos m)) e s) as C. cbn zeta in C.
    change (round radix2 (SpecFloat.fexp 24 128) (round_mode mode_NE)) with rnd32 in C.
    change (F2R (Float radix2 (cond_Zopp s (Zpos m)) e)) with (B2R (B754_finite s m e BB)) in C.
    rewrite Rlt_bool_true in C by exact L. destruct C as (C1 & C2 & _). split; assumption.
Qed.

Lemma strict_finite prec emax (x : binary_float prec emax) : is_finite x = true -> B2R x <> 0%R -> is_finite_strict x = true.
Proof. destruct x as [s|s| |s m e B]; cbn; congruence. Qed.

Lemma widened_again (y : float32) : to32 (to64 y) = y.
Proof.
  destruct y as [s|s| |s m e BB]; try reflexivity. set (y := B754_finite s m e BB : float32).
  assert (A : at_ y (B2R y)) by (split; reflexivity). pose proof (to64_at y _ A) as (F6 & V6).
  pose proof (at_fmt _ _ y _ A) as Fm.
  assert (N : B2R y <> 0%R).
  { unfold y. cbn [B2R]. intros Z0. apply eq_0_F2R in Z0. destruct s; discriminate Z0. }
  assert (B : (Rabs (B2R y) < bpow radix2 128)%R) by (unfold y; apply abs_B2R_lt_emax).
  assert (Q : at_ (to32 (to64 y)) (B2R y)).
  { destruct (to64 y) as [s'|s'| |s' m' e' B'] eqn:E; try discriminate F6; [change (0%R = B2R y) in V6; congruence|].
    rewrite <- V6 in Fm, B |- *.
    pose proof (binary_normalize_correct 24 128 prec32 emax32 mode_NE (cond_Zopp s' (Zpos m')) e' s') as C. cbn zeta in C.
    change (round radix2 (SpecFloat.fexp 24 128) (round_mode mode_NE)) with rnd32 in C.
    change (F2R (Float radix2 (cond_Zopp s' (Zpos m')) e')) with (B2R (B754_finite s' m' e' B')) in C.
    rewrite (rnd_id 24 128 _ Fm) in C. rewrite Rlt_bool_true in C by exact B. destruct C as (C1 & C2 & _). split; assumption. }
  destruct Q as (F3 & V3). apply B2R_inj; [|reflexivity|exact V3]. apply strict_finite; [exact F3|]. rewrite V3. exact N.
Qed.

Theorem field_narrowed o n x o' : single_field o n -> set_attribute o n (PyFloat x) = Returned o' ->
  exists y, get_attribute o' n = Returned (PyFloat y) /\
    (moderate x -> is_finite y = true /\ B2R y = nearest_single (B2R x)) /\
    (forall o'', set_attribute o' n (PyFloat y) = Returned o'' -> get_attribute o'' n = Returned (PyFloat y)).
Proof.
  intros F S. exists (to64 (to32 x)).
  assert (I : to64 (to32 (to64 (to32 x))) = to64 (to32 x)) by (f_equal; apply widened_again).
  destruct F as [t n I'|b]; [cbn in I'; destruct I' as [<-|[<-|[<-|[]]]]|];
    cbn in S; injection S as <-; (split; [reflexivity|]); (split; [apply narrowed|]); intros o'' S'; cbn in S'; injection S' as <-; cbn; rewrite I; reflexivity.
Qed.

(* What is read back is what was written exactly if a float can hold it. *)
Theorem narrowed_exactly o n x o' y : single_field o n -> set_attribute o n (PyFloat x) = Returned o' -> get_attribute o' n = Returned (PyFloat y) ->
  moderate x -> (B2R y = B2R x <-> generic_format radix2 (FLT_exp (-149) 24) (B2R x)).
Proof.
  intros F S G M. destruct (field_narrowed o n x o' F S) as (y' & G' & V & _). rewrite G in G'. injection G' as <-.
  destruct (V M) as (_ & ->). unfold nearest_single. split; intros H.
  - rewrite <- H. apply generic_format_round; [apply FLT_exp_valid; reflexivity|apply valid_rnd_N].
  - apply round_generic; [apply valid_rnd_N|exact H].
Qed.

Theorem double_kept o n x o' : double_field o n -> set_attribute o n (PyFloat x) = Returned o' -> get_attribute o' n = Returned (PyFloat x).
Proof.
  intros F S. destruct F as [b n I]. cbn in I. destruct I as [<-|[<-|[]]]; cbn in S; injection S as <-; reflexivity.
Qed.

(* Setting a field leaves the others as they are. *)
Theorem others_kept o n x o' m : set_attribute o n (PyFloat x) = Returned o' -> single_field o m \/ double_field o m -> m <> n ->
  get_attribute o' m = get_attribute o m.
Proof.
  intros S F N.
  assert (X : forall a b : object, Returned a = Returned b -> a = b) by (intros a b Q; injection Q as ->; reflexivity).
  revert S N. destruct F as [[t m' I|b]|[b m' I]]; intros S N; unfold set_attribute in S; cbn beta iota in S.
  - destruct (String.eqb_spec n "f") as [->|_]; [|destruct (String.eqb_spec n "c") as [->|_]; [|destruct (String.eqb_spec n "k") as [->|_]; [|discriminate S]]];
      apply X in S; subst o'; cbn in I; destruct I as [<-|[<-|[<-|[]]]]; reflexivity || contradiction.
  - destruct (String.eqb_spec n "p") as [->|_]; [|destruct (String.eqb_spec n "d") as [->|_]; [|destruct (String.eqb_spec n "q") as [->|_]; [|discriminate S]]];
      apply X in S; subst o'; reflexivity || contradiction.
  - destruct (String.eqb_spec n "p") as [->|_]; [|destruct (String.eqb_spec n "d") as [->|_]; [|destruct (String.eqb_spec n "q") as [->|_]; [|discriminate S]]];
      apply X in S; subst o'; cbn in I; destruct I as [<-|[<-|[]]]; reflexivity || contradiction.
Qed.

Section Module.
Variable ord : list (option connector * list term) -> list (option connector * list term).
Variable fresh : world -> Z.
Variable room : option nat.
Variable other : object -> string.
Notation evaluate := (Api.evaluate ord fresh room other).

(* The constructors make floats of all numbers. *)
Theorem constructor_narrowed st rest x y z n v : In (n, v) [("f", x); ("c", y); ("k", z)] -> moderate v ->
  exists u, evaluate st rest (Api.Get (Api.Call "Truth" [Literal (PyFloat x); Literal (PyFloat y); Literal (PyFloat z)]) n) = Ok (st, rest, Returned (PyFloat u)) /\
    is_finite u = true /\ B2R u = nearest_single (B2R v).
Proof.
  intros I M. exists (to64 (to32 v)). split; [|apply narrowed, M].
  cbn in I. destruct I as [E|[E|[E|[]]]]; injection E as <- <-; reflexivity.
Qed.

Theorem budget_narrowed st rest x y z n v : In (n, v) [("p", x); ("d", y); ("q", z)] -> moderate v ->
  exists u, evaluate st rest (Api.Get (Api.Call "Budget" [Literal (PyFloat x); Literal (PyFloat y); Literal (PyFloat z)]) n) = Ok (st, rest, Returned (PyFloat u)) /\
    is_finite u = true /\ B2R u = nearest_single (B2R v).
Proof.
  intros I M. exists (to64 (to32 v)). split; [|apply narrowed, M].
  cbn in I. destruct I as [E|[E|[E|[]]]]; injection E as <- <-; reflexivity.
Qed.

(** * Names *)

Theorem names_apart (Ho : any_order ord) (Hf : careful fresh) st rest s s' : in_order (atoms st) (operations st) -> usual_name s -> usual_name s' ->
  population (atoms st) < 4294967291 ->
  exists st1 t st2 t', evaluate st rest (term_call s) = Ok (st1, rest, Returned (PyTerm t)) /\
    evaluate st1 rest (term_call s') = Ok (st2, rest, Returned (PyTerm t')) /\ (t = t' <-> s = s').
Proof.
  intros O U U' P.
  destruct (term_good ord fresh Hf room other s U st rest O) as [(st1 & t & E & B & A)|(E & w & ops & _ & _ & J)]; [cbn; lia| |inversion J].
  pose proof (after_count _ _ _ A) as Co. cbn in Co.
  destruct (term_good ord fresh Hf room other s' U' st1 rest (after_order _ _ _ A)) as [(st2 & t' & E2 & B2 & A2)|(E2 & w & ops & _ & _ & J)]; [cbn; lia| |inversion J].
  exists st1, t, st2, t'. split; [exact E|]. split; [exact E2|]. inversion B as [? a H| |]; subst. inversion B2 as [? b H'| |]; subst.
  apply (after_grown _ _ _ A2) in H. pose proof (after_order _ _ _ A2) as O2. destruct U as (N & _), U' as (N' & _). split; intros Q.
  - injection Q as <-. eapply order_distinct; [exact O2|exact N|exact N'|exact H|exact H'].
  - subst s'. f_equal. eapply order_unique; [exact O2|exact N|exact H|exact H'].
Qed.

(** * Arguments *)

Lemma cast_fails l : (exists ts, l = map PyTerm ts) \/ exists e, cast_terms l = inl e /\ (e = TypeError \/ e = RuntimeError).
Proof.
  induction l as [|o l IH]; [left; exists []; reflexivity|]. destruct o; try (right; cbn; eauto; fail).
  destruct IH as [(ts & ->)|(e & E & C)]; [left; exists (t :: ts); reflexivity|]. right. cbn. rewrite E. eauto.
Qed.

Theorem arguments_refused st rest f args : In f functions -> ~ accepts f args ->
  (mistaken f args /\ call_function ord fresh room other st rest f args = UB) \/
  (~ mistaken f args /\ exists e, call_function ord fresh room other st rest f args = Ok (st, rest, Raised e) /\
    (e = TypeError \/ f = "Compound" /\ e = RuntimeError)).
Proof.
  intros I A. unfold functions in I. cbn in I.
  assert (TE : ~ mistaken f args -> call_function ord fresh room other st rest f args = Ok (st, rest, Raised TypeError) ->
    (mistaken f args /\ call_function ord fresh room other st rest f args = UB) \/
    (~ mistaken f args /\ exists e, call_function ord fresh room other st rest f args = Ok (st, rest, Raised e) /\
      (e = TypeError \/ f = "Compound" /\ e = RuntimeError))) by (intros M E; right; eauto).
  destruct I as [<-|[<-|[<-|[<-|[<-|[<-|[<-|[<-|[<-|[<-|[]]]]]]]]]]].
  - apply TE; [intros M; inversion M|]. destruct args as [|o [|o' l]]; [exfalso; apply A; constructor| |destruct o; reflexivity].
    destruct o; try reflexivity. exfalso. apply A. constructor.
  - apply TE; [intros M; inversion M|]. destruct args as [|o1 [|o2 [|o3 [|o4 l]]]]; try reflexivity; destruct o1; try reflexivity; destruct o2; try reflexivity;
      destruct o3; try reflexivity. exfalso. apply A. constructor.
  - right. split; [intros M; inversion M|]. destruct args as [|o l]; [exists TypeError; split; [reflexivity|auto]|].
    destruct o; try (exists TypeError; split; [reflexivity|auto]; fail).
    destruct (cast_fails l) as [(ts & ->)|(e & E & C)]; [exfalso; apply A; constructor|].
    exists e. split; [cbn; rewrite E; reflexivity|]. destruct C as [->| ->]; auto.
  - apply TE; [intros M; inversion M|]. destruct args as [|o1 [|o2 [|o3 [|o4 l]]]]; try reflexivity; destruct o1; try reflexivity; destruct o2; try reflexivity;
      try (exfalso; apply A; constructor); destruct o3; try reflexivity. exfalso. apply A. constructor.
  - apply TE; [intros M; inversion M|].
    assert (B : forall l, args = map PyFloat l -> (3 < length l)%nat) by (intros l ->; apply Nat.nle_gt; intros L; apply A; constructor; exact L).
    destruct args as [|o1 [|o2 [|o3 [|o4 l]]]].
    + specialize (B [] eq_refl). cbn in B. lia.
    + destruct o1; try reflexivity. specialize (B [x] eq_refl). cbn in B. lia.
    + destruct o1; try reflexivity; destruct o2; try reflexivity. specialize (B [x; x0] eq_refl). cbn in B. lia.
    + destruct o1; try reflexivity; destruct o2; try reflexivity; destruct o3; try reflexivity. specialize (B [x; x0; x1] eq_refl). cbn in B. lia.
    + destruct o1; try reflexivity; destruct o2; try reflexivity; destruct o3; reflexivity.
  - destruct args as [|o [|o' l]]; [apply TE; [intros M; inversion M|reflexivity]| |apply TE; [intros M; inversion M|destruct o; reflexivity]].
    destruct o; try (apply TE; [intros M; inversion M|reflexivity]; fail).
    + left. split; [constructor|reflexivity].
    + exfalso. apply A. constructor.
  - apply TE; [intros M; inversion M|]. destruct args as [|o1 [|o2 [|o3 [|o4 [|o5 l]]]]]; try reflexivity; destruct o1; try reflexivity; destruct o2; try reflexivity;
      destruct o3; try reflexivity; destruct o4; try reflexivity; exfalso; apply A; constructor.
  - apply TE; [intros M; inversion M|]. destruct args as [|o [|o' l]]; [reflexivity| |destruct o; reflexivity].
    destruct o; try reflexivity. exfalso. apply A. constructor.
  - apply TE; [intros M; inversion M|]. destruct args as [|o [|o' l]]; [reflexivity| |reflexivity]. exfalso. apply A. constructor.
  - assert (X : forall o, expressive o \/ ~ expressive o) by (intros o; destruct o; (left; constructor; fail) || (right; intros Q; inversion Q)).
    destruct args as [|o [|x [|y l]]].
    + apply TE; [intros M; inversion M|reflexivity].
    + destruct (X o) as [E|E]; [|exfalso; apply A; constructor; exact E].
      apply TE; [intros M; inversion M|]. destruct E; reflexivity.
    + destruct (X o) as [E|E].
      * destruct x; try (left; split; [constructor; [exact E|repeat split; intros; discriminate]|destruct E; reflexivity]; fail).
        -- exfalso. apply A. constructor. exact E.
        -- apply TE; [intros M; inversion M as [|? ? _ (M1 & M2 & M3)]; eapply M2; reflexivity|destruct E; reflexivity].
        -- apply TE; [intros M; inversion M as [|? ? _ (M1 & M2 & M3)]; eapply M3; reflexivity|destruct E; reflexivity].
      * apply TE; [intros M; inversion M; contradiction|]. destruct o; try reflexivity; exfalso; apply E; constructor.
    + apply TE; [intros M; inversion M|]. destruct o; reflexivity.
Qed.

(** * Attributes *)

Theorem statement_parts st rest s c p : let e := Api.Call "Statement" [Literal (PyTerm s); Member "Copula" (copula_called c); Literal (PyTerm p)] in
  evaluate st rest (Api.Get e "subject") = Ok (st, rest, Returned (PyTerm s)) /\
  evaluate st rest (Api.Get e "copula") = Ok (st, rest, Returned (PyCopula c)) /\
  evaluate st rest (Api.Get e "predicate") = Ok (st, rest, Returned (PyTerm p)) /\
  evaluate st rest (Api.Get e "terms") = Ok (st, rest, Returned (PyIterator [s; p])).
Proof. destruct c; repeat split. Qed.

Lemma terms_eval st rest c args : c <> ExtensionalDifference ->
  evaluate st rest (Api.Get (compound_call (connector_called c) (map (fun t => Literal (PyTerm t)) args)) "terms") =
  bind (compound ord false c args) (fun t => Ok (st, rest, get_attribute (PyTerm t) "terms")).
Proof.
  intros N. cbn [Api.evaluate]. unfold compound_call. rewrite (call_eq ord fresh room other). cbn [arguments Api.evaluate bind]. rewrite connector_member by exact N.
  assert (X : arguments ord fresh room other st rest (map (fun t => Literal (PyTerm t)) args) = Ok (st, rest, inr (map PyTerm args))).
  { induction args as [|t args IH]; [reflexivity|]. cbn [map arguments Api.evaluate bind]. rewrite IH. reflexivity. }
  rewrite X. cbn [bind]. unfold call_function. cbn [String.eqb Ascii.eqb Bool.eqb new_compound]. rewrite cast_all.
  destruct (compound ord false c args); reflexivity.
Qed.

Theorem compound_parts (Ho : any_order ord) st rest c args l : c <> ExtensionalDifference ->
  (plain c /\ l = args) \/ (c = SequentialEvents /\ l = args /\ forall l', ~ In (Comp SequentialEvents l') args) \/
    (set_like c /\ tidy (Comp c l) /\ Permutation args l) ->
  evaluate st rest (Api.Get (compound_call (connector_called c) (map (fun t => Literal (PyTerm t)) args)) "terms") =
    Ok (st, rest, Returned (PyIterator l)).
Proof.
  intros N H. rewrite terms_eval by exact N.
  assert (E : compound ord false c args = Ok (Comp c l)); [|rewrite E; reflexivity].
  destruct H as [(P & ->)|[(-> & -> & Q)|(S & T & Pe)]].
  - apply rebuild_partial; [exact Ho|]. left. exact P.
  - apply rebuild_partial; [exact Ho|]. right. left. split; [reflexivity|exact Q].
  - rewrite (argument_order_irrelevant ord false c args l S); [|..|exact Pe].
    + apply rebuild_partial; [exact Ho|]. right. right. split; assumption.
    + inversion T as [t0 Ne|c0 l0 Sl F Fo Le]; [exfalso; apply Ne; exists c, l; split; [reflexivity|exact S]|].
      assert (C : collision_free (fun t => In t l)) by (apply collision_free_iff, (fits_faithful c l F)).
      destruct C as (C1 & C2). split; [intros x I; apply C1; eapply Permutation_in; eassumption|].
      intros x y I J. apply C2; eapply Permutation_in; eassumption.
Qed.
End Module.
