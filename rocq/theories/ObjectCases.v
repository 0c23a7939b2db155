(* Terms as objects: witnesses and non-trivial instances. *)
From Coq Require Import ZArith List Bool Lia Sorting.
From Verif Require Import Base Hash Enums Term TermSpec TermFacts CompoundSpec Terms Compound
  IndexVar IndexVarFacts Object ObjectSpec ObjectFacts ObjectFacts2 ObjectFacts3 ObjectFacts4 ObjectFacts5
  CompoundCases.
Import ListNotations.

(* Scripts whose operands are positions in the list of objects made so far,
   counted from the first one made. *)
Inductive cmd : Type :=
| MAtom (isop : bool)
| MItv (n : Z)
| MVar (k : vkind) (i : Z)
| MStmt (c : copula) (s p : nat) (is_input : bool)
| MComp (c : connector) (l : list nat) (is_input : bool)
| MClone (i : nat).

Definition the (pool : list obj) (i : nat) : option obj := nth_error (rev pool) i.

Fixpoint all_of (pool : list obj) (l : list nat) : option (list obj) :=
  match l with
  | [] => Some []
  | i :: l' => match the pool i, all_of pool l' with
               | Some o, Some r => Some (o :: r)
               | _, _ => None
               end
  end.

Definition op_of (pool : list obj) (c : cmd) : option op :=
  match c with
  | MAtom b => Some (NewAtom b)
  | MItv n => Some (NewItv n)
  | MVar k i => Some (NewVar k i)
  | MStmt c s p b => match the pool s, the pool p with
                     | Some s', Some p' => Some (NewStmt c s' p' b)
                     | _, _ => None
                     end
  | MComp c l b => match all_of pool l with Some l' => Some (NewComp c l' b) | None => None end
  | MClone i => match the pool i with Some o => Some (Clone o) | None => None end
  end.

Fixpoint run (h : heap) (pool : list obj) (cs : list cmd) : option (heap * list obj) :=
  match cs with
  | [] => Some (h, pool)
  | c :: cs' =>
      match op_of pool c with
      | None => None
      | Some x => match step h x with
                  | Ok (h', o) => run h' (o :: pool) cs'
                  | _ => None
                  end
      end
  end.

Lemma the_in : forall pool i o, the pool i = Some o -> In o pool.
Proof. intros pool i o H. apply nth_error_In in H. apply in_rev. assumption. Qed.

Lemma all_of_in : forall pool l r, all_of pool l = Some r -> incl r pool.
Proof.
  induction l as [|i l IH]; intros r H; simpl in H.
  - inversion H. intros x [].
  - destruct (the pool i) eqn:E; [|discriminate]. destruct (all_of pool l); [|discriminate].
    inversion H; subst. intros x [<-|Hx]; [eapply the_in; eauto|]. apply (IH l0); auto.
Qed.

Lemma op_of_in : forall pool c x, op_of pool c = Some x -> incl (uses x) pool.
Proof.
  intros pool c x H. destruct c; simpl in H.
  - inversion H. intros y [].
  - inversion H. intros y [].
  - inversion H. intros y [].
  - destruct (the pool s) eqn:E1; [|discriminate]. destruct (the pool p) eqn:E2; [|discriminate].
    inversion H. intros y [<-|[<-|[]]]; eapply the_in; eauto.
  - destruct (all_of pool l) eqn:E1; [|discriminate]. inversion H. eapply all_of_in; eauto.
  - destruct (the pool i) eqn:E1; [|discriminate]. inversion H. intros y [<-|[]]; eapply the_in; eauto.
Qed.

Lemma run_made : forall cs h pool h' pool', made h pool -> run h pool cs = Some (h', pool') -> made h' pool'.
Proof.
  induction cs as [|c cs IH]; intros h pool h' pool' M H; simpl in H.
  - inversion H; subst; assumption.
  - destruct (op_of pool c) as [x|] eqn:E1; [|discriminate].
    destruct (step h x) as [[h1 o]| | |] eqn:E2; try discriminate.
    eapply IH; [|exact H]. econstructor; [exact M| |exact E2]. eapply op_of_in; eauto.
Qed.

Definition final (cs : list cmd) : heap * list obj :=
  match run heap0 [] cs with Some r => r | None => (heap0, []) end.

Lemma final_made : forall cs, made (fst (final cs)) (snd (final cs)).
Proof.
  intros cs. unfold final. destruct (run heap0 [] cs) as [[h pool]|] eqn:E.
  - exact (run_made _ _ _ _ _ made_start E).
  - exact made_start.
Qed.

Definition last_made (cs : list cmd) : obj := hd (OAtom (Hdr 0 0 0 false false false false false false (0, 0, 0)%nat) false) (snd (final cs)).

Lemma last_in : forall cs, snd (final cs) <> [] -> In (last_made cs) (snd (final cs)).
Proof. intros cs H. unfold last_made. destruct (snd (final cs)); [congruence|simpl; auto]. Qed.

(* <#0 --> a> *)
Definition dep_script : list cmd := [MAtom false; MVar Dependent 0; MStmt Inheritance 1 0 true].
(* <?0 --> a> *)
Definition qry_script : list cmd := [MAtom false; MVar Query 0; MStmt Inheritance 1 0 true].

Lemma dependent_lists_wrong :
  ~ (forall h pool o k, made h pool -> In o pool -> k <> Independent ->
      values h (iv_indices (node h (iv_of k (hdr o)))) = indices_in k (denote h o)).
Proof.
  intros H.
  assert (N : snd (final dep_script) <> []) by (vm_compute; discriminate).
  specialize (H _ _ _ Dependent (final_made dep_script) (last_in _ N)).
  specialize (H ltac:(discriminate)). vm_compute in H. discriminate H.
Qed.

Lemma query_lists_wrong :
  ~ (forall h pool o, made h pool -> In o pool ->
      values h (iv_indices (node h (iv_of Query (hdr o)))) = indices_in Query (denote h o)).
Proof.
  intros H.
  assert (N : snd (final qry_script) <> []) by (vm_compute; discriminate).
  specialize (H _ _ _ (final_made qry_script) (last_in _ N)). vm_compute in H. discriminate H.
Qed.

(* <(&&, <$3 --> a>, <$5 --> $3>) ==> <$5 --> b>>, with the shared objects $3, $5 *)
Definition big_script : list cmd :=
  [MAtom false; MAtom false; MVar Independent 3; MVar Independent 5;
   MStmt Inheritance 2 0 true; MStmt Inheritance 3 2 false; MStmt Inheritance 3 1 false;
   MComp Conjunction [4; 5] true; MStmt Implication 7 6 false].

Lemma big_indices : exists h pool o, made h pool /\ In o pool /\
  indices_in Independent (denote h o) = [3; 5; 3; 5]%Z
  /\ iv_positions (node h (iv_ind (hdr o))) = [[0; 0; 0]; [0; 1; 0]; [0; 1; 1]; [1; 0]]%Z
  /\ variable_inside o.
Proof.
  exists (fst (final big_script)), (snd (final big_script)), (last_made big_script).
  split; [apply final_made|]. split; [apply last_in; vm_compute; discriminate|].
  split; [vm_compute; reflexivity|]. split; [vm_compute; reflexivity|].
  apply (variable_inside_iff (fst (final big_script))). vm_compute. reflexivity.
Qed.


(* ---- the index order kept by clone ---- *)
Fixpoint ascb (l : list Z) : bool :=
  match l with
  | x :: l' => forallb (fun y => (x <? y)%Z) l' && ascb l'
  | [] => true
  end.

Lemma ascb_ok : forall l, ascb (map thash l) = true -> ascending l.
Proof.
  induction l as [|x l IH]; intros H; [constructor|]. simpl in H. apply andb_prop in H. destruct H as (H1 & H2).
  constructor; [apply IH; exact H2|]. rewrite forallb_forall in H1. apply Forall_forall. intros y Hy.
  apply Z.ltb_lt. apply H1. apply in_map. assumption.
Qed.

Fixpoint orderedb (t : term) : bool :=
  match t with
  | Stmt _ s p => orderedb s && orderedb p
  | Comp c l => (negb (is_commutative c) || ascb (map thash l)) && forallb orderedb l
  | _ => true
  end.

Lemma orderedb_ok : forall t, orderedb t = true -> well_ordered t.
Proof.
  induction t as [b a|k i|n|c' s p IHs IHp|c' l' IH] using term_ind';
    intros H c l Hc Ho; inversion Ho; subst; simpl in H; apply andb_prop in H; destruct H as (G1 & G2).
  - apply (IHs G1 c l Hc). assumption.
  - apply (IHp G2 c l Hc). assumption.
  - apply CompoundFacts2.set_like_iff in Hc. rewrite Hc in G1. apply ascb_ok. exact G1.
  - rewrite forallb_forall in G2. apply (IH x) with (c := c); auto.
Qed.

(* (&&, <$0 --> $1>, <$1 --> $0>), components in the order in which the library keeps them *)
Definition flip_script : list cmd :=
  [MVar Independent 0; MVar Independent 1; MStmt Inheritance 0 1 true; MStmt Inheritance 1 0 true;
   MComp Conjunction [3; 2] true].

Lemma clone_not_equal :
  ~ (forall h pool o h' o', made h pool -> In o pool -> step h (Clone o) = Ok (h', o') ->
      denote h' o' = denote h o).
Proof.
  intros H. set (s := flip_script).
  assert (N : snd (final s) <> []) by (vm_compute; discriminate).
  destruct (made_total _ _ (Clone (last_made s)) (final_made s)) as (h' & o' & E).
  { intros y [<-|[]]. apply last_in. assumption. }
  specialize (H _ _ _ _ _ (final_made s) (last_in _ N) E).
  vm_compute in E. inversion E; subst h' o'. vm_compute in H. discriminate H.
Qed.

(* The components of the witness are in the order in which the library's constructor
   leaves them, and the clone is not == to the original. *)
Lemma clone_flips : exists h pool o h' o', made h pool /\ In o pool /\
  compound id_order true Conjunction
    [Stmt Inheritance (Var Independent 0) (Var Independent 1);
     Stmt Inheritance (Var Independent 1) (Var Independent 0)] = Ok (denote h o)
  /\ step h (Clone o) = Ok (h', o')
  /\ teq (denote h' o') (denote h o) = Ok false.
Proof.
  set (s := flip_script).
  assert (N : snd (final s) <> []) by (vm_compute; discriminate).
  destruct (made_total _ _ (Clone (last_made s)) (final_made s)) as (h' & o' & E).
  { intros y [<-|[]]. apply last_in. assumption. }
  exists (fst (final s)), (snd (final s)), (last_made s), h', o'.
  split; [apply final_made|]. split; [apply last_in; assumption|].
  split; [vm_compute; reflexivity|]. split; [assumption|].
  vm_compute in E. inversion E; subst h' o'. vm_compute. reflexivity.
Qed.

(* The statement big_script makes can be cloned, and is well ordered. *)
Lemma big_clone : exists h pool o h' o', made h pool /\ In o pool /\
  step h (Clone o) = Ok (h', o') /\ (forall q, In q pool -> well_ordered (denote h q)) /\ variable_inside o
  /\ exists c, cell_of h' o' c.
Proof.
  set (s := big_script).
  assert (N : snd (final s) <> []) by (vm_compute; discriminate).
  destruct (made_total _ _ (Clone (last_made s)) (final_made s)) as (h' & o' & E).
  { intros y [<-|[]]. apply last_in. assumption. }
  exists (fst (final s)), (snd (final s)), (last_made s), h', o'.
  split; [apply final_made|]. split; [apply last_in; assumption|].
  split; [assumption|]. split.
  - assert (G : forallb (fun o => orderedb (denote (fst (final s)) o)) (snd (final s)) = true) by (vm_compute; reflexivity).
    rewrite forallb_forall in G. intros q Hq. apply orderedb_ok. apply (G q Hq).
  - split; [apply (variable_inside_iff (fst (final s))); vm_compute; reflexivity|].
    vm_compute in E. inversion E; subst h' o'. eexists. eexists. split; [apply reach_self|].
    vm_compute. left. reflexivity.
Qed.

(* The product of #4, $3 and ?2 *)
Definition mixed_script : list cmd :=
  [MVar Dependent 4; MVar Independent 3; MVar Query 2; MComp Product [0; 1; 2] true].

Lemma mixed_lists : exists h pool o, made h pool /\ In o pool /\ parts o <> [] /\
  h_has_dvar (hdr o) = true /\ h_has_qvar (hdr o) = true /\
  indices_in Independent (denote h o) = [3]%Z /\ indices_in Dependent (denote h o) = [4]%Z.
Proof.
  exists (fst (final mixed_script)), (snd (final mixed_script)), (last_made mixed_script).
  split; [apply final_made|]. split; [apply last_in; vm_compute; discriminate|].
  split; [vm_compute; discriminate|]. repeat split; vm_compute; reflexivity.
Qed.

(* The parts of the statement of big_script *)
Definition parts_script : list cmd := firstn 8 big_script.

Lemma parts_ready : exists h pool s p, made h pool /\ In s pool /\ In p pool /\
  well_ordered (denote h s) /\ well_ordered (denote h p) /\ variable_inside s /\ variable_inside p /\
  (exists h' o', step h (NewStmt Implication s p false) = Ok (h', o')) /\
  (exists h' o', step h (NewComp Conjunction [s; p] true) = Ok (h', o')).
Proof.
  set (h := fst (final parts_script)). set (pool := snd (final parts_script)).
  assert (M : made h pool) by apply final_made.
  exists h, pool, (last_made parts_script), (nth 1 pool (last_made parts_script)).
  assert (I1 : In (last_made parts_script) pool) by (apply last_in; vm_compute; discriminate).
  assert (I2 : In (nth 1 pool (last_made parts_script)) pool) by (apply nth_In; vm_compute; lia).
  split; [exact M|]. split; [exact I1|]. split; [exact I2|].
  split; [apply orderedb_ok; vm_compute; reflexivity|]. split; [apply orderedb_ok; vm_compute; reflexivity|].
  split; [apply (variable_inside_iff h); vm_compute; reflexivity|].
  split; [apply (variable_inside_iff h); vm_compute; reflexivity|].
  split; apply (made_total _ _ _ M); intros x [<-|[<-|[]]]; assumption.
Qed.
