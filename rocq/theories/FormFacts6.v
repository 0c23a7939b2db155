(* What the semantic actions make of the syntax trees of forms. *)
From Coq Require Import ZArith String Ascii List Bool Lia.
From Verif Require Import Base Enums Term Maps MapsFacts Compound CompoundFacts CompoundFacts3 NumeralSpec Parser Actions ActionsSpec.
From Verif Require Import ActionsFacts ActionsFacts3 ActionsFacts4 ActionsFacts5 PrinterSpec Forms FormFacts2 FormFacts5.
From Verif Require Import Interning InterningSpec.
Import ListNotations.
Open Scope string_scope.
Open Scope list_scope.
Open Scope Z_scope.

(** * Names *)

Lemma word_plain_name s : word s -> ~ operator_name s.
Proof.
  intros W (r & ->). destruct W as [(_ & F)|(w & E & _)]; [|discriminate E].
  apply Forall_inv in F. apply (proj2 F). cbn. auto 40.
Qed.

(** * Monotonicity *)

Section Monotone.
Variable ord : list (option connector * list term) -> list (option connector * list term).
Variables atom atom' : string -> Z -> Prop.
Variables numbered numbered' : vkind -> string -> Z -> Prop.
Hypothesis A : forall s a, atom s a -> atom' s a.
Hypothesis B : forall k s i, numbered k s i -> numbered' k s i.

Lemma means_more f : forall t, means ord atom numbered f t -> means ord atom' numbered' f t.
Proof using A B.
  assert (X : forall l, Forall (fun f => forall t, means ord atom numbered f t -> means ord atom' numbered' f t) l ->
    forall ts, all_mean ord atom numbered l ts -> all_mean ord atom' numbered' l ts).
  { intros l F. induction F as [|f0 l H _ IH]; intros ts M; inversion M; subst; constructor; auto. }
  induction f as [s|k s|s|s|x c a b Ia Ib|s l I|s l I|c l I|f I|c l I|l I|c l I|c l I] using form_ind';
    intros t M; inversion M as [| | | | | | |? c0 l0 ts ? As Al Co]; subst; try discriminate As.
  - constructor; auto.
  - constructor; auto.
  - constructor; auto.
  - constructor; auto.
  - econstructor; eauto.
  - constructor; auto.
  - constructor; auto.
  - injection As as <- <-. eapply M_compound; [reflexivity| |exact Co]. auto.
  - injection As as <- <-. eapply M_compound; [reflexivity| |exact Co]. auto.
  - injection As as <- <-. eapply M_compound; [reflexivity| |exact Co]. auto.
  - injection As as <- <-. eapply M_compound; [reflexivity| |exact Co]. auto.
  - injection As as <- <-. eapply M_compound; [reflexivity| |exact Co]. auto.
  - injection As as <- <-. eapply M_compound; [reflexivity| |exact Co]. auto.
Qed.

Lemma all_mean_more l : forall ts, all_mean ord atom numbered l ts -> all_mean ord atom' numbered' l ts.
Proof using A B. induction l as [|f l IH]; intros ts M; inversion M; subst; constructor; auto. apply means_more. assumption. Qed.

Lemma stuck_more f : stuck ord atom numbered f -> stuck ord atom' numbered' f.
Proof using A B.
  intros [g c l ts I As Al U|x c a b s I W M U|x c a b p I W M U].
  - eapply S_compound; eauto. apply all_mean_more. assumption.
  - eapply S_subject; eauto. apply means_more. assumption.
  - eapply S_predicate; eauto. apply means_more. assumption.
Qed.
End Monotone.

Lemma inside_trans g f h : inside g f -> inside f h -> inside g h.
Proof.
  intros A B. induction B as [|x c a b _ IH|x c a b _ IH|s l f' I _ IH|s l f' I _ IH|f' c l f0 E I _ IH].
  - exact A.
  - apply I_left, IH.
  - apply I_right, IH.
  - eapply I_argument1; eauto.
  - eapply I_argument2; eauto.
  - eapply I_component; eauto.
Qed.

Lemma stuck_inside ord atom numbered g f : inside g f -> stuck ord atom numbered g -> stuck ord atom numbered f.
Proof.
  intros J [g' c l ts I As Al U|x c a b s I W M U|x c a b p I W M U].
  - eapply S_compound; [eapply inside_trans; eassumption|eassumption..].
  - eapply S_subject; [eapply inside_trans; eassumption|eassumption..].
  - eapply S_predicate; [eapply inside_trans; eassumption|eassumption..].
Qed.

(** * Evaluation *)

Section Evaluation.
Variable ord : list (option connector * list term) -> list (option connector * list term).
Hypothesis Horder : any_order ord.
Variable fresh : world -> Z.
Hypothesis Hfresh : careful fresh.
Variable known : string -> Prop.
Variable calls : string -> Prop.
Hypothesis Hops : forall s, calls s -> ~ known s /\ known ("^" ++ s)%string.
Variable room : Z.
Hypothesis Hroom : room < 4294967295.

Notation transform := (transform ord fresh).
Notation transform_all := (transform_all ord fresh).

Definition numbering (L : vkind -> list string) (k : vkind) (s : string) (i : Z) : Prop :=
  exists j, i = Z.of_nat j /\ nth_error (L k) j = Some s.

Record fine (st : state) (L : vkind -> list string) (rest : nat) : Prop := Fine {
  fine_order : in_order (atoms st) (operations st);
  fine_numbers : forall k, represents k (ActionsSpec.table k st) (L k);
  fine_known : forall n, known_in (atoms st) n -> known n;
  fine_room : population (atoms st) + 2 * Z.of_nat rest <= room
}.

Definition grown (w w' : world) : Prop := forall n a, handed_out w n a -> handed_out w' n a.

Record later (st st' : state) : Prop := Later {
  later_handles : grown (atoms st) (atoms st');
  later_store : store st' = store st;
  later_pending : pending st' = pending st;
  later_same : (forall s, ~ calls s) -> (forall n, known n -> known_in (atoms st) n) -> tab (atoms st') = tab (atoms st)
}.

Lemma later_refl st : later st st.
Proof. constructor; [intros n a H; exact H|reflexivity|reflexivity|reflexivity]. Qed.

Lemma later_trans a b c : later a b -> later b c -> later a c.
Proof.
  intros [A1 A2 A3 A4] [B1 B2 B3 B4]. constructor; [intros n x H; apply B1, A1, H|congruence|congruence|].
  intros C K. rewrite B4; [auto|exact C|]. intros n Q. unfold known_in. rewrite A4; [apply K, Q|exact C|exact K].
Qed.

(* The number of places where an atom is handed out. *)
Definition count (f : form) : nat := (length (words f) + length (operators f))%nat.
Definition counts (l : list form) : nat := (length (concat (map words l)) + length (concat (map operators l)))%nat.

Definition prefixed (L L' : vkind -> list string) : Prop := forall k, exists r, L' k = L k ++ r.

Lemma prefixed_refl L : prefixed L L.
Proof. intros k. exists []. symmetry. apply app_nil_r. Qed.

Lemma prefixed_trans L1 L2 L3 : prefixed L1 L2 -> prefixed L2 L3 -> prefixed L1 L3.
Proof. intros A B k. destruct (A k) as (r & E). destruct (B k) as (q & F). exists (r ++ q). rewrite F, E, app_assoc. reflexivity. Qed.

Lemma prefixed_numbering L L' k s i : prefixed L L' -> numbering L k s i -> numbering L' k s i.
Proof.
  intros P (j & E & N). exists j. split; [exact E|]. destruct (P k) as (r & ->). rewrite nth_error_app1; [exact N|].
  apply nth_error_Some. congruence.
Qed.

Definition grow (L : vkind -> list string) (V : vkind -> list string) : vkind -> list string :=
  fun k => fold_left extend (V k) (L k).

Lemma grow_prefixed L V : prefixed L (grow L V).
Proof. intros k. apply extends. Qed.

(* Where building got stuck. *)
Definition broken (st : state) (L : vkind -> list string) (f : form) : Prop :=
  exists w ops, in_order w ops /\ grown (atoms st) w /\ stuck ord (handed_out w) (numbering L) f.

(* What evaluating a tree for f in state st may give; L are the variables
   afterwards. *)
Definition outcome (f : form) (st : state) (L : vkind -> list string) (rest : nat) (r : res (state * value)) : Prop :=
  (exists st' t, r = Ok (st', VTerm t) /\ fine st' L rest /\ later st st' /\
    means ord (handed_out (atoms st')) (numbering L) f t)
  \/ (r = UB /\ broken st L f).

Definition outcomes (l : list form) (st : state) (L : vkind -> list string) (rest : nat) (r : res (state * list value)) : Prop :=
  (exists st' ts, r = Ok (st', map VTerm ts) /\ fine st' L rest /\ later st st' /\
    all_mean ord (handed_out (atoms st')) (numbering L) l ts)
  \/ (r = UB /\ exists f, In f l /\ broken st L f).

Definition evaluates (f : form) (n : ast) : Prop :=
  forall st L rest, fine st L (count f + rest) -> outcome f st (grow L (fun k => variables k f)) rest (transform st n).

Lemma fine_ext st L L' rest : (forall k, L k = L' k) -> fine st L rest -> fine st L' rest.
Proof. intros E [A B C D]. constructor; auto. intros k. rewrite <- E. apply B. Qed.

Lemma numbering_ext L L' k s i : (forall k, L k = L' k) -> numbering L k s i -> numbering L' k s i.
Proof. intros E (j & A & B). exists j. rewrite <- E. auto. Qed.

Lemma outcome_ext f st L L' rest r : (forall k, L k = L' k) -> outcome f st L rest r -> outcome f st L' rest r.
Proof.
  intros E [(st' & t & R & F & La & M)|(R & w & ops & O & G & S)].
  - left. exists st', t. split; [exact R|]. split; [eapply fine_ext; eassumption|]. split; [exact La|].
    eapply means_more; [intros s a H; exact H| |exact M]. intros k s i. apply numbering_ext, E.
  - right. split; [exact R|]. exists w, ops. split; [exact O|]. split; [exact G|].
    eapply stuck_more; [intros s a H; exact H| |exact S]. intros k s i. apply numbering_ext, E.
Qed.

Lemma broken_prefix st L L' f : prefixed L L' -> broken st L f -> broken st L' f.
Proof.
  intros P (w & ops & O & G & S). exists w, ops. split; [exact O|]. split; [exact G|].
  eapply stuck_more; [intros s a H; exact H| |exact S]. intros k s i. apply prefixed_numbering, P.
Qed.

Lemma broken_earlier st st' L f : later st st' -> broken st' L f -> broken st L f.
Proof.
  intros La (w & ops & O & G & S). exists w, ops. split; [exact O|]. split; [|exact S].
  intros n a H. apply G, La, H.
Qed.

Lemma broken_inside st L g f : inside g f -> broken st L g -> broken st L f.
Proof. intros I (w & ops & O & G & S). exists w, ops. split; [exact O|]. split; [exact G|]. eapply stuck_inside; eassumption. Qed.

Lemma means_later st st' L L' f t : later st st' -> prefixed L L' ->
  means ord (handed_out (atoms st)) (numbering L) f t -> means ord (handed_out (atoms st')) (numbering L') f t.
Proof.
  intros La P. apply means_more; [apply La|]. intros k s i. apply prefixed_numbering, P.
Qed.

Lemma all_mean_later st st' L L' l ts : later st st' -> prefixed L L' ->
  all_mean ord (handed_out (atoms st)) (numbering L) l ts -> all_mean ord (handed_out (atoms st')) (numbering L') l ts.
Proof.
  intros La P. apply all_mean_more; [apply La|]. intros k s i. apply prefixed_numbering, P.
Qed.

Lemma fine_less st L n m : fine st L n -> (m <= n)%nat -> fine st L m.
Proof. intros [A B C D] H. constructor; auto. lia. Qed.

(* Lists of terms. *)
Lemma evaluate_all l (n : form -> ast) : Forall (fun f => evaluates f (n f)) l ->
  forall st L rest, fine st L (counts l + rest) ->
  outcomes l st (grow L (fun k => concat (map (variables k) l))) rest (transform_all st (map n l)).
Proof.
  induction 1 as [|f l E _ IH]; intros st L rest F.
  - left. exists st, []. split; [reflexivity|]. split; [exact F|]. split; [apply later_refl|constructor].
  - assert (C : counts (f :: l) = (count f + counts l)%nat).
    { unfold counts, count. cbn [map concat]. rewrite !app_length. lia. }
    rewrite C, <- Nat.add_assoc in F. specialize (E st L (counts l + rest)%nat F).
    set (L1 := grow L (fun k => variables k f)) in *.
    assert (X : forall k, grow L1 (fun k => concat (map (variables k) l)) k = grow L (fun k => concat (map (variables k) (f :: l))) k).
    { intros k. unfold L1, grow. cbn [map concat]. rewrite fold_left_app. reflexivity. }
    cbn [map]. rewrite all_cons. destruct E as [(st1 & t & R & F1 & La & M)|(R & B)].
    + rewrite R. cbn [bind]. destruct (IH st1 L1 rest F1) as [(st2 & ts & R2 & F2 & La2 & M2)|(R2 & g & I & B)].
      * rewrite R2. cbn [bind]. left. exists st2, (t :: ts). split; [reflexivity|].
        split; [eapply fine_ext; [exact X|exact F2]|]. split; [eapply later_trans; eassumption|].
        eapply all_mean_more; [intros s a H; exact H|intros k s i; apply numbering_ext, X|].
        constructor; [|exact M2]. eapply means_later; [exact La2|apply grow_prefixed|exact M].
      * rewrite R2. cbn [bind]. right. split; [reflexivity|]. exists g. split; [right; exact I|].
        apply (broken_earlier _ _ _ _ La). destruct B as (w & ops & O & G & S). exists w, ops. split; [exact O|]. split; [exact G|].
        eapply stuck_more; [intros s a H; exact H| |exact S]. intros k s i. apply numbering_ext, X.
    + rewrite R. cbn [bind]. right. split; [reflexivity|]. exists f. split; [left; reflexivity|].
      eapply broken_prefix; [|exact B]. eapply prefixed_trans; [apply (grow_prefixed L1 (fun k => concat (map (variables k) l)))|].
      intros k. exists []. rewrite app_nil_r. symmetry. apply X.
Qed.

Lemma terms_of_terms ts : terms_of (map VTerm ts) = Ok ts.
Proof. induction ts as [|t ts IH]; [reflexivity|]. cbn [map terms_of as_term bind]. rewrite IH. reflexivity. Qed.

(* Building the compound of components that were evaluated. *)
Lemma build_outcome f c l st st' L rest ts : assembly f = Some (c, l) -> fine st' L rest -> later st st' ->
  all_mean ord (handed_out (atoms st')) (numbering L) l ts ->
  outcome f st L rest (bind (compound ord true c ts) (fun t => Ok (st', VTerm t))).
Proof using Horder.
  intros A F La M. destruct (compound_outcome ord Horder true c ts) as [(t & E)|E]; rewrite E; cbn [bind].
  - left. exists st', t. split; [reflexivity|]. split; [exact F|]. split; [exact La|]. eapply M_compound; eassumption.
  - right. split; [reflexivity|]. exists (atoms st'), (operations st'). split; [apply F|]. split; [apply La|].
    eapply S_compound; [apply I_self|exact A|exact M|exact E].
Qed.

Lemma all_mean_length atom numbered l : forall ts, all_mean ord atom numbered l ts -> length ts = length l.
Proof. induction l as [|f l IH]; intros ts M; inversion M; subst; cbn; [reflexivity|]. f_equal. apply IH. assumption. Qed.

(* A compound whose components come after the connector. *)
Lemma prefix_outcome f c l n st L rest name : assembly f = Some (c, l) ->
  (forall st ts, length ts = length l -> Actions.call ord fresh name st (Some (VConnector c :: map VTerm ts)) =
    bind (compound ord true c ts) (fun t => Ok (st, VTerm t))) ->
  transform st (con_node c) = Ok (st, VConnector c) ->
  Forall (fun f => evaluates f (n f)) l -> fine st L (counts l + rest) ->
  outcome f st (grow L (fun k => concat (map (variables k) l))) rest (transform st (Node name (con_node c :: map n l))).
Proof using Horder.
  intros A K C E F. rewrite transform_node, all_cons, C. cbn [bind].
  destruct (evaluate_all l n E st L rest F) as [(st' & ts & R & F' & La & M)|(R & g & I & B)]; rewrite R; cbn [bind].
  - rewrite K by (eapply all_mean_length; exact M). eapply build_outcome; eassumption.
  - right. split; [reflexivity|]. eapply broken_inside; [|exact B]. eapply I_component; [exact A|exact I|apply I_self].
Qed.

(* The connector of a difference comes between its components. *)
Lemma between_nodes c na nb st : c <> CList -> (forall st, transform st (con_node c) = Ok (st, VConnector c)) ->
  transform_all st [na; con_node c; nb] =
  bind (transform_all st [na; nb]) (fun '(st, vs) => match vs with [a; b] => Ok (st, [a; VConnector c; b]) | _ => UB end).
Proof.
  intros _ C. rewrite !all_cons. destruct (transform st na) as [[st1 va]| | |]; cbn [bind]; try reflexivity.
  rewrite !all_cons, C. cbn [bind]. rewrite all_cons. destruct (transform st1 nb) as [[st2 vb]| | |]; reflexivity.
Qed.

Lemma between_outcome f c a b n st L rest : assembly f = Some (c, [a; b]) ->
  (forall st, transform st (con_node c) = Ok (st, VConnector c)) -> c <> CList ->
  Forall (fun f => evaluates f (n f)) [a; b] -> fine st L (counts [a; b] + rest) ->
  outcome f st (grow L (fun k => concat (map (variables k) [a; b]))) rest (transform st (Node "single_infix" [n a; con_node c; n b])).
Proof using Horder.
  intros A C N E F. rewrite transform_node, (between_nodes c _ _ _ N C).
  destruct (evaluate_all [a; b] n E st L rest F) as [(st' & ts & R & F' & La & M)|(R & g & I & B)]; cbn [map] in R; rewrite R; cbn [bind].
  - pose proof (all_mean_length _ _ _ _ M) as Len. destruct ts as [|t1 [|t2 [|t3 ts]]]; cbn in Len; try discriminate Len. cbn [map bind].
    change (Actions.call ord fresh "single_infix" st' (Some [VTerm t1; VConnector c; VTerm t2]))
      with (bind (compound ord true c [t1; t2]) (fun t => Ok (st', VTerm t))).
    eapply build_outcome; eassumption.
  - right. split; [reflexivity|]. eapply broken_inside; [|exact B]. eapply I_component; [exact A|exact I|apply I_self].
Qed.

Lemma infix_outcome f c l n st L rest name : assembly f = Some (c, l) -> l <> [] ->
  (forall st vs, Actions.call ord fresh name st (Some vs) = prefix ord st (VConnector c :: vs)) ->
  Forall (fun f => evaluates f (n f)) l -> fine st L (counts l + rest) ->
  outcome f st (grow L (fun k => concat (map (variables k) l))) rest (transform st (Node name (map n l))).
Proof using Horder.
  intros A N K E F. rewrite transform_node.
  destruct (evaluate_all l n E st L rest F) as [(st' & ts & R & F' & La & M)|(R & g & I & B)]; rewrite R; cbn [bind].
  - destruct l as [|f0 l]; [congruence|]. cbn [map]. rewrite K. unfold prefix. cbn [arg nth_error bind as_connector skipn].
    rewrite terms_of_terms. cbn [bind]. eapply build_outcome; eassumption.
  - right. split; [reflexivity|]. eapply broken_inside; [|exact B]. eapply I_component; [exact A|exact I|apply I_self].
Qed.

Lemma con_value c st : c <> CList -> transform st (con_node c) = Ok (st, VConnector c).
Proof. intros N. destruct c; try reflexivity. congruence. Qed.

(** * Single names *)

Lemma leaf_value s st : word s -> transform st (leaf s) = Ok (st, VString s).
Proof.
  intros W. unfold leaf. destruct s as [|c s]; [reflexivity|]. destruct c as [[] [] [] [] [] [] [] []]; reflexivity.
Qed.

Lemma fine_apart st L rest : fine st L rest -> apart (atoms st) (fresh (atoms st)).
Proof using Hfresh Hroom. intros [_ _ _ D]. apply Hfresh. lia. Qed.

Lemma table_atoms k st w ops : ActionsSpec.table k (with_atoms st w ops) = ActionsSpec.table k st.
Proof. destruct k; reflexivity. Qed.

Lemma word_evaluates s : word s -> known s -> evaluates (Word s) (Node "atom_term" [leaf s]).
Proof using Hfresh Hroom.
  intros W Ks st L rest F. rewrite transform_node, all_cons, (leaf_value s st W). cbn [bind Actions.transform_all].
  change (Actions.call ord fresh "atom_term" st (Some [VString s])) with (make_atom fresh st (Some [VString s])).
  pose proof (fine_apart _ _ _ F) as Ap. destruct F as [O N K R]. unfold make_atom. cbn [all_args bind arg nth_error as_string].
  destruct (create_step (atoms st) (operations st) s (fresh (atoms st)) O (word_plain_name s W) Ap) as (w' & a & E & H & O' & X & P & Kn & Sm).
  rewrite E. cbn [bind]. unfold last_atom. rewrite H. cbn [bind hat].
  change (if check_by_name (tab (atoms st)) s then operations st else filter (fun x => negb (x =? fresh (atoms st))) (operations st))
    with (atom_ops (atoms st) (operations st) s (fresh (atoms st))). rewrite X.
  left. eexists _, _. split; [reflexivity|]. split; [|split].
  - constructor; cbn [with_atoms atoms operations].
    + exact O'.
    + intros k. rewrite table_atoms. cbn [variables grow]. unfold grow. cbn [variables fold_left]. apply N.
    + intros n Q. destruct (Kn n Q) as [Q'| -> ]; [apply K, Q'|exact Ks].
    + unfold count in R. cbn [words operators length] in R. lia.
  - constructor; try reflexivity.
    + intros n x I. unfold handed_out in *. cbn [with_atoms atoms]. rewrite H. right. exact I.
    + intros _ Q. apply Sm, Q, Ks.
  - constructor. unfold handed_out. cbn [with_atoms atoms]. rewrite H. left. reflexivity.
Qed.

(* make_operation on a name *)
Lemma make_operation_step s st L rest : calls s -> fine st L (S rest) ->
  exists st' a, make_operation fresh st (Some [VString s]) = Ok (st', VTerm (Atom true a)) /\ fine st' L rest /\ later st st' /\
    handed_out (atoms st') ("^" ++ s)%string a.
Proof using Hfresh Hops Hroom.
  intros U F. pose proof (fine_apart _ _ _ F) as Ap. destruct F as [O N K R]. unfold make_operation. cbn [all_args bind arg nth_error as_string].
  assert (C : check_by_name (tab (atoms st)) s = false).
  { apply not_true_iff_false. intros C. apply (proj1 (Hops s U)), K. exact C. }
  destruct (operation_step (atoms st) (operations st) s (fresh (atoms st)) O C Ap) as (w' & E & H & O' & P & Kn).
  rewrite C, E. cbn [bind]. unfold last_atom. rewrite H. cbn [bind hat]. cbn [existsb]. rewrite Z.eqb_refl. cbn [orb].
  eexists _, _. split; [reflexivity|]. split; [|split].
  - constructor; cbn [with_atoms atoms operations].
    + exact O'.
    + intros k. rewrite table_atoms. apply N.
    + intros n Q. destruct (Kn n Q) as [Q'| -> ]; [apply K, Q'|exact (proj2 (Hops s U))].
    + lia.
  - constructor; try reflexivity.
    + intros n x I. unfold handed_out in *. cbn [with_atoms atoms]. rewrite H. right. exact I.
    + intros Q. exfalso. exact (Q s U).
  - unfold handed_out. cbn [with_atoms atoms]. rewrite H. left. reflexivity.
Qed.

Lemma operation_value s st : word s -> transform st (Node "operation" [leaf s]) = make_operation fresh st (Some [VString s]).
Proof. intros W. rewrite transform_node, all_cons, (leaf_value s st W). reflexivity. Qed.

Lemma operator_evaluates s : word s -> calls s -> evaluates (Operator s) (Node "operation" [leaf s]).
Proof using Hfresh Hops Hroom.
  intros W U st L rest F. rewrite (operation_value s st W).
  destruct (make_operation_step s st L rest U F) as (st' & a & E & F' & La & H). rewrite E.
  left. exists st', (Atom true a). split; [reflexivity|]. split; [exact F'|]. split; [exact La|]. constructor. exact H.
Qed.

Lemma variable_evaluates k s : word s -> evaluates (Placeholder k s) (Node (variable_name k) [leaf s]).
Proof.
  intros W st L rest [O N K R].
  assert (E : transform st (Node (variable_name k) [leaf s]) = make_variable k st (Some [VString s])).
  { unfold leaf. destruct s as [|c s]; [apply transform_variable; cbn; auto|].
    destruct c as [[] [] [] [] [] [] [] []]; apply transform_variable; cbn; auto. }
  rewrite E. destruct (make_variable_spec k st s (L k) (N k)) as (st' & i & M & T & I & Q). rewrite M.
  left. exists st', (Var k (Z.of_nat i)). split; [reflexivity|].
  assert (S : atoms st' = atoms st /\ operations st' = operations st /\ store st' = store st /\ pending st' = pending st).
  { unfold make_variable in M. cbn [all_args bind arg nth_error as_string] in M.
    destruct k; (match type of M with (let '(_, _) := ?x in _) = _ => destruct x end); injection M as <- _; cbn; auto. }
  destruct S as (S1 & S2 & S3 & S4).
  assert (G : forall j, represents j (ActionsSpec.table j st') (grow L (fun k0 => variables k0 (Placeholder k s)) j)).
  { intros j. unfold grow. cbn [variables]. assert (De : {k = j} + {k <> j}) by decide equality. destruct De as [<-|D].
    - replace (vk_eqb k k) with true by (destruct k; reflexivity). cbn [fold_left]. exact T.
    - replace (vk_eqb k j) with false by (destruct k, j; try reflexivity; congruence). cbn [fold_left].
      rewrite Q by congruence. apply N. }
  split; [|split].
  - constructor; [rewrite S1, S2; exact O|exact G|rewrite S1; exact K|rewrite S1; exact R].
  - constructor; [rewrite S1; intros n a H; exact H|exact S3|exact S4|rewrite S1; reflexivity].
  - constructor. exists i. split; [reflexivity|]. unfold grow. cbn [variables].
    replace (vk_eqb k k) with true by (destruct k; reflexivity). cbn [fold_left]. apply index_nth, I.
Qed.

Lemma interval_evaluates s n : whole (list_ascii_of_string s) n -> -2147483648 <= n <= 2147483647 ->
  evaluates (Interval s) (Node "interval" [Leaf "integer" s]).
Proof.
  intros W R st L rest F.
  assert (E : transform st (Node "interval" [Leaf "integer" s]) = Ok (st, VTerm (Itv n))).
  { destruct (interval_read ord fresh st s n W) as [E|(B & _)]; [|lia]. rewrite E.
    destruct (Z.leb_spec (-2147483648) n); [|lia]. destruct (Z.leb_spec n 2147483647); [|lia]. reflexivity. }
  rewrite E. left. exists st, (Itv n). split; [reflexivity|]. split; [exact F|]. split; [apply later_refl|]. constructor. exact W.
Qed.

(** * Statements *)

Lemma copula_in c : In (copula_name c, c) copula_actions.
Proof. destruct c; cbn; auto 20. Qed.

Lemma relation_evaluates x c a b na nb : evaluates a na -> evaluates b nb ->
  evaluates (Relation x c a b) (Node "statement" [na; Node (copula_name c) []; nb]).
Proof using Horder.
  intros Ea Eb st L rest F.
  assert (C : count (Relation x c a b) = (count a + count b)%nat).
  { unfold count. cbn [words operators]. rewrite !app_length. lia. }
  rewrite C, <- Nat.add_assoc in F. specialize (Ea st L (count b + rest)%nat F).
  set (L1 := grow L (fun k => variables k a)) in *. set (L2 := grow L1 (fun k => variables k b)).
  assert (X : forall k, L2 k = grow L (fun k => variables k (Relation x c a b)) k).
  { intros k. unfold L2, L1, grow. cbn [variables]. rewrite fold_left_app. reflexivity. }
  apply (outcome_ext _ _ _ _ _ _ X). rewrite transform_node, !all_cons.
  destruct Ea as [(st1 & s & R & F1 & La & M)|(R & B)]; rewrite R; cbn [bind].
  2: { right. split; [reflexivity|]. eapply broken_inside; [apply I_left, I_self|]. eapply broken_prefix; [apply grow_prefixed|exact B]. }
  rewrite all_cons, (copula_value ord fresh _ _ st1 (copula_in c)). cbn [bind]. rewrite all_cons.
  destruct (Eb st1 L1 rest F1) as [(st2 & p & R2 & F2 & La2 & M2)|(R2 & B)]; rewrite R2; cbn [bind Actions.transform_all].
  2: { right. split; [reflexivity|]. eapply broken_inside; [apply I_right, I_self|]. eapply broken_earlier; eassumption. }
  fold L2 in F2, M2.
  assert (M1 : means ord (handed_out (atoms st2)) (numbering L2) a s) by (eapply means_later; [exact La2|apply grow_prefixed|exact M]).
  assert (LA : later st st2) by (eapply later_trans; eassumption).
  assert (BR : forall g, stuck ord (handed_out (atoms st2)) (numbering L2) g -> broken st L2 g).
  { intros g S. exists (atoms st2), (operations st2). split; [apply F2|]. split; [apply LA|exact S]. }
  assert (OK : forall t, related ord c s p t -> outcome (Relation x c a b) st L2 rest (Ok (st2, VTerm t))).
  { intros t Q. left. exists st2, t. split; [reflexivity|]. split; [exact F2|]. split; [exact LA|]. econstructor; eassumption. }
  change (Actions.call ord fresh "statement" st2 (Some [VTerm s; VCopula c; VTerm p])) with (make_statement ord st2 (Some [VTerm s; VCopula c; VTerm p])).
  unfold make_statement. cbn [all_args bind arg nth_error as_term as_copula].
  assert (PL : ~ wraps_subject c -> ~ wraps_predicate c -> outcome (Relation x c a b) st L2 rest (Ok (st2, VTerm (Stmt c s p)))).
  { intros N1 N2. apply OK. constructor; assumption. }
  destruct c; try (apply PL; unfold wraps_subject, wraps_predicate; intros [Q|Q]; discriminate Q).
  - destruct (compound_outcome ord Horder false ExtensionalSet [s]) as [(s' & Q)|Q]; rewrite Q; cbn [bind].
    + apply OK. constructor. exact Q.
    + right. split; [reflexivity|]. apply BR. eapply S_subject; [apply I_self|left; reflexivity|exact M1|exact Q].
  - destruct (compound_outcome ord Horder false IntensionalSet [p]) as [(p' & Q)|Q]; rewrite Q; cbn [bind].
    + apply OK. constructor. exact Q.
    + right. split; [reflexivity|]. apply BR. eapply S_predicate; [apply I_self|left; reflexivity|exact M2|exact Q].
  - destruct (compound_outcome ord Horder false ExtensionalSet [s]) as [(s' & Q)|Q]; rewrite Q; cbn [bind].
    + destruct (compound_outcome ord Horder false IntensionalSet [p]) as [(p' & Q2)|Q2]; rewrite Q2; cbn [bind].
      * apply OK. constructor; assumption.
      * right. split; [reflexivity|]. apply BR. eapply S_predicate; [apply I_self|right; reflexivity|exact M2|exact Q2].
    + right. split; [reflexivity|]. apply BR. eapply S_subject; [apply I_self|right; reflexivity|exact M1|exact Q].
Qed.

Lemma product_build ts : compound ord true Product ts = Ok (Comp Product ts).
Proof. apply plain_build. constructor. Qed.

Lemma invocation_evaluates s l n : word s -> calls s -> Forall (fun f => evaluates f (n f)) l ->
  evaluates (Invocation s l) (Node "statement_operation1" (Node "operation" [leaf s] :: map n l)).
Proof using Hfresh Hops Hroom.
  intros W U E st L rest F.
  assert (C : (count (Invocation s l) + rest = S (counts l + rest))%nat).
  { unfold count, counts. cbn [words operators length]. lia. }
  rewrite C in F. rewrite transform_node, all_cons, (operation_value s st W).
  destruct (make_operation_step s st L (counts l + rest) U F) as (st1 & a & E1 & F1 & La & H). rewrite E1. cbn [bind].
  destruct (evaluate_all l n E st1 L rest F1) as [(st2 & ts & R & F2 & La2 & M)|(R & g & I & B)]; rewrite R; cbn [bind].
  - change (Actions.call ord fresh "statement_operation1" st2 (Some (VTerm (Atom true a) :: map VTerm ts)))
      with (make_operation1 ord st2 (Some (VTerm (Atom true a) :: map VTerm ts))).
    unfold make_operation1, operation1. cbn [all_args bind skipn arg nth_error as_term]. rewrite terms_of_terms. cbn [bind].
    rewrite product_build. cbn [bind]. left. eexists _, _. split; [reflexivity|]. split; [exact F2|].
    split; [eapply later_trans; eassumption|]. constructor; [apply La2, H|exact M].
  - right. split; [reflexivity|]. eapply broken_inside; [eapply I_argument1; [exact I|apply I_self]|]. eapply broken_earlier; eassumption.
Qed.

(* go(a): the operation is made last *)
Lemma application_evaluates s l n : word s -> calls s -> Forall (fun f => evaluates f (n f)) l ->
  evaluates (Application s l) (Node "statement_operation2" (leaf s :: map n l)).
Proof using Hfresh Hops Hroom.
  intros W U E st L rest F.
  assert (C : (count (Application s l) + rest = counts l + S rest)%nat).
  { unfold count, counts. cbn [words operators length]. lia. }
  rewrite C in F. rewrite transform_node, all_cons, (leaf_value s st W). cbn [bind].
  destruct (evaluate_all l n E st L (S rest) F) as [(st1 & ts & R & F1 & La & M)|(R & g & I & B)]; rewrite R; cbn [bind].
  - change (Actions.call ord fresh "statement_operation2" st1 (Some (VString s :: map VTerm ts)))
      with (make_operation2 ord fresh st1 (Some (VString s :: map VTerm ts))).
    unfold make_operation2. cbn [all_args bind arg nth_error].
    destruct (make_operation_step s st1 _ rest U F1) as (st2 & a & E1 & F2 & La2 & H). rewrite E1. cbn [bind].
    unfold operation1. cbn [bind skipn arg nth_error as_term]. rewrite terms_of_terms. cbn [bind].
    rewrite product_build. cbn [bind]. left. eexists _, _. split; [reflexivity|]. split; [exact F2|].
    split; [eapply later_trans; eassumption|]. constructor; [exact H|].
    eapply all_mean_later; [exact La2|apply prefixed_refl|exact M].
  - right. split; [reflexivity|]. eapply broken_inside; [eapply I_argument2; [exact I|apply I_self]|exact B].
Qed.

(** * Wrapping *)

Lemma wrap_outcome f n st L rest : wrap_name f <> "atom_term" -> outcome f st L rest (transform st n) ->
  outcome f st L rest (transform st (wrap f n)).
Proof.
  intros N O. unfold wrap. destruct (String.eqb_spec (wrap_name f) "") as [_|D]; [exact O|].
  assert (K : forall st v, Actions.call ord fresh (wrap_name f) st (Some [v]) = pass_term st (Some [v])).
  { intros st0 v. destruct f; try (exfalso; apply N; reflexivity); try (exfalso; apply D; reflexivity); reflexivity. }
  rewrite transform_node, all_cons. destruct O as [(st' & t & R & F & La & M)|(R & B)]; rewrite R; cbn [bind Actions.transform_all].
  - rewrite K. unfold pass_term. cbn [all_args bind arg nth_error as_term]. left. exists st', t. auto.
  - right. auto.
Qed.

Lemma wrap_evaluates f n : wrap_name f <> "atom_term" -> evaluates f n -> evaluates f (wrap f n).
Proof. intros N E st L rest F. apply wrap_outcome; [exact N|]. apply E, F. Qed.

(** * Forms *)

Definition named_well (f : form) : Prop :=
  (forall s, In s (words f) -> known s) /\ (forall s, In s (operators f) -> calls s).

Definition judged (f : form) : Prop := (proper f \/ operand f) -> named_well f ->
  evaluates f (term_node f) /\ (wrap_name f <> "atom_term" -> evaluates f (core f)).

Lemma judge f : wrap_name f <> "atom_term" -> evaluates f (core f) ->
  evaluates f (term_node f) /\ (wrap_name f <> "atom_term" -> evaluates f (core f)).
Proof. intros N E. split; [apply wrap_evaluates; assumption|intros _; exact E]. Qed.

Lemma parts_evaluate l : Forall judged l -> Forall (fun f => proper f \/ operand f) l ->
  (forall f, In f l -> named_well f) -> Forall (fun f => evaluates f (wrap f (core f))) l.
Proof.
  intros J P N. induction J as [|f l Jf _ IH]; [constructor|]. inversion P; subst.
  constructor; [apply Jf; [assumption|]; apply N; left; reflexivity|]. apply IH; [assumption|]. intros g I. apply N. right. exact I.
Qed.

Lemma named_parts l : (forall s, In s (concat (map words l)) -> known s) -> (forall s, In s (concat (map operators l)) -> calls s) ->
  forall f, In f l -> named_well f.
Proof.
  intros A B f I. split; intros s H.
  - apply A. apply in_concat. exists (words f). split; [apply in_map, I|exact H].
  - apply B. apply in_concat. exists (operators f). split; [apply in_map, I|exact H].
Qed.

Lemma all_proper l : Forall proper l -> Forall (fun f => proper f \/ operand f) l.
Proof. intros F. eapply Forall_impl; [|exact F]. auto. Qed.

Lemma not_list_infix c : infix c -> c <> CList.
Proof. intros [H| -> ]; [|discriminate]. intros ->. cbn in H. repeat (destruct H as [H|H]; [discriminate H|]). contradiction. Qed.

Lemma expression_call c : infix c -> forall st vs, Actions.call ord fresh (expr_name c) st (Some vs) = prefix ord st (VConnector c :: vs).
Proof.
  intros I st vs. assert (C : In c [Conjunction; Disjunction; ParallelEvents; SequentialEvents; IntensionalIntersection; ExtensionalIntersection; Product]).
  { destruct I as [I| -> ]; [|cbn; auto 10]. unfold listing in I. cbn in I |- *. tauto. }
  cbn in C. repeat (destruct C as [<-|C]; [reflexivity|]). contradiction.
Qed.

Lemma infix_difference c : infix c -> is_difference c = false.
Proof.
  intros I. assert (C : In c [Conjunction; Disjunction; ParallelEvents; SequentialEvents; IntensionalIntersection; ExtensionalIntersection; Product]).
  { destruct I as [I| -> ]; [|cbn; auto 10]. unfold listing in I. cbn in I |- *. tauto. }
  cbn in C. repeat (destruct C as [<-|C]; [reflexivity|]). contradiction.
Qed.

Lemma list_call c name : name = "set" \/ name = "multi_prefix" \/ name = "int_image" \/ name = "ext_image" ->
  forall st ts, Actions.call ord fresh name st (Some (VConnector c :: map VTerm ts)) =
    bind (compound ord true c ts) (fun t => Ok (st, VTerm t)).
Proof.
  intros Q st ts. transitivity (prefix ord st (VConnector c :: map VTerm ts)).
  - destruct Q as [ -> | [ -> | [ -> | -> ] ] ]; reflexivity.
  - unfold prefix. cbn [arg nth_error bind as_connector skipn]. rewrite terms_of_terms. reflexivity.
Qed.

Lemma prefixed_call c l : proper (Prefixed c l) ->
  c <> CList /\ forall st ts, length ts = length l -> Actions.call ord fresh (prefix_name c) st (Some (VConnector c :: map VTerm ts)) =
    bind (compound ord true c ts) (fun t => Ok (st, VTerm t)).
Proof.
  intros P. inversion P as [| | | | | | | | |f Pf|c0 l0 Li Le F|c0 l0 Q N F|c0 a b D A B| | |]; subst.
  - split; [discriminate|]. intros st ts E. destruct ts as [|t [|? ?]]; try discriminate E. reflexivity.
  - split; [intros ->; cbn in Li; intuition discriminate|]. intros st ts _. apply list_call.
    unfold listing in Li. cbn in Li. right. left. destruct c; try reflexivity; intuition discriminate.
  - split; [intros ->; destruct Q as [Q|[Q|Q]]; discriminate Q|]. intros st ts _. apply list_call.
    destruct Q as [ -> | [ -> | -> ] ]; cbn; auto.
  - split; [intros ->; destruct D as [D|D]; discriminate D|]. intros st ts E. destruct ts as [|t1 [|t2 [|? ?]]]; try discriminate E.
    destruct D as [ -> | -> ]; reflexivity.
Qed.

Lemma set_call c : set_connector c -> c <> CList.
Proof. intros [ -> | -> ]; discriminate. Qed.

(* All forms are evaluated to what they mean. *)
Lemma forms_evaluate f : judged f.
Proof using Horder Hfresh Hops Hroom.
  assert (Parts : forall l, Forall judged l -> Forall (fun f => proper f \/ operand f) l ->
    (forall s, In s (concat (map words l)) -> known s) /\ (forall s, In s (concat (map operators l)) -> calls s) ->
    Forall (fun f => evaluates f (wrap f (core f))) l).
  { intros l J P (A & B). apply parts_evaluate; [exact J|exact P|]. apply named_parts; assumption. }
  induction f as [s|k s|s|s|x c a b Ia Ib|s l I|s l I|c l I|f I|c l I|l I|c l I|c l I] using form_ind'; intros P (K & U).
  - assert (W : word s) by (destruct P as [P|P]; [inversion P; assumption|]; inversion P as [? P'|]; inversion P'; assumption).
    split; [|intros N; exfalso; apply N; reflexivity]. apply word_evaluates; [exact W|]. apply K. left. reflexivity.
  - assert (W : word s) by (destruct P as [P|P]; [inversion P; assumption|]; inversion P as [? P'|]; inversion P'; assumption).
    apply judge; [discriminate|]. apply variable_evaluates, W.
  - assert (W : word s) by (destruct P as [P|P]; [inversion P; assumption|]; inversion P as [? P'|]; inversion P'; assumption).
    apply judge; [discriminate|]. apply operator_evaluates; [exact W|]. apply U. left. reflexivity.
  - assert (W : exists n, whole (list_ascii_of_string s) n /\ -2147483648 <= n <= 2147483647).
    { destruct P as [P|P]; [inversion P; eauto|]. inversion P as [? P'|]; inversion P'; eauto. }
    destruct W as (n & W & R). apply judge; [discriminate|]. eapply interval_evaluates; eassumption.
  - assert (W : proper a /\ proper b) by (destruct P as [P|P]; [inversion P; auto|]; inversion P as [? P'|]; inversion P'; auto).
    destruct W as (Pa & Pb). apply judge; [discriminate|]. cbn [core]. apply relation_evaluates.
    + apply Ia; [auto|]. split; intros s H; [apply K|apply U]; cbn [words operators]; apply in_or_app; auto.
    + apply Ib; [auto|]. split; intros s H; [apply K|apply U]; cbn [words operators]; apply in_or_app; auto.
  - assert (W : word s /\ Forall proper l) by (destruct P as [P|P]; [inversion P; auto|]; inversion P as [? P'|]; inversion P'; auto).
    destruct W as (W & Pl). apply judge; [discriminate|]. cbn [core].
    apply (invocation_evaluates s l (fun f => wrap f (core f))); [exact W|apply U; left; reflexivity|].
    apply Parts; [exact I|apply all_proper, Pl|]. split; [exact K|]. intros q H. apply U. right. exact H.
  - assert (W : word s /\ Forall proper l) by (destruct P as [P|P]; [inversion P; auto|]; inversion P as [? P'|]; inversion P'; auto).
    destruct W as (W & Pl). apply judge; [discriminate|]. cbn [core].
    apply (application_evaluates s l (fun f => wrap f (core f))); [exact W|apply U; left; reflexivity|].
    apply Parts; [exact I|apply all_proper, Pl|]. split; [exact K|]. intros q H. apply U. right. exact H.
  - assert (W : set_connector c /\ Forall proper l) by (destruct P as [P|P]; [inversion P; auto|]; inversion P as [? P'|]; inversion P'; auto).
    destruct W as (W & Pl). apply judge; [discriminate|]. cbn [core]. intros st L rest F.
    apply (prefix_outcome (Braces c l) c l (fun f => wrap f (core f)) st L rest "set" eq_refl); [|apply con_value, set_call, W| |exact F].
    + intros st0 ts _. apply list_call. auto.
    + apply Parts; [exact I|apply all_proper, Pl|]. split; assumption.
  - assert (W : proper f) by (destruct P as [P|P]; [inversion P; auto|]; inversion P as [? P'|]; inversion P'; auto).
    apply judge; [discriminate|]. cbn [core]. intros st L rest F.
    assert (E : counts [f] = count (Negated f)) by (unfold counts, count; cbn [map concat words operators]; rewrite !app_nil_r; reflexivity).
    eapply outcome_ext;
      [|apply (prefix_outcome (Negated f) Negation [f] (fun f => wrap f (core f)) st L rest "negation" eq_refl); [|reflexivity| |rewrite E; exact F]].
    + intros k. unfold grow. cbn [map concat variables]. rewrite app_nil_r. reflexivity.
    + intros st0 ts Le. destruct ts as [|t [|? ?]]; try discriminate Le. reflexivity.
    + constructor; [|constructor]. apply I; [auto|]. split; assumption.
  - assert (W : proper (Prefixed c l)) by (destruct P as [P|P]; [exact P|]; inversion P; assumption).
    assert (Pl : Forall (fun f => proper f \/ operand f) l).
    { inversion W; subst; first [apply all_proper; assumption | repeat (apply Forall_cons; [auto|]); apply Forall_nil]. }
    destruct (prefixed_call c l W) as (N & C). apply judge; [discriminate|]. cbn [core]. intros st L rest F.
    apply (prefix_outcome (Prefixed c l) c l (fun f => wrap f (core f)) st L rest (prefix_name c) eq_refl); [exact C|apply con_value, N| |exact F].
    apply Parts; [exact I|exact Pl|]. split; assumption.
  - assert (W : l <> [] /\ Forall proper l).
    { destruct P as [P|P]; [|inversion P as [? P'|]; subst; rename P' into Q; clear P; rename Q into P];
        inversion P; subst; (split; [discriminate|assumption]). }
    destruct W as (N & Pl). apply judge; [discriminate|]. cbn [core]. intros st L rest F.
    apply (infix_outcome (Tuple l) Product l (fun f => wrap f (core f)) st L rest "multi_prefix_product" eq_refl N); [reflexivity| |exact F].
    apply Parts; [exact I|apply all_proper, Pl|]. split; assumption.
  - assert (W : proper (Joined c l)) by (destruct P as [P|P]; [exact P|]; inversion P; assumption).
    apply judge; [discriminate|]. cbn [core].
    inversion W as [| | | | | | | | | | | | | |c0 l0 If Le Fl|c0 a b D A B]; subst.
    + rewrite (infix_difference c If). intros st L rest F.
      assert (O : outcome (Joined c l) st (grow L (fun k => concat (map (variables k) l))) rest
        (transform st (Node (expr_name c) (map (fun f => wrap f (core f)) l)))).
      { apply infix_outcome with (c := c); [reflexivity|intros ->; cbn in Le; lia|apply expression_call, If| |exact F].
        apply Parts; [exact I|apply all_proper, Fl|]. split; assumption. }
      rewrite transform_node, all_cons. destruct O as [(st' & t & R & F' & La & M)|(R & B)]; rewrite R; cbn [bind Actions.transform_all].
      * change (Actions.call ord fresh "multi_infix" st' (Some [VTerm t])) with (Ok (st', VTerm t)). left. exists st', t. auto.
      * right. auto.
    + assert (Q : is_difference c = true) by (destruct D as [ -> | -> ]; reflexivity). rewrite Q. intros st L rest F.
      apply (between_outcome (Joined c [a; b]) c a b (fun f => wrap f (core f)) st L rest eq_refl).
      * intros st0. apply con_value. destruct D as [ -> | -> ]; discriminate.
      * destruct D as [ -> | -> ]; discriminate.
      * apply Parts; [exact I|repeat (apply Forall_cons; [auto|]); apply Forall_nil|]. split; assumption.
      * exact F.
  - assert (W : infix c /\ (2 <= length l)%nat /\ Forall proper l).
    { destruct P as [P|P]; [inversion P|]. inversion P as [? P'|]; [inversion P'|auto]. }
    destruct W as (If & Le & Fl). apply judge; [discriminate|]. cbn [core]. intros st L rest F.
    apply infix_outcome with (c := c); [reflexivity|intros ->; cbn in Le; lia|apply expression_call, If| |exact F].
    apply Parts; [exact I|apply all_proper, Fl|]. split; assumption.
Qed.
End Evaluation.
