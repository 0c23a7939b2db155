(* What main.cpp prints. *)
From Coq Require Import ZArith Lia String Ascii List Bool.
From Verif Require Import Base Enums Term TermFacts Terms Maps MapsFacts Compound CompoundFacts Float Actions ActionsSpec ActionsFacts3 Printer PrinterSpec PrinterFacts PrinterFacts2 PrinterFacts4.
From Verif Require Import Forms FormFacts5 FormFacts6 FormFacts8 Sessions SessionsSpec SessionsFacts SessionsFacts2 SessionsFacts3 SessionsFacts4.
From Verif Require Import Interning InterningSpec InterningFacts InterningFacts2 InterningFacts3.
From Verif Require Evidence Parser Truth.
Import ListNotations.
Open Scope string_scope.
Open Scope list_scope.
Local Open Scope Z_scope.

(* ---- a task without numbers ---- *)

Definition line (c : string) : string := ("$0.80;0.80;0.50$ " ++ c ++ ". %1.000;0.900%")%string.

Lemma usual_budget : let p := rounded (to32 (to64 (literal 8 10))) in let q := rounded (literal 5 10) in
  (exists x, channel p = Ok x) /\ (exists x, channel_quality q = Ok x) /\ fixed 2 p = "0.80" /\ fixed 2 q = "0.50".
Proof. vm_compute. split; [eexists; reflexivity|]. split; [eexists; reflexivity|]. split; reflexivity. Qed.

Lemma usual_truth : fixed 3 (literal 1 1) = "1.000" /\ fixed 3 (literal 9 10) = "0.900".
Proof. vm_compute. split; reflexivity. Qed.

Lemma format_task p d q s : format "${:.2f};{:.2f};{:.2f}$ {}" [AFloat p; AFloat d; AFloat q; AText s] =
  Ok ("$" ++ fixed 2 p ++ ";" ++ fixed 2 d ++ ";" ++ fixed 2 q ++ "$ " ++ s)%string.
Proof. unfold format. cbn -[fixed]. rewrite ?PrinterFacts.app_empty. reflexivity. Qed.

Lemma usual_line ord names st w n f tk c : says ord w n (Written [] f Judgement None []) tk ->
  interpret names false (content (sentence_of tk)) = Ok c -> interpret_task names false st tk = Ok (line c).
Proof.
  intros [_ M S V B] E. cbn [mark tense_part truth_part budget_part] in M, S, V, B. cbn [budgeted] in B. destruct S as (_ & S).
  destruct V as (v & Vv & V1 & V2 & _). cbn [nth_error] in V1, V2. unfold ActionsSpec.kept in V1, V2.
  assert (X : interpret_sentence names false st (sentence_of tk) = Ok (c ++ ". %1.000;0.900%")%string).
  { unfold interpret_sentence, interpret_truth. rewrite E, M, Vv, V1, V2. cbn [bind]. rewrite format_truth. cbn [bind].
    rewrite S. cbn [bind]. rewrite format_sentence. rewrite (proj1 usual_truth), (proj2 usual_truth). reflexivity. }
  destruct usual_budget as ((x & X1) & (y & X2) & X3 & X4).
  unfold interpret_task. rewrite X, B. cbn [priority durability quality]. rewrite X1, X2. cbn [bind].
  rewrite format_task, X3, X4. reflexivity.
Qed.

Lemma str_assoc (a b c : string) : (a ++ b ++ c = (a ++ b) ++ c)%string.
Proof. induction a as [|x a IH]; cbn; [reflexivity|]. rewrite IH. reflexivity. Qed.

(* ---- two atoms in a conjunction ---- *)

Lemma tlt_atoms a b : thash (Atom false a) <> thash (Atom false b) ->
  tlt (Atom false a) (Atom false b) = (thash (Atom false a) <? thash (Atom false b)).
Proof. intros D. apply Z.eqb_neq in D. unfold tlt. rewrite D. reflexivity. Qed.

Lemma pair_sorted a b : thash (Atom false a) < thash (Atom false b) ->
  terms_set [Atom false a; Atom false b] = [Atom false a; Atom false b] /\
  terms_set [Atom false b; Atom false a] = [Atom false a; Atom false b].
Proof.
  intros L. assert (T : tlt (Atom false a) (Atom false b) = true) by (rewrite tlt_atoms by lia; apply Z.ltb_lt; exact L).
  assert (F : tlt (Atom false b) (Atom false a) = false) by (rewrite tlt_atoms by lia; apply Z.ltb_ge; lia).
  unfold terms_set. cbn [fold_left sinsert]. rewrite T, F. split; reflexivity.
Qed.

Lemma pair_built ord a b : any_order ord -> thash (Atom false a) < thash (Atom false b) ->
  compound_of_terms ord true Conjunction [Atom false a; Atom false b] = Ok (Comp Conjunction [Atom false a; Atom false b]).
Proof.
  intros Ho L. destruct (pair_sorted a b L) as (T & _). unfold compound_of_terms, fuel_for. cbn [map depth list_max fold_right Nat.max compound_fuel].
  unfold preprocess. cbn [is_reducible negb is_commutative]. unfold flatten_set. cbn [flat_map has_connector app]. rewrite T.
  unfold categories. cbn [fold_left category cat_add okey_eqb app]. rewrite (any_order_single ord _ Ho).
  cbn [norm_all norm_entry map bind]. cbn [app length Nat.ltb Nat.leb]. cbn [collect bind]. rewrite !CompoundFacts3.terms_set_one.
  cbn [app length Nat.ltb Nat.leb]. rewrite T. reflexivity.
Qed.

Lemma pair_compound ord a b : any_order ord -> thash (Atom false a) <> thash (Atom false b) ->
  compound ord true Conjunction [Atom false a; Atom false b] = Ok (Comp Conjunction [Atom false a; Atom false b]) \/
  compound ord true Conjunction [Atom false a; Atom false b] = Ok (Comp Conjunction [Atom false b; Atom false a]).
Proof.
  intros Ho D. unfold compound, mk_terms. cbn [is_commutative].
  destruct (Z.lt_total (thash (Atom false a)) (thash (Atom false b))) as [L|[L|L]]; [left|contradiction|right].
  - rewrite (proj1 (pair_sorted a b L)). apply pair_built; assumption.
  - rewrite (proj2 (pair_sorted b a L)). apply pair_built; assumption.
Qed.

(* ---- the texts ---- *)

Definition statement_case : task_form * nat * list nat :=
  (Written [] (Relation true Inheritance (Word "robin") (Word "bird")) Judgement None [], O, [0; 0; 0; 0; 0; 0]%nat).

Definition pair_case (a b : string) : task_form * nat * list nat :=
  (Written [] (Prefixed Conjunction [Word a; Word b]) Judgement None [], O, [0; 0; 1; 0; 1; 0; 0; 0]%nat).

Definition cases : list (task_form * nat * list nat) :=
  [statement_case; pair_case "A" "B"; pair_case "A1" "B1"; pair_case "A2" "B2"].

Lemma cases_texts : map text_for cases = test_cases.
Proof. reflexivity. Qed.

Ltac easy_word := left; split; [discriminate|]; repeat constructor; cbn; try lia; let H := fresh in intros H; repeat (destruct H as [H|H]; [discriminate H|]); exact H.

Lemma case_words : Forall word ["robin"; "bird"; "A"; "B"; "A1"; "B1"; "A2"; "B2"].
Proof. repeat (apply Forall_cons; [easy_word|]). constructor. Qed.

Lemma word_of s : In s ["robin"; "bird"; "A"; "B"; "A1"; "B1"; "A2"; "B2"] -> word s.
Proof. intros H. pose proof case_words as F. rewrite Forall_forall in F. exact (F s H). Qed.

Lemma usual_proper f : proper f -> (forall k s, f <> Placeholder k s) -> proper_task (Written [] f Judgement None []).
Proof. intros P N. constructor; cbn; auto; try discriminate. Qed.

Lemma pair_alone a b : In a ["robin"; "bird"; "A"; "B"; "A1"; "B1"; "A2"; "B2"] -> In b ["robin"; "bird"; "A"; "B"; "A1"; "B1"; "A2"; "B2"] ->
  (String.length a <= 5)%nat -> (String.length b <= 5)%nat -> alone Parser.allocated (pair_case a b).
Proof.
  intros A B La Lb. split; [|split; [|split]].
  - right. split; [reflexivity|]. unfold text_for, pair_case. repeat (destruct A as [<-|A]; [|]); try contradiction;
      repeat (destruct B as [<-|B]; [cbn; lia|]); contradiction.
  - split; [|reflexivity]. apply usual_proper; [|discriminate]. apply F_listing; [left; reflexivity|cbn; lia|].
    repeat (apply Forall_cons; [apply F_word, word_of; assumption|]); constructor.
  - cbn. lia.
  - intros s [].
Qed.

Lemma cases_alone : Forall (alone Parser.allocated) cases.
Proof.
  unfold cases. apply Forall_cons; [|repeat (apply Forall_cons; [apply pair_alone; cbn; tauto || lia|]); constructor].
  split; [|split; [|split]].
  - right. split; [reflexivity|]. cbn. lia.
  - split; [|reflexivity]. apply usual_proper; [|discriminate]. apply F_relation; apply F_word, word_of; cbn; tauto.
  - cbn. lia.
  - intros s [].
Qed.

Section Main.
Variable ord : list (option connector * list term) -> list (option connector * list term).
Hypothesis Horder : any_order ord.

(* Atoms with different names have different hash values. *)
Lemma names_hashes w ops n m a b : in_order w ops -> ~ operator_name n -> ~ operator_name m -> n <> m ->
  handed_out w n a -> handed_out w m b -> thash (Atom false a) <> thash (Atom false b).
Proof.
  intros O N M D A B E. destruct (order_handles _ _ O n a N A) as (E1 & _). destruct (order_handles _ _ O m b M B) as (E2 & _).
  destruct (order_names _ _ O n _ N E1) as (_ & _ & _ & _ & _ & D1 & _). destruct (order_names _ _ O m _ M E2) as (_ & _ & _ & _ & _ & D2 & _).
  unfold key_of in D1, D2. rewrite E in D1. rewrite D1 in D2. injection D2 as D2. exact (D D2).
Qed.

Lemma known_names w ops n m a b names k c : in_order w ops -> ~ operator_name n -> ~ operator_name m ->
  handed_out w n a -> handed_out w m b ->
  (forall n a', handed_out w n a' -> In a' [a; b] -> names (key_of a') = Some n) ->
  (forall k n, names k = Some n -> exists a', In a' [a; b] /\ key_of a' = k /\ handed_out w n a') ->
  names k = Some c -> c = n \/ c = m.
Proof.
  intros O N M A B N1 N2 E. destruct (N2 _ _ E) as (a' & I & K & H). pose proof (N1 _ _ H I) as X.
  destruct I as [<-|[<-|[]]].
  - left. rewrite (N1 _ _ A) in X by (left; reflexivity). congruence.
  - right. rewrite (N1 _ _ B) in X by (right; left; reflexivity). congruence.
Qed.

Lemma key_atom op a : key (Atom op a) = key_of a.
Proof. unfold key, key_of. rewrite !atom_hash. reflexivity. Qed.

Lemma statement_printed n w ops tk names : in_order w ops -> says ord w n (task_in statement_case) tk ->
  (forall n a, handed_out w n a -> In a (addresses (content (sentence_of tk))) -> names (key_of a) = Some n) ->
  (forall k n, names k = Some n -> exists a, In a (addresses (content (sentence_of tk))) /\ key_of a = k /\ handed_out w n a) ->
  exists c, interpret names false (content (sentence_of tk)) = Ok c /\ In c ["<robin --> bird>"; "robin"; "bird"].
Proof.
  intros O S N1 N2. pose proof (says_content _ _ _ _ _ S) as M. cbn [statement_case task_in fst body] in M. clear S.
  revert M N1 N2. generalize (content (sentence_of tk)). intros t0 M N1 N2.
  inversion M as [| | | |ang c0 f g s p t Ms Mp R| | |f c0 l ts t As]; subst; [|discriminate As].
  inversion Ms as [s0 a A| | | | | | |f c0 l ts t As]; subst; [|discriminate As].
  inversion Mp as [s0 b B| | | | | | |f c0 l ts t As]; subst; [|discriminate As].
  inversion R as [c0 s p W1 W2| | |]; subst. cbn [addresses app] in N1, N2. clear R M Ms Mp.
  assert (Nr : ~ operator_name "robin") by (apply word_plain_name, word_of; cbn; tauto).
  assert (Nb : ~ operator_name "bird") by (apply word_plain_name, word_of; cbn; tauto).
  destruct (names (key (Stmt Inheritance (Atom false a) (Atom false b)))) as [c|] eqn:E.
  - exists c. split; [apply shadowed_statement; exact E|]. destruct (known_names _ _ _ _ _ _ _ _ _ O Nr Nb A B N1 N2 E) as [ -> | -> ]; cbn; tauto.
  - exists "<robin --> bird>". split; [|left; reflexivity]. rewrite interpret_statement by (exact E || reflexivity).
    rewrite (interpret_atom names false a "robin"), (interpret_atom names false b "bird"); [reflexivity|rewrite key_atom..].
    + apply N1; [exact B|cbn; tauto].
    + apply N1; [exact A|cbn; tauto].
Qed.

Lemma pair_printed x y n w ops tk names : word x -> word y -> x <> y -> in_order w ops -> says ord w n (task_in (pair_case x y)) tk ->
  (forall n a, handed_out w n a -> In a (addresses (content (sentence_of tk))) -> names (key_of a) = Some n) ->
  (forall k n, names k = Some n -> exists a, In a (addresses (content (sentence_of tk))) /\ key_of a = k /\ handed_out w n a) ->
  exists c, interpret names false (content (sentence_of tk)) = Ok c /\
    In c [("(&&, " ++ x ++ ", " ++ y ++ ")"); ("(&&, " ++ y ++ ", " ++ x ++ ")"); x; y]%string.
Proof using Horder.
  intros Wx Wy D O S N1 N2. pose proof (says_content _ _ _ _ _ S) as M. cbn [pair_case task_in fst body] in M. clear S.
  revert M N1 N2. generalize (content (sentence_of tk)). intros t0 M N1 N2.
  inversion M as [| | | | | | |f c0 l ts t As Ms C]; subst. injection As as <- <-.
  inversion Ms as [|f l t1 ts1 M1 Ms1]; subst. inversion Ms1 as [|f l t2 ts2 M2 Ms2]; subst. inversion Ms2; subst.
  inversion M1 as [s0 a A| | | | | | |f c0 l ts t As]; subst; [|discriminate As].
  inversion M2 as [s0 b B| | | | | | |f c0 l ts t As]; subst; [|discriminate As].
  pose proof (word_plain_name x Wx) as Nx. pose proof (word_plain_name y Wy) as Ny.
  pose proof (names_hashes _ _ _ _ _ _ O Nx Ny D A B) as Dh.
  assert (G : forall p q u v, handed_out w p u -> handed_out w q v -> ~ operator_name p -> ~ operator_name q ->
    t0 = Comp Conjunction [Atom false u; Atom false v] ->
    exists c, interpret names false t0 = Ok c /\ In c [("(&&, " ++ p ++ ", " ++ q ++ ")"); p; q]%string).
  { intros p q u v Hp Hq Np Nq E. rewrite E in *. cbn [addresses map concat app] in N1, N2.
    destruct (names (key (Comp Conjunction [Atom false u; Atom false v]))) as [c|] eqn:K.
    - exists c. split; [apply shadowed_compound; exact K|]. destruct (known_names _ _ _ _ _ _ _ _ _ O Np Nq Hp Hq N1 N2 K) as [ -> | -> ]; cbn; tauto.
    - eexists. split; [rewrite interpret_compound by (exact K || discriminate)|left; reflexivity].
      change (texts names [Atom false u; Atom false v]) with
        (bind (interpret names false (Atom false u)) (fun s => bind (bind (interpret names false (Atom false v)) (fun s => bind (Ok []) (fun v => Ok (s :: v)))) (fun v => Ok (s :: v)))).
      rewrite (interpret_atom names false u p), (interpret_atom names false v q); [cbn [bind between joined con_repr]; rewrite <- !str_assoc; reflexivity|rewrite key_atom..].
      + apply N1; [exact Hq|cbn; tauto].
      + apply N1; [exact Hp|cbn; tauto]. }
  destruct (pair_compound ord a b Horder Dh) as [E|E]; rewrite E in C; injection C as C; symmetry in C.
  - destruct (G x y a b A B Nx Ny C) as (c & E1 & I). exists c. split; [exact E1|]. cbn in I |- *. tauto.
  - destruct (G y x b a B A Ny Nx C) as (c & E1 & I). exists c. split; [exact E1|]. cbn in I |- *. tauto.
Qed.

Lemma inside_word g s : inside g (Word s) -> g = Word s.
Proof. intros H. inversion H as [| | | | |f' c l f As]; subst; [reflexivity|discriminate As]. Qed.

Lemma statement_free atom num : ~ stuck ord atom num (body (task_in statement_case)).
Proof.
  cbn [statement_case task_in fst body].
  assert (I : forall g, inside g (Relation true Inheritance (Word "robin") (Word "bird")) ->
    g = Relation true Inheritance (Word "robin") (Word "bird") \/ exists s, g = Word s).
  { intros g H. inversion H as [|x c a b Ha|x c a b Hb| | |f' c l f As]; subst; [left; reflexivity| | |discriminate As].
    - right. apply inside_word in Ha. eauto.
    - right. apply inside_word in Hb. eauto. }
  intros [g c l ts H As _ _|x c a b s H W _ _|x c a b p H W _ _]; destruct (I _ H) as [E|(s' & E)]; try (subst; discriminate); try discriminate E.
  - injection E as -> -> -> ->. destruct W as [W|W]; discriminate W.
  - injection E as -> -> -> ->. destruct W as [W|W]; discriminate W.
Qed.

Lemma pair_free x y w ops num : word x -> word y -> x <> y -> in_order w ops -> ~ stuck ord (handed_out w) num (body (task_in (pair_case x y))).
Proof using Horder.
  cbn [pair_case task_in fst body]. intros Wx Wy D O.
  assert (I : forall g, inside g (Prefixed Conjunction [Word x; Word y]) ->
    g = Prefixed Conjunction [Word x; Word y] \/ exists s, g = Word s).
  { intros g H. inversion H as [| | | | |f' c l f As If Hf]; subst; [left; reflexivity|]. injection As as <- <-.
    right. destruct If as [<-|[<-|[]]]; apply inside_word in Hf; eauto. }
  intros [g c l ts H As Ms C|z c a b s H W _ _|z c a b p H W _ _]; destruct (I _ H) as [E|(s' & E)]; try (subst; discriminate); try discriminate E.
  subst g. injection As as <- <-.
  inversion Ms as [|f l t1 ts1 M1 Ms1]; subst. inversion Ms1 as [|f l t2 ts2 M2 Ms2]; subst. inversion Ms2; subst.
  inversion M1 as [s0 a A| | | | | | |f c0 l ts t As]; subst; [|discriminate As].
  inversion M2 as [s0 b B| | | | | | |f c0 l ts t As]; subst; [|discriminate As].
  pose proof (names_hashes _ _ _ _ _ _ O (word_plain_name x Wx) (word_plain_name y Wy) D A B) as Dh.
  destruct (pair_compound ord a b Horder Dh) as [E|E]; rewrite E in C; discriminate C.
Qed.

(* What a line of a case may say *)
Definition expected (x : task_form * nat * list nat) (c : string) : Prop :=
  match body (task_in x) with
  | Prefixed _ [Word a; Word b] => In c [("(&&, " ++ a ++ ", " ++ b ++ ")"); ("(&&, " ++ b ++ ", " ++ a ++ ")"); a; b]%string
  | _ => In c ["<robin --> bird>"; "robin"; "bird"]
  end.

Lemma case_printed n x tk names : In x cases -> reads_as ord n (task_in x) tk names ->
  exists c, interpret names false (content (sentence_of tk)) = Ok c /\ expected x c.
Proof using Horder.
  intros I (w & ops & O & S & N1 & N2).
  destruct I as [<-|[<-|[<-|[<-|[]]]]].
  - exact (statement_printed n w ops tk names O S N1 N2).
  - apply (pair_printed "A" "B" n w ops tk names); try assumption; try discriminate; apply word_of; cbn; tauto.
  - apply (pair_printed "A1" "B1" n w ops tk names); try assumption; try discriminate; apply word_of; cbn; tauto.
  - apply (pair_printed "A2" "B2" n w ops tk names); try assumption; try discriminate; apply word_of; cbn; tauto.
Qed.

Lemma case_free x w ops num : In x cases -> in_order w ops -> ~ stuck ord (handed_out w) num (body (task_in x)).
Proof using Horder.
  intros I O. destruct I as [<-|[<-|[<-|[<-|[]]]]].
  - apply statement_free.
  - apply (pair_free "A" "B" w ops); try assumption; try discriminate; apply word_of; cbn; tauto.
  - apply (pair_free "A1" "B1" w ops); try assumption; try discriminate; apply word_of; cbn; tauto.
  - apply (pair_free "A2" "B2" w ops); try assumption; try discriminate; apply word_of; cbn; tauto.
Qed.

Lemma case_form x : In x cases -> exists f, task_in x = Written [] f Judgement None [].
Proof. intros [<-|[<-|[<-|[<-|[]]]]]; eexists; reflexivity. Qed.

Lemma lines_expected n l outs : incl l cases ->
  Forall2 (fun x out => exists st tk names, reads_as ord n (task_in x) tk names /\
    Evidence.to_int (Evidence.time st) = n /\ interpret_task names false st tk = Ok out) l outs ->
  Forall2 (fun x out => exists c, out = line c /\ expected x c) l outs.
Proof using Horder.
  intros Sub F. induction F as [|x out l outs' P F IH]; constructor.
  - destruct P as (st' & tk & names & R & _ & P). pose proof (Sub x (or_introl eq_refl)) as I.
    destruct (case_printed _ x tk names I R) as (c & Ec & X). exists c. split; [|exact X].
    destruct R as (w & ops & O & S & _). destruct (case_form x I) as (f & Ef). rewrite Ef in S.
    rewrite (usual_line ord names st' w _ f tk c S Ec) in P. injection P as <-. reflexivity.
  - apply IH. intros y Hy. apply Sub. right. exact Hy.
Qed.

Variable fresh : world -> Z.
Hypothesis Hfresh : thoughtful fresh.

(* C129 *)
Theorem main_lines st : atoms st = world0 ->
  exists d' c1 c2 c3 c4, rounds ord fresh Parser.allocated (Desk st [] []) test_cases = Ok (d', [line c1; line c2; line c3; line c4]) /\
    In c1 ["<robin --> bird>"; "robin"; "bird"] /\ In c2 ["(&&, A, B)"; "(&&, B, A)"; "A"; "B"] /\
    In c3 ["(&&, A1, B1)"; "(&&, B1, A1)"; "A1"; "B1"] /\ In c4 ["(&&, A2, B2)"; "(&&, B2, A2)"; "A2"; "B2"] /\
    tab (atoms (reader d')) = empty_table /\ held (atoms (reader d')) = [].
Proof using Horder Hfresh.
  intros E0. rewrite <- cases_texts.
  destruct (rounds_print ord Horder fresh Hfresh Parser.allocated (Desk st [] []) cases (or_start _ _ _ st E0) eq_refl cases_alone)
    as [(d' & outs & E & T & H & _ & F)|(_ & x & I & [(w & ops & O & St)|(tk & names & R & U)])].
  - pose proof (lines_expected _ cases outs (incl_refl _) F) as G.
    unfold cases in G. inversion G as [|? o1 ? ? (c1 & -> & X1) G1]; subst. inversion G1 as [|? o2 ? ? (c2 & -> & X2) G2]; subst.
    inversion G2 as [|? o3 ? ? (c3 & -> & X3) G3]; subst. inversion G3 as [|? o4 ? ? (c4 & -> & X4) G4]; subst. inversion G4; subst.
    exists d', c1, c2, c3, c4. split; [exact E|]. split; [exact X1|]. split; [exact X2|]. split; [exact X3|]. split; [exact X4|]. split; assumption.
  - exfalso. exact (case_free x w ops _ I O St).
  - exfalso. destruct (case_printed _ x tk names I R) as (c & Ec & _). rewrite U in Ec. discriminate Ec.
Qed.

End Main.
