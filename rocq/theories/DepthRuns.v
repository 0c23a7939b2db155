(* A family of inputs whose chains of siblings get longer and longer. *)
From Coq Require Import ZArith String Ascii List Bool Lia.
From Verif Require Import Base Tables Parser Grammar ParserSpec ParserFacts ParserFacts3 ParserRuns Depth.
Import ListNotations.
Open Scope string_scope.
Open Scope list_scope.

Fixpoint times (n : nat) (s : string) : string :=
  match n with O => "" | S n' => (s ++ times n' s)%string end.

(* A product of n + 2 times the same word, in prefix form. *)
Definition long_product (n : nat) : string := ("(*,a,a" ++ times n ",a" ++ ").")%string.

Fixpoint go (k : nat) (c : config) : res (config + outcome * list ascii) :=
  match k with
  | O => Ok (inl c)
  | S k' => match step c with Ok (inl c') => go k' c' | r => r end
  end.

Lemma go_run k : forall c c' m, go k c = Ok (inl c') -> run (k + m) c = run m c'.
Proof.
  induction k as [|k IH]; cbn [go run Nat.add]; intros c c' m E.
  - inversion E; subst. reflexivity.
  - destruct (step c) as [[d|o]| | |]; try discriminate. cbn [bind]. apply IH, E.
Qed.

Lemma run_enough k : forall c o m, run k c = Ok o -> run m c <> OutOfFuel -> run m c = Ok o.
Proof.
  induction k as [|k IH]; intros c o m E N; [discriminate|].
  destruct m as [|m]; [exfalso; apply N; reflexivity|].
  cbn [run] in *. destruct (step c) as [[d|p]| | |]; cbn [bind] in *; try discriminate; [|exact E].
  apply IH; assumption.
Qed.

Definition word : ast := Node "atom_term" [Leaf "string_raw" "a"].

Definition within (l : list ast) (t : list ascii) : config :=
  Config [Cell 162 []; Cell 144 l; Cell 125 [word]; Cell 54 []; Cell 26 [Node "con_product" []];
          Cell 4 []; Cell 2 []; Cell 0 []] t 2 1 (Some 128%nat) Look.

Lemma go_start x y R : (x = "," /\ y = "a" \/ x = ")" /\ y = ".")%char ->
  go 41 (Config [Cell 0 []] ("(" :: "*" :: "," :: "a" :: "," :: "a" :: x :: y :: R)%char 0 0 (Some 128%nat) Look)
    = Ok (inl (within [word] (x :: y :: R))).
Proof. intros [[-> ->]|[-> ->]]; vm_compute; reflexivity. Qed.

Lemma go_loop a l x y R : (x = "," /\ y = "a" \/ x = ")" /\ y = ".")%char ->
  go 15 (within (a :: l) ("," :: "a" :: x :: y :: R)%char) = Ok (inl (within (a :: l ++ [word]) (x :: y :: R))).
Proof. intros [[-> ->]|[-> ->]]; vm_compute; reflexivity. Qed.

Definition product_tree (l : list ast) : list ast :=
  [Node "task" [Node "judgement" [Node "compound_term"
     [Node "multi_prefix" (Node "con_product" [] :: word :: l)]]]].

Lemma run_end a l : run 40 (within (a :: l) (")" :: "." :: nil)%char)
  = Ok (Accepted (product_tree (a :: (l ++ []) ++ [])), []).
Proof. vm_compute. reflexivity. Qed.

Fixpoint pairs (n : nat) : list ascii :=
  match n with O => [")"; "."]%char | S n' => ("," :: "a" :: pairs n')%char end.

Lemma pairs_shape n : exists x y R, pairs n = x :: y :: R /\
  (x = "," /\ y = "a" \/ x = ")" /\ y = ".")%char.
Proof. destruct n; cbn [pairs]; eexists _, _, _; split; try reflexivity; auto. Qed.

Lemma run_pairs n : forall a l, exists k,
  run k (within (a :: l) (pairs n)) = Ok (Accepted (product_tree (a :: l ++ repeat word n)), []).
Proof.
  induction n as [|n IH]; intros a l.
  - exists 40%nat. cbn [pairs repeat]. rewrite run_end, !app_nil_r. reflexivity.
  - destruct (IH a (l ++ [word])) as [k E]. exists (15 + k)%nat. cbn [pairs].
    destruct (pairs_shape n) as (x & y & R & P & C). rewrite P in *.
    rewrite (go_run 15 _ _ k (go_loop a l x y R C)), E. cbn [repeat].
    rewrite <- app_assoc. reflexivity.
Qed.

Lemma line_times n : line (times n ",a" ++ ").")%string = pairs n.
Proof. induction n as [|n IH]; [reflexivity|]. cbn. rewrite IH. reflexivity. Qed.

Lemma long_product_parsed n :
  parse allocated [] (long_product n) = Ok (Accepted (product_tree (word :: repeat word n)), []).
Proof.
  destruct (run_pairs n word []) as [k E].
  apply (run_enough (41 + k)).
  - unfold start, long_product. cbn [length app].
    assert (L : line ("(*,a,a" ++ times n ",a" ++ ").")%string
                = ("(" :: "*" :: "," :: "a" :: "," :: "a" :: pairs n)%char)
      by (rewrite <- line_times; reflexivity).
    rewrite L. destruct (pairs_shape n) as (x & y & R & P & C). rewrite P in *.
    unfold allocated. rewrite (go_run 41 _ _ k (go_start x y R C)). exact E.
  - apply (parse_steps allocated [] (long_product n)). cbn. lia.
Qed.

Lemma free_node_next a k : (S k <= free_node a k)%nat.
Proof. destruct a; cbn [free_node]; lia. Qed.

Lemma free_node_child name l k : (S (free_calls l) <= free_node (Node name l) k)%nat.
Proof. cbn [free_node]. unfold free_calls. lia. Qed.

Lemma free_calls_length l : (length l < free_calls l)%nat.
Proof.
  induction l as [|a l IH]; cbn; [lia|]. pose proof (free_node_next a (free_calls l)).
  unfold free_calls in *. lia.
Qed.

Lemma free_unbounded N : exists input trees,
  parse allocated [] input = Ok (Accepted trees, []) /\ (N < free_calls trees)%nat.
Proof.
  exists (long_product N). eexists. split; [apply long_product_parsed|].
  unfold product_tree, free_calls. cbn [fold_right].
  pose proof (free_calls_length (Node "con_product" [] :: word :: word :: repeat word N)) as L.
  cbn [length] in L. rewrite repeat_length in L.
  pose proof (free_node_child "multi_prefix" (Node "con_product" [] :: word :: word :: repeat word N) 1).
  set (m := Node "multi_prefix" _) in *.
  pose proof (free_node_child "compound_term" [m] 1). set (m2 := Node "compound_term" _) in *.
  pose proof (free_node_child "judgement" [m2] 1). set (m3 := Node "judgement" _) in *.
  pose proof (free_node_child "task" [m3] 1).
  unfold free_calls in *. cbn [fold_right] in *. lia.
Qed.

(* Every active call is on a node of its own, but for one on no node. *)
Fixpoint count_nodes (a : ast) : nat :=
  match a with
  | Leaf _ _ => 1
  | Node _ l => S (list_sum (map count_nodes l))
  end.

Lemma free_node_count : forall a k s, (k <= s + 1)%nat -> (free_node a k <= count_nodes a + s + 1)%nat.
Proof.
  fix IH 1. intros [e t|e l] k s H; cbn [free_node count_nodes]; [lia|].
  assert (G : (fold_right free_node 1 l <= list_sum (map count_nodes l) + 1)%nat).
  { clear H. induction l as [|a l IHl]; cbn; [lia|].
    pose proof (IH a (fold_right free_node 1%nat l) (list_sum (map count_nodes l)) IHl).
    unfold list_sum in *. cbn in *. lia. }
  lia.
Qed.

Lemma free_calls_count l : (free_calls l <= list_sum (map count_nodes l) + 1)%nat.
Proof.
  unfold free_calls. induction l as [|a l IH]; [cbn; lia|].
  pose proof (free_node_count a (fold_right free_node 1%nat l) (list_sum (map count_nodes l)) IH).
  cbn [fold_right map]. unfold list_sum in *. cbn [fold_right]. lia.
Qed.

Lemma count_size t : derivation t -> (list_sum (map count_nodes (projection t)) <= size t)%nat.
Proof.
  intros D. induction D using derivation_ind'.
  - cbn [projection size]. destruct (token_name sym =? "")%string; cbn; lia.
  - cbn [projection size]. rewrite H.
    assert (C : (list_sum (map count_nodes (concat (map projection kids))) <= list_sum (map size kids))%nat).
    { clear - H2. induction H2 as [|k l Hk F IH]; [cbn; lia|].
      cbn [map concat]. rewrite map_app, list_sum_app. unfold list_sum in *. cbn [fold_right]. lia. }
    destruct (name =? "")%string; [lia|].
    cbn [map count_nodes]. unfold list_sum at 1. cbn [fold_right]. lia.
Qed.

Lemma free_bounded room input trees rest :
  (match room with Some n => 1 <= n | None => True end)%nat ->
  parse room [] input = Ok (Accepted trees, rest) -> (free_calls trees <= 9 * length (line input) + 3)%nat.
Proof.
  intros H E. destruct (accepted room input trees rest H E) as (t & D & R & T & ->).
  pose proof (free_calls_count (projection t)). pose proof (count_size t D).
  pose proof (size_bound t D) as B. rewrite R, T in B.
  let w := eval vm_compute in (weight 59) in change (weight 59) with w in B. lia.
Qed.
