(* How deep recursion goes when an input is read. *)
From Coq Require Import ZArith String Ascii List Bool Lia Permutation.
From Verif Require Import Base Enums Term Compound CompoundFacts Parser Actions ActionsCases Depth DepthSpec.
From Verif Require Import DepthFacts DepthRuns DepthFacts2 DepthFacts3 DepthCases.
Import ListNotations.
Open Scope string_scope.
Open Scope list_scope.
Local Open Scope nat_scope.

(* ---- C175 ---- *)
(* Whatever the length of the input: with n cells of parser stack there are at
   most 3 n - 13 calls of transform at once, 371 with the 128 cells allocated. *)
Theorem C175_transform_depth : forall n left input trees rest, 7 <= n ->
  parse (Some n) left input = Ok (Accepted trees, rest) -> transform_calls trees + 13 <= 3 * n.
Proof. exact transform_bounded. Qed.
Print Assumptions C175_transform_depth.

(* With the 128 cells the bound is attained. *)
Theorem C175_attained : exists input trees rest,
  parse allocated [] input = Ok (Accepted trees, rest) /\ transform_calls trees = 371.
Proof. exact (ex_intro _ (nested 121) nested_read). Qed.
Print Assumptions C175_attained.

Example C175_case : 7 <= 128 /\ exists trees rest,
  parse (Some 128) [] (nested 121) = Ok (Accepted trees, rest) /\ transform_calls trees = 371.
Proof. split; [lia|exact nested_read]. Qed.

(* ---- C176 ---- *)
(* ast_free is called within itself along a chain of siblings, and chains have
   no longest length. *)
Theorem C176_free_depth_refuted : forall bound, exists input trees,
  parse allocated [] input = Ok (Accepted trees, []) /\ bound < free_calls trees.
Proof. exact free_unbounded. Qed.
Print Assumptions C176_free_depth_refuted.

(* Missing: a bound that does not grow with the input. *)
Theorem C176_free_linear_partial : forall room input trees rest,
  (match room with Some n => 1 <= n | None => True end) ->
  parse room [] input = Ok (Accepted trees, rest) -> free_calls trees <= 9 * length (line input) + 3.
Proof. exact free_bounded. Qed.
Print Assumptions C176_free_linear_partial.

Example C176_case : (1 <= 128) /\
  parse (Some 128) [] (long_product 3) = Ok (Accepted (product_tree [word; word; word; word]), []) /\
  free_calls (product_tree [word; word; word; word]) = 12.
Proof. split; [lia|]. split; [exact (long_product_parsed 3)|reflexivity]. Qed.

(* ---- C177 ---- *)
(* With n cells of parser stack nothing is read that has terms more than
   2 n - 13 levels deep, 243 with the 128 cells allocated. *)
Theorem C177_term_depth : forall ord fresh n st left input st' left' v thrown t k,
  any_order ord -> 9 <= n -> after_reading ord fresh (Some n) st ->
  parse_task ord fresh (Some n) st left input = Ok (st', left', Some v, thrown) ->
  term_in v = Some t -> reaches_down t k -> k + 13 <= 2 * n.
Proof. exact (fun ord fresh n st left input st' left' v thrown t k O =>
  read_depth ord fresh O n st left input st' left' v thrown t k). Qed.
Print Assumptions C177_term_depth.

(* With the 128 cells the bound is attained. *)
Theorem C177_attained : exists input st' left' v thrown t,
  parse_task id_ord bump allocated blank_state [] input = Ok (st', left', Some v, thrown) /\
  term_in v = Some t /\ reaches_down t 243.
Proof. exact (ex_intro _ (wrapped 120) wrapped_read). Qed.
Print Assumptions C177_attained.

Example C177_case : any_order id_ord /\ 9 <= 128 /\ after_reading id_ord bump (Some 128) blank_state /\
  exists st' left' v thrown t,
    parse_task id_ord bump (Some 128) blank_state [] (wrapped 120) = Ok (st', left', Some v, thrown) /\
    term_in v = Some t /\ reaches_down t 243.
Proof.
  split; [exact id_any|]. split; [lia|]. split; [exact (ar_new _ _ _ _ blank_new)|exact wrapped_read].
Qed.
