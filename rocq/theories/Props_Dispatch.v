(* Which action a node of the syntax tree finds, and what the generator of
   source text for the actions writes. *)
From Coq Require Import ZArith String Ascii List Permutation.
From Verif Require Import Base Maps Tables Parser ParserCases Actions ActionsCases.
From Verif Require Import PrinterSpec Dispatch DispatchSpec DispatchFacts Generate GenerateSpec GenerateFacts.
Import ListNotations.
Open Scope string_scope.
Open Scope list_scope.
Open Scope Z_scope.

(* ---- C160 ---- *)
Theorem C160_own_action : forall ord fresh pl e a f,
  legal (map fst (methods ord fresh)) pl -> named pl e a ->
  get_function (registered ord fresh pl) a = Some f -> In (e, f) (methods ord fresh).
Proof. exact found_own. Qed.
Print Assumptions C160_own_action.

Theorem C160_found_exactly : forall ord fresh pl e a,
  legal (map fst (methods ord fresh)) pl -> named pl e a ->
  ((exists f, get_function (registered ord fresh pl) a = Some f) <->
   exists k, nth_error (map fst (methods ord fresh)) k = Some e /\ pl (InRegistration k) = a).
Proof. exact found_exactly. Qed.
Print Assumptions C160_found_exactly.

Theorem C160_names_from_tables : forall pl room input trees left,
  (match room with Some n => 1 <= n | None => True end)%nat ->
  parse room [] input = Ok (Accepted trees, left) -> exists l, Forall2 (copy pl) trees l.
Proof. exact accepted_copy. Qed.
Print Assumptions C160_names_from_tables.

Example C160_case : let pl := pooled (map fst (methods id_ord bump)) in
  legal (map fst (methods id_ord bump)) pl /\ named pl "task" (pl (InProductions 3)) /\
  get_function (registered id_ord bump pl) (pl (InProductions 3)) = Some make_task /\
  parse allocated [] sample = Ok (Accepted sample_tree, []).
Proof.
  split; [exact (proj1 (pooled_good id_ord bump))|]. split; [exact (N_production _ 3 "task" 2 233 eq_refl)|].
  split; [reflexivity|exact sample_accepted].
Qed.

(* ---- C161 ---- *)
Theorem C161_every_action_refuted : exists pl, forall ord fresh,
  legal (map fst (methods ord fresh)) pl /\
  forall st trees l, trees <> [] -> Forall2 (copy pl) trees l -> preturned ord fresh pl st l = Ok (st, VNull).
Proof. exact nothing_ever. Qed.
Print Assumptions C161_every_action_refuted.

(* Missing: placements in which equal literals do not share memory. *)
Theorem C161_merged_partial : forall ord fresh pl,
  legal (map fst (methods ord fresh)) pl -> merged (map fst (methods ord fresh)) pl ->
  forall trees l, Forall2 (copy pl) trees l -> forall st,
  ptransform_all (registered ord fresh pl) st l = transform_all ord fresh st trees.
Proof. exact all_by_name. Qed.
Print Assumptions C161_merged_partial.

Example C161_case : let pl := pooled (map fst (methods id_ord bump)) in
  legal (map fst (methods id_ord bump)) pl /\ merged (map fst (methods id_ord bump)) pl /\
  exists l, Forall2 (copy pl) sample_tree l.
Proof.
  split; [exact (proj1 (pooled_good id_ord bump))|]. split; [exact (proj2 (pooled_good id_ord bump))|].
  exact (accepted_copy _ allocated sample sample_tree [] (Compare_dec.leb_complete 1 128 eq_refl) sample_accepted).
Qed.

(* ---- C162 ---- *)
Theorem C162_generated : forall empty prods syms, exists es regs w a b c,
  elsewhere empty (prods ++ syms) es /\ longest_of es w /\ Forall2 (registration_line w) es regs /\
  numeral (Z.of_nat (List.length prods)) a /\ numeral (Z.of_nat (List.length syms)) b /\ numeral (Z.of_nat (List.length es)) c /\
  generate empty prods syms = Ok (Out
    (as_lines [a; b; ("valid count: " ++ c)%string])
    (as_lines (["/*prototypes*/"] ++ map prototype_line es ++ [""; ""; "/*definitions*/"] ++
               flat_map definition_lines es ++ [""; ""; "/*register*/"] ++ regs ++ [""; ""]))).
Proof. exact generated. Qed.
Print Assumptions C162_generated.

Theorem C162_aligned : forall w es regs, longest_of es w -> Forall2 (registration_line w) es regs ->
  Forall (fun l => String.length l = 2 * w + 17)%nat regs.
Proof. exact aligned_length. Qed.
Print Assumptions C162_aligned.

Example C162_case : generate 0 two_rules [(192, "string")] = Ok (Out
  (as_lines ["3"; "1"; "valid count: 3"])
  (as_lines (["/*prototypes*/"; prototype_line "task"; prototype_line "goal"; prototype_line "string"; ""; ""; "/*definitions*/"] ++
    definition_lines "task" ++ definition_lines "goal" ++ definition_lines "string" ++ [""; ""; "/*register*/";
    (tab ++ "regist(   " ++ quote ++ "task" ++ quote ++ ",    task );")%string;
    (tab ++ "regist(   " ++ quote ++ "goal" ++ quote ++ ",    goal );")%string;
    (tab ++ "regist( " ++ quote ++ "string" ++ quote ++ ",  string );")%string; ""; ""]))).
Proof. exact two_rules_text. Qed.

(* ---- C163 ---- *)
Theorem C163_once_refuted : exists pl, forall ord fresh, legal (map fst (methods ord fresh)) pl /\
  forall es, elsewhere (pl InGenerator) (production_entries pl ++ symbol_entries pl) es ->
  count_occ string_dec es "" = 430%nat.
Proof. exact empty_ever. Qed.
Print Assumptions C163_once_refuted.

(* Missing: placements in which equal literals do not share memory. *)
Theorem C163_once_partial : forall ord fresh pl es,
  legal (map fst (methods ord fresh)) pl -> merged (map fst (methods ord fresh)) pl ->
  elsewhere (pl InGenerator) (production_entries pl ++ symbol_entries pl) es ->
  NoDup es /\ Permutation es (map fst (methods ord fresh)).
Proof. exact generated_for_grammar. Qed.
Print Assumptions C163_once_partial.

Example C163_case : let pl := pooled (map fst (methods id_ord bump)) in
  legal (map fst (methods id_ord bump)) pl /\ merged (map fst (methods id_ord bump)) pl /\
  exists es, elsewhere (pl InGenerator) (production_entries pl ++ symbol_entries pl) es.
Proof.
  split; [exact (proj1 (pooled_good id_ord bump))|]. split; [exact (proj2 (pooled_good id_ord bump))|].
  exact (pooled_entries id_ord bump).
Qed.
