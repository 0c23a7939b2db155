(* Properties of reading written Narsese: from the text to the task. *)
From Coq Require Import ZArith String Ascii List Bool Lia Permutation.
From Verif Require Import Base Enums Term Compound Parser ParserSpec Actions ActionsSpec ActionsCases PrinterSpec.
From Verif Require Import Forms FormFacts8 FormFacts9 FormCases.
From Verif Require Import Interning InterningSpec.
From Verif Require Evidence.
Import ListNotations.
Open Scope list_scope.
Open Scope Z_scope.

(* ---- C98 ---- *)
(* The text has to fit the stack of the parser (C60), and its operators must
   not be known as atoms (C35). *)
Theorem C98_reading : forall ord fresh room st x lead pads,
  (forall m, Permutation (ord m) m) -> careful fresh ->
  has_room room (spread lead (spell_task x) pads) ->
  in_order (atoms st) (operations st) ->
  proper_task x -> length pads = length (spell_task x) ->
  population (atoms st) + 2 * Z.of_nat (mentions (body x)) < 4294967295 ->
  (forall s, In s (operators (body x)) -> ~ In s (words (body x)) /\ check_by_name (tab (atoms st)) s = false) ->
  (exists st' tk, parse_task ord fresh room st [] (spread lead (spell_task x) pads) = Ok (st', [], Some (VTask tk), false) /\
    says ord (atoms st') (Evidence.to_int (Evidence.time (store st))) x tk /\
    in_order (atoms st') (operations st') /\
    (forall n a, handed_out (atoms st) n a -> handed_out (atoms st') n a) /\
    (forall n, check_by_name (tab (atoms st')) n = true ->
      check_by_name (tab (atoms st)) n = true \/ In n (words (body x)) \/
      exists s, In s (operators (body x)) /\ n = ("^" ++ s)%string) /\
    population (atoms st') <= population (atoms st) + 2 * Z.of_nat (mentions (body x)) /\
    Evidence.time (store st') = Evidence.time (store st) /\
    (operators (body x) = [] -> (forall n, In n (words (body x)) -> check_by_name (tab (atoms st)) n = true) ->
      tab (atoms st') = tab (atoms st))) \/
  (parse_task ord fresh room st [] (spread lead (spell_task x) pads) = UB /\
    exists w ops, in_order w ops /\ (forall n a, handed_out (atoms st) n a -> handed_out w n a) /\
      stuck ord (handed_out w) (by_occurrence (body x)) (body x)).
Proof.
  exact (fun ord fresh room st x lead pads Ho Hf => task_read ord Ho fresh Hf room st x lead pads).
Qed.
Print Assumptions C98_reading.

(* Without operators there is only one reading. *)
Theorem C98_unique : forall ord w ops f t t', in_order w ops -> proper f -> operators f = [] ->
  means ord (handed_out w) (by_occurrence f) f t -> means ord (handed_out w) (by_occurrence f) f t' -> t = t'.
Proof. exact meaning_unique. Qed.
Print Assumptions C98_unique.

Example C98_case : (forall m, Permutation (id_ord m) m) /\ careful careful_fresh /\
  has_room allocated (spread 1 (spell_task example_task) example_pads) /\
  in_order (atoms blank_state) (operations blank_state) /\
  proper_task example_task /\ length example_pads = length (spell_task example_task) /\
  population (atoms blank_state) + 2 * Z.of_nat (mentions (body example_task)) < 4294967295 /\
  (forall s, In s (operators (body example_task)) ->
    ~ In s (words (body example_task)) /\ check_by_name (tab (atoms blank_state)) s = false) /\
  spread 1 (spell_task example_task) example_pads =
    " $0.5 ;0.25 $< (a &/{ b, $x }&/ +3 )=/> (^ go, $x ,a ,( -, c, d* ""e f"") )> .:|: %0.75 %"%string /\
  exists st v, parse_task id_ord careful_fresh allocated blank_state [] (spread 1 (spell_task example_task) example_pads) =
    Ok (st, [], Some v, false).
Proof.
  split; [intros m; apply Permutation_refl|]. split; [exact careful_fresh_careful|]. split; [exact example_room|].
  split; [exact blank_order|]. split; [exact example_proper|]. split; [reflexivity|]. split; [vm_compute; reflexivity|].
  split; [exact example_names|]. split; [exact example_text|exact example_read].
Qed.

(* ---- C99 ---- *)
(* The tasks are kept between the readings. *)
Theorem C99_session : forall ord fresh room l st,
  (forall m, Permutation (ord m) m) -> careful fresh ->
  Forall (fun x => has_room room (text_for x)) l ->
  in_order (atoms st) (operations st) -> Forall proper_text l ->
  population (atoms st) + 2 * Z.of_nat (list_sum (map mentions (bodies l))) < 4294967295 ->
  (forall s, In s (concat (map operators (bodies l))) ->
    ~ In s (concat (map words (bodies l))) /\ check_by_name (tab (atoms st)) s = false) ->
  (exists st' vs, readings ord fresh room st [] (map text_for l) = Ok (st', [], vs) /\
    in_order (atoms st') (operations st') /\
    (forall n a, handed_out (atoms st) n a -> handed_out (atoms st') n a) /\
    Forall2 (fun x v => exists tk, v = (Some (VTask tk), false) /\
      says ord (atoms st') (Evidence.to_int (Evidence.time (store st))) (task_in x) tk) l vs) \/
  (readings ord fresh room st [] (map text_for l) = UB /\
    exists x w ops, In x (bodies l) /\ in_order w ops /\ stuck ord (handed_out w) (by_occurrence x) x).
Proof.
  exact (fun ord fresh room l st Ho Hf R => session_read ord Ho fresh Hf room l R st).
Qed.
Print Assumptions C99_session.

(* Names and atoms correspond one to one. *)
Theorem C99_names : forall w ops n m a b, in_order w ops -> ~ operator_name n -> ~ operator_name m ->
  handed_out w n a -> handed_out w m b -> (n = m <-> a = b).
Proof. exact names_atoms. Qed.
Print Assumptions C99_names.

Example C99_case : Forall (fun x => has_room allocated (text_for x)) example_texts /\
  in_order (atoms blank_state) (operations blank_state) /\ Forall proper_text example_texts /\
  population (atoms blank_state) + 2 * Z.of_nat (list_sum (map mentions (bodies example_texts))) < 4294967295 /\
  map text_for example_texts =
    [" $0.5 ;0.25 $< (a &/{ b, $x }&/ +3 )=/> (^ go, $x ,a ,( -, c, d* ""e f"") )> .:|: %0.75 %";
     "(b{--(*,a,?x,^go))?"]%string /\
  exists st v1 v2, readings id_ord careful_fresh allocated blank_state [] (map text_for example_texts) =
    Ok (st, [], [(Some v1, false); (Some v2, false)]).
Proof.
  destruct example_texts_proper as (P & R). split; [exact R|]. split; [exact blank_order|]. split; [exact P|].
  split; [vm_compute; reflexivity|]. split; [vm_compute; reflexivity|exact example_session].
Qed.
