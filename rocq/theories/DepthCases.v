(* Deeply nested inputs. *)
From Coq Require Import ZArith String Ascii List Bool Lia Permutation.
From Verif Require Import Base Enums Term Compound CompoundFacts Parser Actions ActionsCases Depth DepthRuns DepthSpec.
Import ListNotations.
Open Scope string_scope.
Open Scope list_scope.
Local Open Scope nat_scope.

(* k products, each the first factor of the next, around two negations *)
Definition nested (k : nat) : string := (times k "(" ++ "----a" ++ times k "*b)" ++ ".")%string.

(* k statements, each the subject of the next, with a copula that wraps it,
   around three negations *)
Definition wrapped (k : nat) : string := (times k "<" ++ "------a" ++ times k "{--b>" ++ "?")%string.

Definition calls_of (r : res (outcome * list ascii)) : option (nat * nat) :=
  match r with Ok (Accepted t, _) => Some (transform_calls t, free_calls t) | _ => None end.

Lemma nested_calls : calls_of (parse allocated [] (nested 121)) = Some (371, 374).
Proof. vm_compute. reflexivity. Qed.

Fixpoint spine (t : term) : nat :=
  match t with
  | Stmt _ s _ => S (spine s)
  | Comp _ (x :: _) => S (spine x)
  | _ => 0
  end.

Definition spine_of (r : res (state * list ascii * option value * bool)) : option nat :=
  match r with
  | Ok (_, _, Some v, _) => option_map spine (term_in v)
  | _ => None
  end.

Lemma wrapped_spine : spine_of (parse_task id_ord bump allocated blank_state [] (wrapped 120)) = Some 243.
Proof. vm_compute. reflexivity. Qed.

Lemma reaches_spine : forall t, reaches_down t (spine t).
Proof.
  fix IH 1. intros [op a|k i|n|c s p|c [|x l]]; cbn [spine]; try constructor.
  - apply IH.
  - apply (rd_component c (x :: l) x); [left; reflexivity|apply IH].
Qed.

Lemma spine_gives r n : spine_of r = Some n -> exists st' left' v thrown t,
  r = Ok (st', left', Some v, thrown) /\ term_in v = Some t /\ reaches_down t n.
Proof.
  unfold spine_of. destruct r as [[[[st' left'] [v|]] thrown]| | |]; intros E; try discriminate E.
  destruct (term_in v) as [t|] eqn:T; [|discriminate E]. cbn [option_map] in E. injection E as E.
  exists st', left', v, thrown, t. split; [reflexivity|]. split; [exact T|]. subst n. apply reaches_spine.
Qed.

(* 120 levels of statements make a term of 243 levels. *)
Lemma wrapped_read : exists st' left' v thrown t,
  parse_task id_ord bump allocated blank_state [] (wrapped 120) = Ok (st', left', Some v, thrown) /\
  term_in v = Some t /\ reaches_down t 243.
Proof. exact (spine_gives _ _ wrapped_spine). Qed.

Lemma calls_gives r a b : calls_of r = Some (a, b) -> exists trees rest,
  r = Ok (Accepted trees, rest) /\ transform_calls trees = a.
Proof.
  unfold calls_of. destruct r as [[[trees|] rest]| | |]; intros E; try discriminate E.
  injection E as E _. exists trees, rest. split; [reflexivity|exact E].
Qed.

Lemma nested_read : exists trees rest,
  parse allocated [] (nested 121) = Ok (Accepted trees, rest) /\ transform_calls trees = 371.
Proof. exact (calls_gives _ _ _ nested_calls). Qed.

Lemma blank_new : pending blank_state = [].
Proof. reflexivity. Qed.

Lemma id_any : any_order id_ord.
Proof. intros m. apply Permutation_refl. Qed.
