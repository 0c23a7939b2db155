(* The defaults of tasks by the kind of their sentence. *)
From Coq Require Import ZArith List Bool String.
From Verif Require Import Base Enums Term Float Truth Actions ActionsSpec.
Import ListNotations.
Open Scope Z_scope.

(* The priority by punctuation, Config.cpp lines 16-22; the other two defaults
   are in ActionsSpec.v. *)
Definition default_priority (p : punctuation) : float32 :=
  match p with Judgement => literal 8 10 | _ => literal 9 10 end.

(* NarseseParser.cpp lines 74-113 with any four priorities in the place of
   p_judgement, p_goal, p_question and p_quest *)
Definition finish_with (priorities : punctuation -> float32) (b : budget) (s : sentence) : res budget :=
  let p := priorities (punct s) in
  match punct s with
  | Judgement | Goal =>
      let d := if match punct s with Judgement => true | _ => false end then cfg_d_judgement else cfg_d_goal in
      if unset32 (quality b) then
        match truth_of s with
        | Some t => Ok (fill_budget b p d (quality_from_truth ieee t))
        | None => UB
        end
      else Ok (fill_budget b p d one_point)
  | Question => Ok (fill_budget b p cfg_d_question one_point)
  | Quest => Ok (fill_budget b p cfg_d_quest one_point)
  end.

(* NarseseParser.cpp lines 68-118 likewise *)
Definition task_with (priorities : punctuation -> float32) : method := fun st a =>
  bind (all_args a) (fun l =>
  let only := Nat.eqb (List.length l) 1 in
  bind (if only then Ok (Budget (to64 cfg_priority) (to64 cfg_durability) cfg_quality)
        else bind (arg l 0) as_budget) (fun b =>
  bind (bind (arg l (if only then 0 else 1)%nat) as_sentence) (fun s =>
  bind (finish_with priorities b s) (fun b => Ok (st, VTask (Task b s)))))).
