(* What sentences should be like, told from the history of a program alone. *)
From Coq Require Import List Bool.
From Verif Require Import Base Float Truth Kinds.
From Verif Require Evidence Actions.
Import ListNotations.

(* The operations that make a sentence *)
Definition makes (x : op) : bool :=
  match x with Assign _ _ | SetTruth _ _ | SetDesire _ _ | Delete _ => false | _ => true end.
(* The n-th of them makes the sentence n. *)
Definition makings (l : list (config * op)) : list op := filter makes (map snd l).

(* Sentence n exists at the end of the history. *)
Definition living (l : list (config * op)) (n : nat) : Prop :=
  n < length (makings l) /\ ~ In (Delete n) (map snd l).

(* Sentence n is a Goal and r is the one made by the constructor of Goal of
   which it is a copy of a copy and so on. *)
Inductive comes_from (l : list (config * op)) : nat -> nat -> Prop :=
  | Made n t tr st : nth_error (makings l) n = Some (NewGoal t tr st) -> comes_from l n n
  | Copied n m r : nth_error (makings l) n = Some (Copy m) -> m < n -> comes_from l m r -> comes_from l n r
  | Moved n m r : nth_error (makings l) n = Some (Move m) -> m < n -> comes_from l m r -> comes_from l n r.

(* No step of l2, which follows l1, writes to sentence n or ends it. *)
Definition untouched (l1 l2 : list (config * op)) (n : nat) : Prop :=
  forall x, In x (map snd l2) ->
  match x with
  | Move a | SetTruth a _ | Assign a _ | Delete a => a <> n
  | SetDesire a _ => ~ comes_from (l1 ++ l2) a n
  | _ => True
  end.

(* Kinds that carry a truth value *)
Definition carries (p : Actions.punctuation) : bool :=
  match p with Actions.Judgement | Actions.Goal => true | _ => false end.

(* Sentences are made with a truth value if their kind carries one and without
   otherwise; nothing is moved and no truth value replaced. *)
Definition careful (x : op) : Prop :=
  match x with
  | NewSentence _ p tr _ => carries p = true <-> tr <> None
  | Move _ | SetTruth _ _ | SetDesire _ _ => False
  | _ => True
  end.

(* Here truth values may be replaced, though not by nothing. *)
Definition replacing (x : op) : Prop :=
  match x with
  | NewSentence _ p tr _ => carries p = true -> tr <> None
  | Move _ => False
  | SetTruth _ p | SetDesire _ p => p <> None
  | _ => True
  end.

(* The members that a sentence made by the operation x has in the end; c is
   the configuration when it was made. *)
Definition truth_asked (w : world) (given : option nat) (v : truth ieee) (p : option nat) : Prop :=
  match given with
  | Some _ => p = given
  | None => exists a, p = Some a /\ nth_error (truths w) a = Some v
  end.
Definition stamp_asked (w : world) (given p : option nat) : Prop :=
  match given with
  | Some _ => p = given
  | None => exists a s, p = Some a /\ nth_error (stamps w) a = Some s /\
              Evidence.is_eternal s = true /\ Evidence.evidential_base s <> None
  end.
Definition as_asked (c : config) (x : op) (w : world) (s : sentence) : Prop :=
  match x with
  | NewSentence t p tr st =>
      s_term s = t /\ s_punct s = p /\ s_truth s = tr /\ stamp_asked w st (s_stamp s)
  | NewJudgement t tr st =>
      s_term s = t /\ s_punct s = Actions.Judgement /\ stamp_asked w st (s_stamp s) /\
      truth_asked w tr (Truth.Truth ieee (c_f c) (c_judgement c) (c_k c)) (s_truth s)
  | NewQuestion t st =>
      s_term s = t /\ s_punct s = Actions.Question /\ s_truth s = None /\ stamp_asked w st (s_stamp s)
  | NewGoal t tr st =>
      s_term s = t /\ s_punct s = Actions.Goal /\ stamp_asked w st (s_stamp s) /\
      truth_asked w tr (Truth.Truth ieee (c_f c) (c_goal c) (c_k c)) (s_truth s)
  | NewQuest t st =>
      s_term s = t /\ s_punct s = Actions.Quest /\ s_truth s = None /\ stamp_asked w st (s_stamp s)
  | _ => True
  end.
