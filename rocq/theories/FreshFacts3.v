(* Proofs about what error_delay = 3 drops. *)
From Coq Require Import ZArith String Ascii List Bool Lia.
From Verif Require Import Base Tables Parser ParserSpec Fresh FreshSpec FreshSpec2 FreshFacts.
Import ListNotations.
Open Scope string_scope.
Open Scope list_scope.
Open Scope Z_scope.

(* The three states in which the beginning of an input is looked at *)
Definition early (s : Z) : Prop := s = 0 \/ s = 2 \/ s = 4.

Lemma stray_sym : forall s c v, early s -> stray c -> get_sym s (c :: v) = Ok (Found (-1) 0 1).
Proof.
  intros s c v [->|[->| ->]] H; cbn [stray list_ascii_of_string In] in H;
    unfold stray in H; cbn [list_ascii_of_string In] in H;
    repeat (destruct H as [<-|H]; [vm_compute; reflexivity|]); destruct H.
Qed.

Lemma stray_line : forall front s, Forall stray front ->
  line (string_of_list_ascii front ++ s)%string = front ++ line s.
Proof.
  induction 1 as [|c front H F IH]; [reflexivity|].
  cbn [string_of_list_ascii append line app]. rewrite IH.
  assert (E : (code c =? 0) || (code c =? 10) = false).
  { unfold stray in H; cbn [list_ascii_of_string In] in H.
    repeat (destruct H as [<-|H]; [vm_compute; reflexivity|]); destruct H. }
  destruct (code c =? 0); [discriminate|]. destruct (code c =? 10); [discriminate|]. reflexivity.
Qed.

Lemma skip_stray : forall front t, Forall stray front ->
  skip (S (length (front ++ t))) 0 (front ++ t) 0 = skip (S (length t)) 0 t 0.
Proof.
  induction 1 as [|c front H F IH]; [reflexivity|].
  rewrite <- IH. cbn [app length].
  set (n := S (length (front ++ t))). cbn [skip].
  rewrite (stray_sym 0 c _ (or_introl eq_refl) H). reflexivity.
Qed.

Lemma dstep_stray : forall room front s, Forall stray front ->
  dstep 3 (start room [] (string_of_list_ascii front ++ s)%string) = dstep 3 (start room [] s).
Proof.
  intros room front s F. unfold dstep, start. cbn [next]. unfold dlook, resume.
  change (3 =? error_delay_start) with true. cbn [stack state text held len Parser.room next app length].
  rewrite (stray_line _ _ F), (skip_stray _ _ F). reflexivity.
Qed.

Lemma drun_more : forall f d c r, drun f d c = Ok r -> forall f', (f <= f')%nat -> drun f' d c = Ok r.
Proof.
  induction f as [|f IH]; intros d c r E f' L; [discriminate|].
  destruct f' as [|f']; [lia|]. cbn [drun] in *.
  destruct (dstep d c) as [[[d' c']|o]| | |]; cbn [bind] in *; try discriminate; [|exact E].
  apply IH; [exact E|lia].
Qed.

Lemma stray_dropped : forall room front s r, Forall stray front ->
  dparse room 3 [] s = Ok r -> dparse room 3 [] (string_of_list_ascii front ++ s)%string = Ok r.
Proof.
  intros room front s r F E. unfold dparse in *.
  rewrite (stray_line _ _ F), app_length. cbn [length plus] in *.
  assert (L : (enough (length (line s)) <= enough (length front + length (line s)))%nat) by (unfold enough; lia).
  pose proof (drun_more _ _ _ _ E _ L) as E'. clear E. revert E'.
  unfold enough. replace (20 * (length front + length (line s)) + 20)%nat
    with (S (20 * (length front + length (line s)) + 19))%nat by lia.
  cbn [drun]. rewrite (dstep_stray _ _ _ F). auto.
Qed.


(* The first steps on an input that begins with such a character *)
Definition refused (room : option nat) (t : list ascii) : Prop :=
  forall n, exists kept, run (5 + n) (Config [Cell 0 []] t 0 0 room Look) = Ok (Rejected, kept).

Lemma run_S : forall n c, run (S n) c = bind (step c) (fun r => match r with inl c' => run n c' | inr o => Ok o end).
Proof. reflexivity. Qed.

Lemma look_reduces : forall s c t h l r stk own i, early s -> stray c -> get_act s (-1) = Ok (Some (1, i)) ->
  step (Config (Cell s own :: stk) (c :: t) h l r Look)
  = Ok (inl (Config (Cell s own :: stk) (c :: t) (Nat.max h 1) 0 r (Reduce i))).
Proof.
  intros s c t h l r stk own i E H A. unfold step, look. cbn [next stack state text held].
  rewrite (stray_sym s c t E H). cbn [bind fsym]. rewrite A. reflexivity.
Qed.

Lemma look_refuses : forall s c t h l r stk own, early s -> stray c -> get_act s (-1) = Ok None ->
  exists kept, step (Config (Cell s own :: stk) (c :: t) h l r Look) = Ok (inr (Rejected, kept)).
Proof.
  intros s c t h l r stk own E H A. unfold step, look. cbn [next stack state text held].
  rewrite (stray_sym s c t E H). cbn [bind fsym]. rewrite A. eexists. reflexivity.
Qed.

Lemma first_reduces : forall t h r, r = allocated \/ r = unlimited ->
  step (Config [Cell 0 []] t h 0 r (Reduce 211)) = Ok (inl (Config [Cell 2 []; Cell 0 []] t h 0 r Look)).
Proof. intros t h r [-> | ->]; reflexivity. Qed.

Lemma second_reduces : forall t h r, r = allocated \/ r = unlimited ->
  step (Config [Cell 2 []; Cell 0 []] t h 0 r (Reduce 2)) = Ok (inl (Config [Cell 4 []; Cell 2 []; Cell 0 []] t h 0 r Look)).
Proof. intros t h r [-> | ->]; reflexivity. Qed.

Lemma stray_refused : forall room c t, room = allocated \/ room = unlimited -> stray c -> refused room (c :: t).
Proof.
  intros room c t R H n. cbn [plus].
  rewrite run_S, (look_reduces 0 c t 0 0 room [] [] 211 (or_introl eq_refl) H eq_refl). cbn [bind].
  rewrite run_S, (first_reduces _ _ _ R). cbn [bind].
  rewrite run_S, (look_reduces 2 c t _ 0 room _ [] 2 (or_intror (or_introl eq_refl)) H eq_refl). cbn [bind].
  rewrite run_S, (second_reduces _ _ _ R). cbn [bind].
  destruct (look_refuses 4 c t (Nat.max (Nat.max 0 1) 1) 0 room [Cell 2 []; Cell 0 []] [] (or_intror (or_intror eq_refl)) H eq_refl)
    as [kept E].
  exists kept. rewrite run_S, E. reflexivity.
Qed.

Lemma stray_rejected : forall room d c front s, room = allocated \/ room = unlimited -> d < 3 ->
  Forall stray (c :: front) ->
  exists kept, plain (dparse room d [] (string_of_list_ascii (c :: front) ++ s)%string) = Ok (Rejected, kept).
Proof.
  intros room d c front s R D F. rewrite delay_away by (left; exact D).
  unfold parse, start. rewrite (stray_line _ _ F). cbn [length plus app].
  unfold enough. replace (20 * S (length (front ++ line s)) + 20)%nat
    with (5 + (20 * length (front ++ line s) + 35))%nat by lia.
  apply stray_refused; [exact R|]. inversion F; assumption.
Qed.

Lemma dropped_case : Forall stray (list_ascii_of_string "]") /\ Forall stray (list_ascii_of_string "])}/*") /\
  exists d trees kept, dparse allocated 3 [] "<a --> b>." = Ok (d, (Accepted trees, kept)).
Proof.
  assert (B : forall l, forallb (fun c => existsb (Ascii.eqb c) (list_ascii_of_string "!#%&)*,./:;=>?@\]|}~")) l = true ->
    Forall stray l).
  { intros l H. apply Forall_forall. intros c I. rewrite forallb_forall in H. specialize (H c I).
    apply existsb_exists in H as (x & I' & E). apply Ascii.eqb_eq in E. subst x. exact I'. }
  split; [apply B; vm_compute; reflexivity|]. split; [apply B; vm_compute; reflexivity|].
  assert (E : match dparse allocated 3 [] "<a --> b>." with Ok (_, (Accepted _, _)) => true | _ => false end = true)
    by (vm_compute; reflexivity).
  destruct (dparse allocated 3 [] "<a --> b>.") as [[d [[trees|] kept]]| | |]; try discriminate.
  exists d, trees, kept. reflexivity.
Qed.
