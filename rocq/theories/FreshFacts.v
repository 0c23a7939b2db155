(* Proofs about the members that are not initialised. *)
From Coq Require Import ZArith String Ascii List Bool Lia.
From Verif Require Import Base Tables Parser ParserSpec Fresh FreshSpec.
From Verif Require Buffer Nodes.
Import ListNotations.
Open Scope list_scope.
Open Scope Z_scope.

Lemma bind_bind : forall {A B C} (m : res A) (f : A -> res B) (g : B -> res C),
  bind (bind m f) g = bind m (fun x => bind (f x) g).
Proof. intros A B C [a| | |] f g; reflexivity. Qed.

Lemma bind_ext : forall {A B} (m : res A) (f g : A -> res B), (forall x, m = Ok x -> f x = g x) -> bind m f = bind m g.
Proof. intros A B [a| | |] f g H; cbn; auto. Qed.

(* error_delay is away from 3 and stays so for n rounds *)
Definition away (n : nat) (d : Z) : Prop := d < 3 \/ 3 + Z.of_nat n < d.

Lemma away_3 : forall n d, away n d -> (d =? error_delay_start) = false.
Proof. intros n d H. unfold away, error_delay_start in *. apply Z.eqb_neq. lia. Qed.

Lemma dstep_away : forall n d cfg, away n d ->
  (forall r, dstep d cfg = Ok r -> match r with inl (d', _) => d' = d \/ d' = d - 1 | inr (d', _) => d' = d end) /\
  bind (dstep d cfg) (fun r => match r with inl (_, c) => Ok (inl c) | inr (_, o) => Ok (inr o) end) = step cfg.
Proof.
  intros n d cfg H. unfold dstep, step. destruct (next cfg).
  - unfold dlook, resume. rewrite (away_3 _ _ H). cbn [bind].
    destruct (look cfg) as [[c|o]| | |]; cbn [bind]; split; try reflexivity; try discriminate.
    + intros r E. injection E as <-. destruct (_ && _); [right|left]; reflexivity.
    + intros r E. injection E as <-. destruct o; reflexivity.
  - destruct (reduce idx cfg) as [[c|o]| | |]; cbn [bind]; split; try reflexivity; try discriminate.
    + intros r E. injection E as <-. left; reflexivity.
    + intros r E. injection E as <-. destruct o; reflexivity.
Qed.

Lemma drun_away : forall n d cfg, away n d ->
  plain (drun n d cfg) = run n cfg /\
  (forall d' o, drun n d cfg = Ok (d', o) -> d' <= d).
Proof.
  induction n as [|n IH]; intros d cfg H; [split; [reflexivity|discriminate]|].
  assert (H1 : away n d) by (unfold away in *; lia).
  destruct (dstep_away _ d cfg H) as [E1 E2]. cbn [drun run].
  rewrite <- E2. destruct (dstep d cfg) as [[[d' c]|[d' o]]| | |]; cbn [bind plain]; unfold plain; cbn [bind].
  - specialize (E1 _ eq_refl). cbn in E1. destruct (IH d' c) as [F1 F2]; [unfold away in *; lia|].
    split; [exact F1|]. intros d2 o E. specialize (F2 _ _ E). lia.
  - specialize (E1 _ eq_refl). cbn in E1. split; [reflexivity|]. intros d2 o2 E. injection E as <- <-. lia.
  - split; [reflexivity|discriminate].
  - split; [reflexivity|discriminate].
  - split; [reflexivity|discriminate].
Qed.

Lemma delay_away : forall room d left input,
  (d < 3 \/ 23 + 20 * Z.of_nat (length left + length (line input)) < d) ->
  plain (dparse room d left input) = parse room left input.
Proof.
  intros room d left input H. unfold dparse, parse.
  apply drun_away. unfold away, enough. lia.
Qed.

Lemma session_away : forall room inputs d left, d < 3 -> dsession room d left inputs = session room left inputs.
Proof.
  intros room inputs. induction inputs as [|s inputs IH]; intros d left H; [reflexivity|].
  cbn [dsession session]. unfold dparse, parse.
  destruct (drun_away (enough (length left + length (line s))) d (start room left s) (or_introl H)) as [E1 E2].
  rewrite <- E1. unfold plain. rewrite bind_bind. apply bind_ext. intros [d' [o kept]] E. cbn [bind snd].
  rewrite IH; [reflexivity|]. specialize (E2 _ _ E). lia.
Qed.

(* ---- bufend ---- *)
Lemma stale_buffer_ub : forall room k input, (0 < k)%nat -> Buffer.mparse room (stale_buffer k) input = UB.
Proof.
  intros room k input H. unfold Buffer.mparse. cbn [Buffer.used stale_buffer].
  unfold enough. rewrite Nat.add_comm. cbn [Nat.add Buffer.mrun].
  unfold Buffer.mstep, Buffer.mstart. cbn [Buffer.mnext]. unfold Buffer.mlook. cbn [Buffer.mstack].
  unfold Buffer.next_sym. cbn [state Buffer.mbuf Buffer.cells Buffer.used stale_buffer].
  change (rd dfa_select 0) with (Ok 0). cbn [bind].
  unfold Buffer.get_input. cbn [Buffer.get_loop Buffer.used].
  destruct (Nat.leb_spec k 0); [lia|]. reflexivity.
Qed.

(* What error_delay = 3 does at the start *)
Lemma delay_matters : exists tree kept,
  parse allocated [] "]) <a --> b>." = Ok (Rejected, []) /\
  dparse allocated 0 [] "]) <a --> b>." = Ok (0, (Rejected, [])) /\
  dparse allocated 3 [] "]) <a --> b>." = Ok (0, (Accepted tree, kept)) /\
  parse allocated [] "<a --> b>." = Ok (Accepted tree, kept).
Proof.
  eexists. eexists. split; [vm_compute; reflexivity|]. split; [vm_compute; reflexivity|].
  split; vm_compute; reflexivity.
Qed.
