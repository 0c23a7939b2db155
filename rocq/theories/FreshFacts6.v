(* On the way to acceptance a token or the end of the input is seen whenever
   the parser looks, so that nothing is ever dropped. *)
From Coq Require Import ZArith String Ascii List Bool Lia.
From Verif Require Import Base Tables Parser ParserSpec Grammar GrammarSpec LexFacts LexFacts2 ParserCert ParserFacts ParserFacts2 ParserFacts3 ParserFacts8.
From Verif Require Import ParserAhead ParserFacts9 ParserFacts10 ParserFacts11 ParserFacts12.
Import ListNotations.
Open Scope string_scope.
Open Scope list_scope.
Open Scope Z_scope.

(** * Scanners *)

(* Whenever terminal a may come next in state s, its scanner finds something
   in every text that begins with a lexeme of a.  Scanners and terminals are
   paired in one number. *)
Definition pairs : list Z := Eval vm_compute in
  nodup Z.eq_dec (flat_map (fun s =>
    let m := expected s in
    map (fun a => 64 * machine_of s + a)
      (filter (fun a => (0 <? a) && among a m && negb (shifts (act_at s a))) terminals)) (upto 176)).

Definition pair_ok (p : Z) : bool :=
  match nth_error machines (Z.to_nat (p / 64)) with
  | Some cells =>
      match finds cells (Cat (lex_at (p mod 64)) (Star (Except []))) with
      | Some syms => forallb (fun c => 0 <=? c) syms
      | None => false
      end
  | None => false
  end.

Lemma pairs_checked : forallb pair_ok pairs = true.
Proof. vm_compute. reflexivity. Qed.

Definition all_paired (s : Z) : bool :=
  let m := expected s in
  forallb (fun a => if (a =? 0) || negb (among a m) || shifts (act_at s a) then true
                    else (0 <=? machine_of s) && existsb (Z.eqb (64 * machine_of s + a)) pairs) terminals.

Lemma paired_checked : forallb all_paired (upto 176) = true.
Proof. vm_compute. reflexivity. Qed.

Definition spots (s : Z) (w rest : list ascii) : Prop := exists f, get_sym s (w ++ rest) = Ok f /\ -1 < fsym f.

Lemma see_token s a w rest : 0 <= s < 176 -> 0 < a < 59 -> among a (expected s) = true ->
  matches (lex a) w -> can_follow s a rest -> Forall (fun c => 0 <= code c) rest -> spots s w rest.
Proof.
  intros Hs Ha EX M CF PR.
  destruct (shifts (act_at s a)) eqn:SH.
  { destruct (read_token s a w rest Hs Ha EX M CF PR) as (f & F1 & _ & F3). destruct (F3 SH) as [F4 _].
    exists f. split; [exact F1|lia]. }
  assert (RO : 0 <= machine_of s /\ pair_ok (64 * machine_of s + a) = true).
  { pose proof paired_checked as K. rewrite forallb_forall in K. specialize (K s (upto_In 176 s Hs)).
    unfold all_paired in K. cbv zeta in K. rewrite forallb_forall in K. specialize (K a (upto_In 59 a ltac:(lia))).
    destruct (Z.eqb_spec a 0); [lia|]. rewrite EX, SH in K. cbn [negb orb] in K.
    apply andb_true_iff in K as [K1 K2]. split; [apply Z.leb_le; exact K1|].
    apply existsb_exists in K2 as (p & I & E). apply Z.eqb_eq in E. rewrite E.
    pose proof pairs_checked as Q. rewrite forallb_forall in Q. exact (Q p I). }
  destruct RO as [R0 RO].
  assert (Ha' : 0 <= a < 59) by lia.
  pose proof (lex_chars a w Ha' M) as PW.
  unfold pair_ok in RO.
  replace ((64 * machine_of s + a) / 64) with (machine_of s) in RO
    by (rewrite Z.mul_comm, Z.add_comm, Z.div_add by lia; rewrite Z.div_small by lia; reflexivity).
  replace ((64 * machine_of s + a) mod 64) with a in RO
    by (rewrite Z.mul_comm, Z.add_comm, Z.mod_add by lia; rewrite Z.mod_small by lia; reflexivity).
  rewrite (lex_at_eq a Ha') in RO.
  destruct lengths_ok as (_ & _ & _ & LS & _).
  pose proof (state_fact s Hs) as SF. unfold state_ok in SF. rewrite !andb_true_iff in SF.
  destruct SF as [[_ [M1 M2]] _]. apply Z.leb_le in M1. apply Z.ltb_lt in M2.
  change (nth (Z.to_nat s) dfa_select (-2)) with (machine_of s) in M1, M2.
  unfold spots, get_sym. rewrite (nth_rd dfa_select s (-2) LS Hs). cbn [bind].
  change (nth (Z.to_nat s) dfa_select (-2)) with (machine_of s).
  destruct (nth_error machines (Z.to_nat (machine_of s))) as [cells|] eqn:N; [|discriminate].
  assert (Hm : 0 <= machine_of s < 70) by lia.
  destruct (finds cells _) as [syms|] eqn:FS; [|discriminate].
  assert (MT : matches (Cat (lex a) (Star (Except []))) (w ++ rest))
    by (constructor; [exact M|apply any_matches; exact PR]).
  assert (PA : Forall (fun c => 0 <= code c) (w ++ rest)) by (apply Forall_app; auto).

  destruct (w ++ rest) as [|c text] eqn:EW.
  - apply app_eq_nil in EW as [EW _]. destruct (lex_filled a w Ha M EW).
  - destruct (Z.ltb_spec (-1) (machine_of s)); [|lia].
    destruct (scan_total (machine_of s) Hm (c :: text) 0 O (-1, O) (machine_states _ _ N)) as (f & E & _).
    exists f. split; [exact E|].
    rewrite forallb_forall in RO. pose proof (RO _ (finds_scan _ _ _ _ Hm N FS _ _ MT PA E)) as Q.
    apply Z.leb_le in Q. lia.
Qed.

Lemma see_end s : 0 <= s < 176 -> spots s [] [].
Proof.
  intros Hs. destruct lengths_ok as (_ & _ & _ & LS & _).
  unfold spots, get_sym. rewrite (nth_rd dfa_select s (-2) LS Hs). cbn [bind app].
  eexists. split; [reflexivity|]. cbn [fsym]. lia.
Qed.
