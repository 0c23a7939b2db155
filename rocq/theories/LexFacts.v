(* The scanner: its tables are never left, and what it finds are lexemes. *)
From Coq Require Import ZArith String Ascii List Bool Lia.
From Verif Require Import Base Tables Parser Grammar.
Import ListNotations.
Open Scope list_scope.
Open Scope Z_scope.

(** * Access to the tables *)

Lemma rd_ok {A} (t : list A) i x : rd t i = Ok x ->
  0 <= i < Z.of_nat (length t) /\ nth_error t (Z.to_nat i) = Some x.
Proof.
  unfold rd. destruct (Z.ltb_spec i 0); [discriminate|].
  destruct (nth_error t (Z.to_nat i)) eqn:E; [|discriminate].
  intros H'. inversion H'; subst. split; [|reflexivity].
  assert (nth_error t (Z.to_nat i) <> None) by congruence.
  apply nth_error_Some in H0. lia.
Qed.

Lemma rd_in {A} (t : list A) i : 0 <= i < Z.of_nat (length t) -> exists x, rd t i = Ok x.
Proof.
  intros H. unfold rd. destruct (Z.ltb_spec i 0); [lia|].
  destruct (nth_error t (Z.to_nat i)) eqn:E; [eauto|].
  apply nth_error_None in E. lia.
Qed.

Lemma rd_nth {A} (t : list A) i x : 0 <= i -> nth_error t (Z.to_nat i) = Some x -> rd t i = Ok x.
Proof. intros H E. unfold rd. destruct (Z.ltb_spec i 0); [lia|]. rewrite E. reflexivity. Qed.

Lemma rd_In {A} (t : list A) i x : rd t i = Ok x -> In x t.
Proof. intros H. apply rd_ok in H as [_ H]. eapply nth_error_In; eauto. Qed.

(** * The ranges of the states *)

(* Not in the code: the ranges of one state as a list. *)
Fixpoint cut (chars trans : list Z) : option (list (Z * Z * Z)) :=
  match chars, trans with
  | lo :: hi :: chars', t :: trans' =>
      if lo <=? -1 then Some []
      else match cut chars' trans' with Some l => Some ((lo, hi, t) :: l) | None => None end
  | _, _ => None
  end.

Fixpoint first (l : list (Z * Z * Z)) (x : Z) : option Z :=
  match l with
  | [] => None
  | (lo, hi, t) :: l' => if (lo <=? x) && (x <=? hi) then Some t else first l' x
  end.

Fixpoint walk_cut chars trans l x {struct trans} :
  cut chars trans = Some l -> walk chars trans x = Ok (first l x).
Proof.
  destruct trans as [|t trans]; destruct chars as [|lo [|hi chars]]; cbn; try discriminate.
  destruct (lo <=? -1); [intros E; inversion E; reflexivity|].
  destruct (cut chars trans) eqn:C; [|discriminate].
  intros E; inversion E; subst. cbn.
  destruct ((lo <=? x) && (x <=? hi)); [reflexivity|]. apply walk_cut; assumption.
Qed.

(* Not in the code: the tables of one machine, state by state: ranges and
   accepted symbol. *)
Definition expand (idx acc : list Z) : list (option (list (Z * Z * Z)) * Z) :=
  map (fun p => (cut (skipn (Z.to_nat (fst p)) dfa_chars)
                     (skipn (Z.to_nat (fst p / 2)) dfa_trans), snd p))
      (combine idx acc).

Definition machines : list (list (option (list (Z * Z * Z)) * Z)) :=
  Eval vm_compute in map (fun p => expand (fst p) (snd p)) (combine dfa_idx dfa_accept).

Lemma machines_eq : machines = map (fun p => expand (fst p) (snd p)) (combine dfa_idx dfa_accept).
Proof. vm_compute. reflexivity. Qed.

(* All that is checked about the tables at this level. *)
Definition row_ok (row : list (option (list (Z * Z * Z)) * Z)) : bool :=
  forallb (fun p =>
    match fst p with
    | Some l => forallb (fun r => (0 <=? fst (fst r)) && (0 <=? snd r)
                                  && (snd r <? Z.of_nat (length row))) l
    | None => false
    end && ((snd p =? 0) || (2 <=? snd p) && (snd p <=? 59))) row
  && (1 <=? Z.of_nat (length row)).

Lemma tables_ok :
  forallb row_ok machines = true
  /\ map (@length _) dfa_idx = map (@length _) dfa_accept
  /\ forallb (forallb (Z.leb 0)) dfa_idx = true
  /\ forallb snd symbols = true
  /\ (length dfa_idx = 70 /\ length dfa_accept = 70 /\ length symbols = 234)%nat.
Proof. vm_compute. repeat split. Qed.

(* The ranges and the accepted symbol of state st of machine m. *)
Definition cell_at (m st : Z) : option (option (list (Z * Z * Z)) * Z) :=
  match nth_error machines (Z.to_nat m) with
  | Some row => nth_error row (Z.to_nat st)
  | None => None
  end.

Definition states_of (m : Z) : Z :=
  match nth_error machines (Z.to_nat m) with Some row => Z.of_nat (length row) | None => 0 end.

Lemma nth_error_combine {A B} (l : list A) (l' : list B) n :
  nth_error (combine l l') n =
  match nth_error l n, nth_error l' n with Some a, Some b => Some (a, b) | _, _ => None end.
Proof.
  revert l' n. induction l; destruct l', n; cbn; try reflexivity; auto.
  destruct (nth_error l n); reflexivity.
Qed.

Lemma table_access m st : 0 <= m < 70 -> 0 <= st < states_of m ->
  exists rowi rowa chr a l,
    rd dfa_idx m = Ok rowi /\ rd rowi st = Ok chr /\ 0 <= chr /\
    rd dfa_accept m = Ok rowa /\ rd rowa st = Ok a /\
    cut (skipn (Z.to_nat chr) dfa_chars) (skipn (Z.to_nat (chr / 2)) dfa_trans) = Some l /\
    cell_at m st = Some (Some l, a) /\
    Forall (fun r => 0 <= fst (fst r) /\ 0 <= snd r < states_of m) l /\
    (a = 0 \/ 2 <= a <= 59).
Proof.
  intros Hm Hst.
  destruct tables_ok as (OK & LEN & POS & _ & L1 & L2 & _).
  destruct (rd_in dfa_idx m) as [rowi Ei]; [rewrite L1; lia|].
  destruct (rd_in dfa_accept m) as [rowa Ea]; [rewrite L2; lia|].
  pose proof (rd_ok _ _ _ Ei) as [_ Ni]. pose proof (rd_ok _ _ _ Ea) as [_ Na].
  assert (LL : length rowi = length rowa).
  { pose proof (f_equal (fun l => nth_error l (Z.to_nat m)) LEN) as H. cbv beta in H.
    rewrite !nth_error_map, Ni, Na in H. cbn in H. congruence. }
  assert (NM : nth_error machines (Z.to_nat m) = Some (expand rowi rowa)).
  { rewrite machines_eq, nth_error_map, nth_error_combine, Ni, Na. reflexivity. }
  unfold states_of in *. rewrite NM in *.
  assert (LE : length (expand rowi rowa) = length rowi).
  { unfold expand. rewrite map_length, combine_length, LL. lia. }
  rewrite LE in *.
  destruct (rd_in rowi st) as [chr Ec]; [lia|].
  destruct (rd_in rowa st) as [a Eac]; [lia|].
  pose proof (rd_ok _ _ _ Ec) as [_ Nc]. pose proof (rd_ok _ _ _ Eac) as [_ Nac].
  assert (NE : nth_error (expand rowi rowa) (Z.to_nat st) =
     Some (cut (skipn (Z.to_nat chr) dfa_chars) (skipn (Z.to_nat (chr / 2)) dfa_trans), a)).
  { unfold expand. rewrite nth_error_map, nth_error_combine, Nc, Nac. reflexivity. }
  rewrite forallb_forall in OK.
  specialize (OK _ (nth_error_In _ _ NM)). unfold row_ok in OK.
  apply andb_true_iff in OK as [OK _].
  rewrite forallb_forall in OK. specialize (OK _ (nth_error_In _ _ NE)).
  cbn [fst snd] in OK.
  destruct (cut (skipn (Z.to_nat chr) dfa_chars) (skipn (Z.to_nat (chr / 2)) dfa_trans))
    as [l|] eqn:EC; [|discriminate].
  apply andb_true_iff in OK as [OK1 OK2].
  assert (POSc : 0 <= chr).
  { rewrite forallb_forall in POS. specialize (POS _ (rd_In _ _ _ Ei)).
    rewrite forallb_forall in POS. specialize (POS _ (rd_In _ _ _ Ec)).
    apply Z.leb_le in POS. exact POS. }
  exists rowi, rowa, chr, a, l. repeat (split; [assumption|]).
  split; [unfold cell_at; rewrite NM; exact NE|]. split.
  - apply Forall_forall. intros r Hr. rewrite forallb_forall in OK1. specialize (OK1 _ Hr).
    rewrite LE in OK1. rewrite !andb_true_iff, !Z.leb_le, Z.ltb_lt in OK1. lia.
  - rewrite orb_true_iff, andb_true_iff, !Z.leb_le, Z.eqb_eq in OK2. lia.
Qed.

Lemma first_in l x t : first l x = Some t -> exists lo hi, In (lo, hi, t) l /\ lo <= x <= hi.
Proof.
  induction l as [|[[lo hi] t'] l IH]; cbn; [discriminate|].
  destruct ((lo <=? x) && (x <=? hi)) eqn:E.
  - intros H; inversion H; subst. apply andb_true_iff in E as [E1 E2].
    exists lo, hi. split; [left; reflexivity|lia].
  - intros H. destruct (IH H) as (lo' & hi' & I & R). exists lo', hi'. auto.
Qed.

(* One transition, together with what the state accepts. *)
Lemma dfa_step_spec m st x : 0 <= m < 70 -> 0 <= st < states_of m ->
  exists l a, cell_at m st = Some (Some l, a) /\ dfa_step m st x = Ok (first l x) /\
    (forall st', first l x = Some st' -> 0 <= st' < states_of m /\ 0 <= x).
Proof.
  intros Hm Hst.
  destruct (table_access m st Hm Hst) as (rowi & rowa & chr & a & l & E1 & E2 & P & E3 & E4 & C & CA & F & A).
  exists l, a. split; [exact CA|]. split.
  - unfold dfa_step. rewrite E1. cbn [bind]. rewrite E2. cbn [bind].
    destruct (Z.ltb_spec chr 0); [lia|]. apply walk_cut. exact C.
  - intros st' H. destruct (first_in _ _ _ H) as (lo & hi & I & R).
    rewrite Forall_forall in F. specialize (F _ I). cbn in F. lia.
Qed.

Lemma accept_spec m st : 0 <= m < 70 -> 0 <= st < states_of m ->
  exists row l a, rd dfa_accept m = Ok row /\ rd row st = Ok a /\
    cell_at m st = Some (Some l, a) /\ (a = 0 \/ 2 <= a <= 59).
Proof.
  intros Hm Hst.
  destruct (table_access m st Hm Hst) as (rowi & rowa & chr & a & l & E1 & E2 & P & E3 & E4 & C & CA & F & A).
  exists rowa, l, a. auto.
Qed.

Lemma greedy sym : 0 <= sym < 234 -> exists e, rd symbols sym = Ok (e, true).
Proof.
  intros H. destruct tables_ok as (_ & _ & _ & G & _ & _ & L).
  destruct (rd_in symbols sym) as [[e b] E]; [rewrite L; lia|].
  exists e. rewrite E. rewrite forallb_forall in G. specialize (G _ (rd_In _ _ _ E)).
  cbn in G. subst. reflexivity.
Qed.

(* Induction principle for the scanner, with no undefined outcome left. *)
Lemma scan_cases m st c text n best : 0 <= m < 70 -> 0 <= st < states_of m ->
  exists l a, cell_at m st = Some (Some l, a) /\
  (first l (code c) = None /\
     scan m st (c :: text) n best = Ok (Found (fst best) (snd best) (S n))
   \/ exists st' l' a', first l (code c) = Some st' /\ 0 <= st' < states_of m /\ 0 <= code c /\
        cell_at m st' = Some (Some l', a') /\
        (a' = 0 /\ scan m st (c :: text) n best = scan m st' text (S n) best
         \/ 2 <= a' <= 59 /\
            scan m st (c :: text) n best = scan m st' text (S n) (a' - 1, S n))).
Proof.
  intros Hm Hst. destruct (dfa_step_spec m st (code c) Hm Hst) as (l & a & CA & E & R).
  exists l, a. split; [exact CA|].
  cbn [scan]. rewrite E. cbn [bind].
  destruct (first l (code c)) as [st'|] eqn:F.
  - right. destruct (R _ eq_refl) as [R' P].
    destruct (accept_spec m st' Hm R') as (row & l' & a' & E1 & E2 & CA' & A).
    exists st', l', a'. repeat (split; [assumption || reflexivity|]).
    rewrite E1. cbn [bind]. rewrite E2. cbn [bind].
    destruct A as [->|A].
    + left. cbn. auto.
    + right. split; [exact A|].
      destruct (Z.ltb_spec 0 a'); [|lia]. destruct (Z.eqb_spec (a' - 1) 0); [lia|].
      destruct (greedy (a' - 1)) as [e G]; [lia|]. rewrite G. reflexivity.
  - left. auto.
Qed.

(* The scanner always answers.  A symbol it finds anew is a terminal other
   than the end of file. *)
Lemma scan_total m : 0 <= m < 70 -> forall text st n best, 0 <= st < states_of m ->
  exists f, scan m st text n best = Ok f /\
    (fsym f = fst best /\ flen f = snd best \/ 1 <= fsym f < 59 /\ (n < flen f)%nat) /\
    (flen f <= Nat.max (snd best) (n + length text))%nat /\
    (n <= fread f <= n + length text)%nat /\ (snd best <= n -> flen f <= fread f)%nat.
Proof.
  intros Hm. induction text as [|c text IH]; intros st n best Hst.
  - cbn [scan]. eexists. split; [reflexivity|]. cbn. split; [left; auto|]. repeat split; lia.
  - destruct (scan_cases m st c text n best Hm Hst) as (l & a & CA & [(F & E)|H]).
    + rewrite E. eexists. split; [reflexivity|]. cbn. split; [left; auto|]. repeat split; lia.
    + destruct H as (st' & l' & a' & F & R & P & CA' & [(A & E)|(A & E)]); rewrite E.
      * destruct (IH st' (S n) best R) as (f & Ef & S1 & S2 & S3 & S4).
        exists f. split; [exact Ef|]. split; [|repeat split; cbn [length]; lia].
        destruct S1 as [S1|S1]; [left; exact S1|right; split; lia].
      * destruct (IH st' (S n) (a' - 1, S n) R) as (f & Ef & S1 & S2 & S3 & S4).
        exists f. split; [exact Ef|]. cbn [fst snd] in *.
        split; [|repeat split; cbn [length]; lia].
        right. destruct S1 as [[S1 S1']|[S1 S1']]; split; lia.
Qed.

(** * Regular expressions *)

Fixpoint nullable (r : re) : bool :=
  match r with
  | Void | Range _ | Except _ => false
  | Eps | Star _ => true
  | Cat a b => nullable a && nullable b
  | Alt a b => nullable a || nullable b
  end.


Definition range_eqb (p q : Z * Z) : bool := (fst p =? fst q) && (snd p =? snd q).
Fixpoint ranges_eqb (l l' : list (Z * Z)) : bool :=
  match l, l' with
  | [], [] => true
  | p :: l, q :: l' => range_eqb p q && ranges_eqb l l'
  | _, _ => false
  end.
Fixpoint re_eqb (r s : re) : bool :=
  match r, s with
  | Void, Void | Eps, Eps => true
  | Range l, Range l' | Except l, Except l' => ranges_eqb l l'
  | Cat a b, Cat a' b' | Alt a b, Alt a' b' => re_eqb a a' && re_eqb b b'
  | Star a, Star a' => re_eqb a a'
  | _, _ => false
  end.

Lemma ranges_eqb_eq l l' : ranges_eqb l l' = true -> l = l'.
Proof.
  revert l'. induction l as [|[a b] l IH]; destruct l' as [|[c d] l']; cbn; try discriminate; auto.
  unfold range_eqb. cbn. rewrite !andb_true_iff, !Z.eqb_eq. intros [[-> ->] E].
  rewrite (IH _ E). reflexivity.
Qed.

Lemma re_eqb_eq r s : re_eqb r s = true -> r = s.
Proof.
  revert s. induction r; destruct s; cbn; try discriminate; auto; intros E;
    try (rewrite (ranges_eqb_eq _ _ E); reflexivity);
    try (apply andb_true_iff in E as [E1 E2]; rewrite (IHr1 _ E1), (IHr2 _ E2); reflexivity).
  rewrite (IHr _ E). reflexivity.
Qed.

Definition cat (a b : re) : re :=
  match a, b with
  | Void, _ | _, Void => Void
  | Eps, _ => b
  | _, Eps => a
  | _, _ => Cat a b
  end.
(* b is one of the branches of a. *)
Fixpoint branch (b a : re) : bool :=
  re_eqb b a || match a with Alt a1 a2 => branch b a1 || branch b a2 | _ => false end.
Fixpoint alt (a b : re) : re :=
  match b with
  | Void => a
  | Alt b1 b2 => alt (alt a b1) b2
  | _ => match a with Void => b | _ => if branch b a then a else Alt a b end
  end.

(* The derivative by a character code (of a character 0..127). *)
Fixpoint deriv (x : Z) (r : re) : re :=
  match r with
  | Void | Eps => Void
  | Range l => if in_ranges l x then Eps else Void
  | Except l => if in_ranges l x then Void else Eps
  | Cat a b => if nullable a then alt (cat (deriv x a) b) (deriv x b) else cat (deriv x a) b
  | Alt a b => alt (deriv x a) (deriv x b)
  | Star a => cat (deriv x a) (Star a)
  end.

Lemma nullable_matches r : nullable r = true -> matches r [].
Proof.
  induction r; cbn; try discriminate; intros E.
  - constructor.
  - apply andb_true_iff in E as [E1 E2]. change (@nil ascii) with (@nil ascii ++ []).
    constructor; auto.
  - apply orb_true_iff in E as [E|E]; [apply M_left|apply M_right]; auto.
  - constructor.
Qed.

Lemma cat_matches a b w : matches (cat a b) w -> matches (Cat a b) w.
Proof.
  assert (V : forall a v, matches (Cat a Void) v -> False)
    by (intros ? ? H; inversion H; subst; match goal with H : matches Void _ |- _ => inversion H end).
  destruct a; cbn; try (intros H; inversion H; fail);
    destruct b; try (intros H; exact H); try (intros H; inversion H; fail);
    try (intros H; rewrite <- (app_nil_r w); constructor; [exact H|constructor]);
    try (intros H; rewrite <- (app_nil_l w); constructor; [constructor|exact H]).
Qed.

Lemma alt_matches b w : forall a, matches (alt a b) w -> matches a w \/ matches b w.
Proof.
  assert (G : forall a b, matches (match a with Void => b | _ => if branch b a then a else Alt a b end) w ->
     matches a w \/ matches b w).
  { intros a b' H. destruct a; auto;
    match type of H with matches (if ?c then _ else _) _ => destruct c end; auto;
    inversion H; subst; auto. }
  induction b; intros a H; cbn [alt] in H; auto.
  apply IHb2 in H as [H|H]; [|right; apply M_right; exact H].
  apply IHb1 in H as [H|H]; [auto|right; apply M_left; exact H].
Qed.

Lemma deriv_matches c r : forall w, 0 <= code c -> matches (deriv (code c) r) w -> matches r (c :: w).
Proof.
  intros w P. revert w. induction r; cbn; intros w H.
  - inversion H.
  - inversion H.
  - destruct (in_ranges ranges (code c)) eqn:E; inversion H; subst. constructor; assumption.
  - destruct (in_ranges ranges (code c)) eqn:E; inversion H; subst. constructor; assumption.
  - assert (L : matches (cat (deriv (code c) r1) r2) w -> matches (Cat r1 r2) (c :: w)).
    { intros K. apply cat_matches in K. inversion K; subst.
      rewrite app_comm_cons. constructor; auto. }
    destruct (nullable r1) eqn:N; [|auto].
    apply alt_matches in H as [H|H]; [auto|].
    rewrite <- (app_nil_l (c :: w)). constructor; [apply nullable_matches; assumption|auto].
  - apply alt_matches in H as [H|H]; [apply M_left|apply M_right]; auto.
  - apply cat_matches in H. inversion H; subst. rewrite app_comm_cons. constructor; auto.
Qed.

Fixpoint derivs (w : list ascii) (r : re) : re :=
  match w with [] => r | c :: w' => derivs w' (deriv (code c) r) end.

Lemma derivs_matches w : forall r, Forall (fun c => 0 <= code c) w ->
  nullable (derivs w r) = true -> matches r w.
Proof.
  induction w as [|c w IH]; intros r P H.
  - apply nullable_matches, H.
  - inversion P; subst. apply deriv_matches; [assumption|]. apply IH; assumption.
Qed.

Lemma derivs_app w c r : derivs (w ++ [c]) r = deriv (code c) (derivs w r).
Proof. revert r. induction w; cbn; auto. Qed.

Lemma derivs_void w : derivs w Void = Void.
Proof. induction w; cbn; auto. Qed.

(** * The scanner finds lexemes *)

(* Not in the code: a state of a machine together with what is left of the
   lexemes of the symbols the machine accepts. *)
Definition pair := (Z * list (Z * re))%type.

Fixpoint vec_eqb (u v : list (Z * re)) : bool :=
  match u, v with
  | [], [] => true
  | (x, r) :: u, (y, s) :: v => (x =? y) && re_eqb r s && vec_eqb u v
  | _, _ => false
  end.

Lemma vec_eqb_eq u v : vec_eqb u v = true -> u = v.
Proof.
  revert v. induction u as [|[x r] u IH]; destruct v as [|[y s] v]; cbn; try discriminate; auto.
  rewrite !andb_true_iff, Z.eqb_eq. intros [[-> E] E'].
  rewrite (re_eqb_eq _ _ E), (IH _ E'). reflexivity.
Qed.

Definition pair_in (p : pair) (l : list pair) : bool :=
  existsb (fun q => (fst p =? fst q) && vec_eqb (snd p) (snd q)) l.

Lemma pair_in_In p l : pair_in p l = true -> In p l.
Proof.
  unfold pair_in. rewrite existsb_exists. intros ([y v] & I & E).
  apply andb_true_iff in E as [E1 E2]. apply Z.eqb_eq in E1. apply vec_eqb_eq in E2.
  destruct p. cbn in *. subst. exact I.
Qed.

Definition advance (x : Z) (v : list (Z * re)) : list (Z * re) :=
  map (fun p => (fst p, deriv x (snd p))) v.

Fixpoint upto (n : nat) : list Z :=
  match n with O => [] | S n' => upto n' ++ [Z.of_nat n'] end.

Definition succ (row : list (option (list (Z * Z * Z)) * Z)) (p : pair) : list pair :=
  match nth_error row (Z.to_nat (fst p)) with
  | Some (Some l, _) =>
      flat_map (fun x => match first l x with
                         | Some t => [(t, advance x (snd p))]
                         | None => []
                         end) (upto 128)
  | _ => []
  end.

Fixpoint explore (fuel : nat) row (todo seen : list pair) : list pair :=
  match fuel, todo with
  | S fuel', p :: todo' =>
      if pair_in p seen then explore fuel' row todo' seen
      else
        let new := fold_right (fun q acc => if pair_in q acc then acc else q :: acc) []
                     (succ row p) in
        explore fuel' row (new ++ todo') (p :: seen)
  | _, _ => seen
  end.

(* The symbols a machine accepts, with their lexemes. *)
Definition vector (row : list (option (list (Z * Z * Z)) * Z)) : list (Z * re) :=
  map (fun x => (x, lexeme x)) 
    (filter (fun x => existsb (fun p => snd p =? x + 1) row) (upto 59)).

Fixpoint lookup_re (x : Z) (v : list (Z * re)) : option re :=
  match v with [] => None | (y, r) :: v' => if y =? x then Some r else lookup_re x v' end.

(* A set of pairs is closed under transitions, and accepting states accept
   only what is a complete lexeme. *)
Definition closed row (l : list pair) : bool :=
  forallb (fun p =>
    forallb (fun q =>
      pair_in q l &&
      match nth_error row (Z.to_nat (fst q)) with
      | Some (_, a) =>
          (a =? 0) || match lookup_re (a - 1) (snd q) with
                      | Some r => nullable r
                      | None => false
                      end
      | None => false
      end) (succ row p)) l
  && pair_in (0, vector row) l.

Definition simulated row : bool :=
  closed row (explore 3000 row [(0, vector row)] []).


Lemma all_simulated : forallb simulated machines = true.
Proof. vm_compute. reflexivity. Qed.

Lemma upto_In n x : 0 <= x < Z.of_nat n -> In x (upto n).
Proof.
  induction n as [|n IH]; [lia|]. intros H. cbn [upto]. apply in_or_app.
  destruct (Z.eq_dec x (Z.of_nat n)) as [->|D]; [right; left; reflexivity|left; apply IH; lia].
Qed.

Lemma code_bound c : code c < 128.
Proof.
  unfold code. pose proof (nat_ascii_bounded c).
  destruct (Z.ltb_spec (Z.of_nat (nat_of_ascii c)) 128); lia.
Qed.

Lemma advance_lookup x v y r : lookup_re y v = Some r ->
  lookup_re y (advance x v) = Some (deriv x r).
Proof.
  induction v as [|[z s] v IH]; cbn; [discriminate|].
  destruct (z =? y); [intros E; inversion E; reflexivity|exact IH].
Qed.

Lemma advance_lookup_inv x v y r : lookup_re y (advance x v) = Some r ->
  exists s, lookup_re y v = Some s /\ r = deriv x s.
Proof.
  induction v as [|[z s] v IH]; cbn; [discriminate|].
  destruct (z =? y); [intros E; inversion E; eauto|exact IH].
Qed.

Lemma vector_lookup row x r : lookup_re x (vector row) = Some r -> r = lexeme x.
Proof.
  unfold vector. induction (filter _ _) as [|y l IH]; cbn; [discriminate|].
  destruct (Z.eqb_spec y x); [intros E; inversion E; subst; reflexivity|exact IH].
Qed.

(* The pairs reached by a machine after a text. *)
Definition follows (v : list (Z * re)) (w : list ascii) : Prop :=
  forall x r, lookup_re x v = Some r -> r = derivs w (lexeme x).

Lemma scan_finds m row l (Hm : 0 <= m < 70) :
  nth_error machines (Z.to_nat m) = Some row -> closed row l = true ->
  forall text st v w best f,
  0 <= st < states_of m -> In (st, v) l -> follows v w -> Forall (fun c => 0 <= code c) w ->
  scan m st text (length w) best = Ok f ->
  fsym f = fst best /\ flen f = snd best
  \/ matches (lexeme (fsym f)) (firstn (flen f) (w ++ text)).
Proof.
  intros NR CL. induction text as [|c text IH]; intros st v w best f Hst I FW P E.
  - cbn in E. inversion E. subst. cbn. auto.
  - destruct (scan_cases m st c text (length w) best Hm Hst) as (rl & a & CA & [(F & E')|H]).
    + rewrite E' in E. inversion E. subst. cbn. auto.
    + destruct H as (st' & l' & a' & F & R & Pc & CA' & H).
      unfold cell_at in CA, CA'. rewrite NR in CA, CA'.
      assert (SU : In (st', advance (code c) v) (succ row (st, v))).
      { unfold succ. cbn [fst snd]. rewrite CA. apply in_flat_map. exists (code c). split.
        - apply upto_In. pose proof (code_bound c). lia.
        - rewrite F. left. reflexivity. }
      unfold closed in CL. pose proof CL as CL'. apply andb_true_iff in CL' as [CL' _].
      rewrite forallb_forall in CL'. specialize (CL' _ I).
      rewrite forallb_forall in CL'. specialize (CL' _ SU).
      apply andb_true_iff in CL' as [I' A]. apply pair_in_In in I'.
      cbn [fst snd] in A. rewrite CA' in A.
      assert (FW' : follows (advance (code c) v) (w ++ [c])).
      { intros x r Hx. apply advance_lookup_inv in Hx as (s & Hs & ->).
        rewrite derivs_app, (FW _ _ Hs). reflexivity. }
      assert (P' : Forall (fun c => 0 <= code c) (w ++ [c]))
        by (apply Forall_app; split; [assumption|constructor; auto]).
      assert (LW : length (w ++ [c]) = S (length w)) by (rewrite app_length; cbn; lia).
      assert (WT : (w ++ [c]) ++ text = w ++ c :: text) by (rewrite <- app_assoc; reflexivity).
      destruct H as [(-> & E')|(A2 & E')]; rewrite E', <- LW in E.
      * destruct (IH st' _ (w ++ [c]) best f R I' FW' P' E) as [G|G]; [auto|].
        rewrite WT in G. auto.
      * destruct (IH st' _ (w ++ [c]) (a' - 1, length (w ++ [c])) f R I' FW' P' E)
          as [[G1 G2]|G]; [|rewrite WT in G; auto].
        right. cbn [fst snd] in *. rewrite G1, G2, <- WT.
        rewrite firstn_app, Nat.sub_diag, firstn_all. cbn [firstn]. rewrite app_nil_r.
        destruct (Z.eqb_spec a' 0); [lia|]. cbn [orb] in A.
        destruct (lookup_re (a' - 1) (advance (code c) v)) as [r|] eqn:L; [|discriminate].
        rewrite (FW' _ _ L) in A. apply derivs_matches; assumption.
Qed.

Lemma simulated_closed row : simulated row = true -> exists l, closed row l = true.
Proof.
  unfold simulated. generalize (explore 3000 row [(0, vector row)] []).
  intros l H. exists l. exact H.
Qed.

Lemma closed_set row : In row machines -> exists l, closed row l = true.
Proof.
  intros I. apply simulated_closed. revert row I. apply forallb_forall. exact all_simulated.
Qed.

Lemma closed_start row l : closed row l = true -> In (0, vector row) l.
Proof.
  unfold closed. intros H. apply andb_true_iff in H as [_ H]. apply pair_in_In, H.
Qed.

Lemma scan_lexeme m text f : 0 <= m < 70 -> scan m 0 text 0 (-1, 0%nat) = Ok f ->
  fsym f = -1 /\ flen f = 0%nat
  \/ 1 <= fsym f < 59 /\ (0 < flen f <= length text)%nat /\
     matches (lexeme (fsym f)) (firstn (flen f) text).
Proof.
  intros Hm E.
  assert (Z0 : 0 <= 0 < states_of m).
  { destruct tables_ok as (OK & _ & _ & _ & L1 & L2 & _).
    unfold states_of. destruct (nth_error machines (Z.to_nat m)) as [row|] eqn:N.
    - rewrite forallb_forall in OK. specialize (OK _ (nth_error_In _ _ N)).
      unfold row_ok in OK. apply andb_true_iff in OK as [_ OK]. apply Z.leb_le in OK. lia.
    - apply nth_error_None in N. rewrite machines_eq, map_length, combine_length, L1, L2 in N. lia. }
  destruct (scan_total m Hm text 0 0%nat (-1, 0%nat) Z0) as (f' & E' & S1 & S2 & S3 & S4).
  rewrite E in E'. inversion E'. subst f'. cbn [fst snd] in *.
  destruct S1 as [S1|[S1 S1']]; [left; exact S1|right]. split; [exact S1|]. split; [cbn in S2; lia|].
  unfold states_of in Z0. destruct (nth_error machines (Z.to_nat m)) as [row|] eqn:N; [|lia].
  destruct (closed_set row (nth_error_In _ _ N)) as [l CL].
  pose proof (closed_start _ _ CL) as I.
  assert (Z0' : 0 <= 0 < states_of m) by (unfold states_of; rewrite N; exact Z0).
  destruct (scan_finds m row l Hm N CL text 0 (vector row) [] (-1, 0%nat) f Z0' I) as [[G1 G2]|G].
  - intros x r Hx. cbn [derivs]. apply vector_lookup in Hx. exact Hx.
  - constructor.
  - exact E.
  - cbn [fst] in G1. lia.
  - exact G.
Qed.

(* The symbol found is one the machine accepts. *)
Lemma scan_accepts m row : 0 <= m < 70 -> nth_error machines (Z.to_nat m) = Some row ->
  forall text st n best f, 0 <= st < states_of m -> scan m st text n best = Ok f ->
  fsym f = fst best \/ exists l, In (l, fsym f + 1) row.
Proof.
  intros Hm NR. induction text as [|c text IH]; intros st n best f Hst E.
  - cbn in E. inversion E. subst. auto.
  - destruct (scan_cases m st c text n best Hm Hst) as (rl & a & CA & [(F & E')|H]).
    + rewrite E' in E. inversion E. subst. auto.
    + destruct H as (st' & l' & a' & F & R & Pc & CA' & [(A & E')|(A & E')]); rewrite E' in E.
      * eapply IH; eauto.
      * destruct (IH _ _ _ _ R E) as [G|G]; [|auto]. cbn [fst] in G. right.
        unfold cell_at in CA'. rewrite NR in CA'. exists (Some l').
        apply nth_error_In in CA'. rewrite G. replace (a' - 1 + 1) with a' by lia. exact CA'.
Qed.
