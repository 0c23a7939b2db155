(* The buffer holds what Parser.v says it holds. *)
From Coq Require Import ZArith String Ascii List Bool Arith Lia.
From Verif Require Import Base Tables Parser ParserSpec Buffer BufferSpec.
Import ListNotations.
Open Scope list_scope.
Open Scope Z_scope.

Lemma nth_error_ext_eq {A} : forall (l l' : list A), (forall i, nth_error l i = nth_error l' i) -> l = l'.
Proof.
  induction l as [|a l IH]; intros [|b l'] H; [reflexivity|discriminate (H O)|discriminate (H O)|].
  f_equal; [injection (H O); auto|]. apply IH. intros i. apply (H (S i)).
Qed.

Lemma store_ok cs i v : (i < length cs)%nat ->
  exists cs', store cs i v = Ok cs' /\ length cs' = length cs /\ nth_error cs' i = Some (Some v) /\
    forall j, j <> i -> nth_error cs' j = nth_error cs j.
Proof.
  intros L. unfold store. destruct (Nat.ltb_spec i (length cs)) as [_|B]; [|lia].
  eexists. split; [reflexivity|].
  assert (LF : length (firstn i cs) = i) by (rewrite firstn_length; lia).
  split; [|split].
  - rewrite app_length, LF. cbn [length]. rewrite skipn_length. lia.
  - rewrite nth_error_app2 by lia. rewrite LF, Nat.sub_diag. reflexivity.
  - intros j N. destruct (Nat.lt_ge_cases j i) as [J|J].
    + rewrite nth_error_app1 by lia. rewrite <- (firstn_skipn i cs) at 2. rewrite nth_error_app1 by lia. reflexivity.
    + rewrite nth_error_app2 by lia. rewrite LF.
      rewrite <- (firstn_skipn (S i) cs) at 2.
      rewrite nth_error_app2; rewrite firstn_length; [|lia].
      replace (Nat.min (S i) (length cs)) with (S i) by lia.
      replace (j - i)%nat with (S (j - S i)) by lia. reflexivity.
Qed.

Lemma load_ok cs i v : nth_error cs i = Some (Some v) -> load cs i = Ok v.
Proof. unfold load. intros ->. reflexivity. Qed.

Lemma resize_length n cs : length (resize n cs) = n.
Proof. unfold resize. rewrite app_length, firstn_length, repeat_length. lia. Qed.

Lemma resize_nth n cs i : (i < n)%nat -> (i < length cs)%nat -> nth_error (resize n cs) i = nth_error cs i.
Proof.
  intros L1 L2. unfold resize. rewrite nth_error_app1 by (rewrite firstn_length; lia).
  rewrite <- (firstn_skipn n cs) at 2. rewrite nth_error_app1 by (rewrite firstn_length; lia). reflexivity.
Qed.

(* The buffer holds the first n characters of the text; the others are still
   to be fetched. *)
Record holds (b : buffer) (text : list ascii) (n : nat) : Prop := {
  h_used : used b = n;
  h_le : (n <= length text)%nat;
  h_clean : Forall (fun c => code c <> 0 /\ code c <> 10) text;
  h_size : cells b = [] /\ n = O \/
           exists k, length (cells b) = (129 + 128 * k)%nat /\ (n < length (cells b))%nat;
  h_chars : forall i, (i < n)%nat ->
    nth_error (cells b) i = option_map (fun c => Some (code c)) (nth_error text i);
  h_end : cells b <> [] -> exists v, nth_error (cells b) n = Some (Some v) /\
    ((0 < n)%nat -> ended b = false -> v = 0);
  h_queue : if ended b then n = length text /\ cells b <> []
            else exists junk, queue b = map code (skipn n text) ++ 10 :: junk
}.

Lemma clean_nth text i c : Forall (fun c => code c <> 0 /\ code c <> 10) text ->
  nth_error text i = Some c -> code c <> 0 /\ code c <> 10.
Proof. intros F E. rewrite Forall_forall in F. exact (F c (nth_error_In _ _ E)). Qed.

Lemma nth_some {A} (l : list A) i : (i < length l)%nat -> exists a, nth_error l i = Some a.
Proof.
  intros L. destruct (nth_error l i) eqn:E; [eauto|]. apply nth_error_None in E. lia.
Qed.

Lemma enlarge_ok b text n : holds b text n ->
  exists b', enlarge b = Ok b' /\ holds b' text n /\ cells b' <> [] /\ ended b' = ended b /\
    (n + 2 <= length (cells b'))%nat.
Proof.
  intros [U LE CL SZ CH EN Q]. unfold enlarge. destruct SZ as [[C N]|(k & LC & LN)].
  - rewrite C. revert U LE CH EN Q. rewrite N. clear N n. intros U LE CH EN Q. eexists. split; [reflexivity|]. split; [|split; [|split]].
    + constructor; cbn -[repeat]; auto.
      * right. exists O. rewrite repeat_length. lia.
      * intros; lia.
      * intros _. exists 0. split; [reflexivity|]. intros; lia.
      * destruct (ended b); [|exact Q]. destruct Q as [_ Q]. contradiction.
    + discriminate.
    + reflexivity.
    + cbn [cells length]. rewrite repeat_length. lia.
  - assert (NE : cells b <> []) by (intros E; rewrite E in LC; discriminate).
    destruct (EN NE) as (v & EV & Z0).
    assert (LD : exists w, load (cells b) 0 = Ok w /\ ((0 < n)%nat -> w <> 0)).
    { destruct n as [|n].
      - exists v. split; [apply load_ok; exact EV|lia].
      - destruct (nth_some text 0) as [c EC]; [lia|]. exists (code c). split.
        + apply load_ok. rewrite CH by lia. rewrite EC. reflexivity.
        + intros _. apply (clean_nth _ _ _ CL EC). }
    destruct LD as (w & LD & WZ).
    destruct (cells b) as [|c0 cs] eqn:EC; [contradiction|]. rewrite <- EC in *. rewrite LD. cbn [bind].
    destruct (Z.eqb_spec w 0) as [W|W]; cbn [negb andb].
    + eexists. split; [reflexivity|]. split; [constructor; auto; right; eauto|]. repeat split; auto. lia.
    + rewrite U. destruct (Nat.eqb_spec (n mod 128) 0) as [M|M].
      * eexists. split; [reflexivity|]. split; [|split; [|split]]; cbn [cells used ended].
        -- constructor; cbn [cells used ended queue]; auto.
           ++ right. exists (n / 128)%nat. rewrite resize_length.
              pose proof (Nat.div_mod n 128). lia.
           ++ intros i Hi. rewrite resize_nth by lia. apply CH. exact Hi.
           ++ intros _. exists v. split; [|exact Z0]. rewrite resize_nth by lia. exact EV.
           ++ destruct (ended b); [|exact Q]. split; [apply Q|].
              intros E. apply (f_equal (@length _)) in E. rewrite resize_length in E. cbn in E. lia.
        -- intros E. apply (f_equal (@length _)) in E. rewrite resize_length in E. cbn in E. lia.
        -- reflexivity.
        -- rewrite resize_length. lia.
      * eexists. split; [reflexivity|]. split; [constructor; auto; right; eauto|]. repeat split; auto.
        destruct (Nat.eq_dec (n + 1) (length (cells b))) as [E|E]; [|lia].
        exfalso. apply M. replace n with ((k + 1) * 128)%nat by lia. apply Nat.mod_mul. lia.
Qed.

Lemma refill_more b text n : holds b text n -> (n < length text)%nat ->
  exists b', refill b = Ok (false, b') /\ holds b' text (S n).
Proof.
  intros H L. unfold refill. destruct (enlarge_ok b text n H) as (b1 & E & H1 & NE & EN & LN).
  rewrite E. cbn [bind]. clear H E b EN. destruct H1 as [U LE CL SZ CH EN Q].
  destruct (ended b1) eqn:ED; [destruct Q; lia|]. destruct Q as [junk Q].
  destruct (nth_some text n L) as [c EC].
  assert (SK : skipn n text = c :: skipn (S n) text).
  { clear - EC. revert n EC. induction text as [|d text IH]; intros [|n] EC; try discriminate.
    - injection EC as ->. reflexivity.
    - cbn [skipn nth_error] in *. rewrite (IH _ EC). reflexivity. }
  rewrite SK in Q. cbn [map app] in Q. rewrite Q, U.
  destruct (store_ok (cells b1) n (code c)) as (cs & S1 & S2 & S3 & S4); [lia|]. rewrite S1. cbn [bind].
  destruct (clean_nth _ _ _ CL EC) as [_ C10]. apply Z.eqb_neq in C10. rewrite C10.
  destruct (store_ok cs (S n) 0) as (cs' & T1 & T2 & T3 & T4); [lia|]. rewrite T1. cbn [bind].
  eexists. split; [reflexivity|].
  constructor; cbn [cells used ended queue].
  - reflexivity.
  - lia.
  - exact CL.
  - right. destruct SZ as [[C _]|(k & LC & _)]; [contradiction|]. exists k. rewrite T2, S2. lia.
  - intros i Hi. rewrite T4 by lia. destruct (Nat.eq_dec i n) as [->|N].
    + rewrite S3, EC. reflexivity.
    + rewrite S4 by exact N. apply CH. lia.
  - intros _. exists 0. split; [exact T3|auto].
  - exists junk. reflexivity.
Qed.

Lemma refill_end b text n : holds b text n -> n = length text ->
  exists b', refill b = Ok (true, b') /\ holds b' text n /\ ended b' = true.
Proof.
  intros H L. unfold refill. destruct (enlarge_ok b text n H) as (b1 & E & H1 & NE & EN & LN).
  rewrite E. cbn [bind]. clear H E b EN.
  destruct (ended b1) eqn:ED; [eauto|]. destruct H1 as [U LE CL SZ CH EN Q].
  rewrite ED in Q. destruct Q as [junk Q].
  assert (SK : skipn n text = []) by (subst n; apply skipn_all). rewrite SK in Q. cbn [map app] in Q.
  rewrite Q, U. destruct (store_ok (cells b1) n 10) as (cs & S1 & S2 & S3 & S4); [lia|]. rewrite S1. cbn [bind Z.eqb Pos.eqb].
  eexists. split; [reflexivity|].
  assert (NC : cs <> []).
  { intros C. rewrite C in S2. cbn in S2. lia. }
  split; [|reflexivity].
  constructor; cbn [cells used ended queue]; auto.
  - right. destruct SZ as [[C _]|(k & LC & _)]; [contradiction|]. exists k. rewrite S2. lia.
  - intros i Hi. rewrite S4 by lia. apply CH. exact Hi.
  - intros _. exists 10. split; [exact S3|discriminate].
Qed.

Lemma buf_eta b : Buf (cells b) (used b) (queue b) (ended b) = b.
Proof. destruct b; reflexivity. Qed.

(* The character at an offset, the newline behind the last. *)
Definition char_at (text : list ascii) (off : nat) : Z :=
  match nth_error text off with Some c => code c | None => 10 end.

Lemma get_loop_ok text off : forall fuel b n, holds b text n -> (S off <= n + fuel)%nat ->
  exists b', get_loop fuel off b = Ok (char_at text off, b') /\
    holds b' text (Nat.max n (Nat.min (S off) (length text))) /\
    ((length text <= off)%nat -> ended b' = true).
Proof.
  induction fuel as [|fuel IH]; intros b n H F; pose proof (h_used _ _ _ H) as U; pose proof (h_le _ _ _ H) as LE.
  - cbn [get_loop]. rewrite U. destruct (Nat.leb_spec n off); [lia|].
    destruct (nth_some text off) as [c EC]; [lia|].
    assert (LD : load (cells b) off = Ok (code c)).
    { apply load_ok. rewrite (h_chars _ _ _ H) by lia. rewrite EC. reflexivity. }
    rewrite LD. cbn [bind]. unfold char_at. rewrite EC. exists b. split; [reflexivity|].
    replace (Nat.max n _) with n by lia. split; [exact H|lia].
  - cbn [get_loop]. rewrite U. destruct (Nat.leb_spec n off).
    + destruct (Nat.eq_dec n (length text)) as [L|L].
      * destruct (refill_end b text n H L) as (b' & E & H' & ED). rewrite E. cbn [bind].
        exists b'. split.
        -- unfold char_at. destruct (nth_error text off) eqn:EC; [|reflexivity].
           assert (nth_error text off <> None) as NN by (rewrite EC; discriminate).
           apply nth_error_Some in NN. lia.
        -- replace (Nat.max n _) with n by lia. auto.
      * destruct (refill_more b text n H) as (b' & E & H'); [lia|]. rewrite E. cbn [bind].
        destruct (IH b' (S n) H') as (b2 & E2 & H2 & D2); [lia|]. exists b2. split; [exact E2|].
        replace (Nat.max n _) with (Nat.max (S n) (Nat.min (S off) (length text))) by lia. auto.
    + destruct (nth_some text off) as [c EC]; [lia|].
      assert (LD : load (cells b) off = Ok (code c)).
      { apply load_ok. rewrite (h_chars _ _ _ H) by lia. rewrite EC. reflexivity. }
      rewrite LD. cbn [bind]. unfold char_at. rewrite EC. exists b. split; [reflexivity|].
      replace (Nat.max n _) with n by lia. split; [exact H|lia].
Qed.

Lemma get_input_ok b text n off : holds b text n ->
  exists b', get_input off b = Ok (char_at text off, b') /\
    holds b' text (Nat.max n (Nat.min (S off) (length text))) /\
    ((length text <= off)%nat -> ended b' = true).
Proof. intros H. apply get_loop_ok; [exact H|lia]. Qed.

Lemma advance_ok text : Forall (fun c => code c <> 0 /\ code c <> 10) text ->
  forall n cs p, (n <= length text)%nat ->
  (forall i, (i < n)%nat -> nth_error cs i = option_map (fun c => Some (code c)) (nth_error text i)) ->
  advance n cs p = Ok (fst p, (snd p + n)%nat).
Proof.
  induction 1 as [|c text [C0 C10] F IH]; intros n cs p L H.
  - cbn in L. replace n with O by lia. cbn [advance]. rewrite Nat.add_0_r. destruct p; reflexivity.
  - destruct n as [|n]; [cbn [advance]; rewrite Nat.add_0_r; destruct p; reflexivity|].
    pose proof (H O ltac:(lia)) as H0. cbn [nth_error option_map] in H0.
    destruct cs as [|o cs]; [discriminate|]. injection H0 as ->. cbn [advance].
    apply Z.eqb_neq in C10. rewrite C10. rewrite IH.
    + cbn [fst snd]. f_equal. f_equal. lia.
    + cbn in L. lia.
    + intros i Hi. apply (H (S i)). lia.
Qed.

Lemma skipn_nth {A} k : forall (l : list A) i, nth_error (skipn k l) i = nth_error l (k + i).
Proof.
  induction k as [|k IH]; intros l i; [reflexivity|]. destruct l as [|a l]; [cbn [skipn]; destruct i; reflexivity|].
  cbn [skipn plus nth_error]. apply IH.
Qed.

Lemma firstn_nth {A} k : forall (l : list A) i, (i < k)%nat -> nth_error (firstn k l) i = nth_error l i.
Proof.
  induction k as [|k IH]; intros l i L; [lia|]. destruct l as [|a l]; [destruct i; reflexivity|].
  destruct i as [|i]; [reflexivity|]. cbn [firstn nth_error]. apply IH. lia.
Qed.

Lemma clear_some b text n len p : holds b text n -> (0 < len <= n)%nat ->
  (exists b', clear len b p = Ok (b', (fst p, (snd p + len)%nat)) /\ holds b' (skipn len text) (n - len)) \/
  (clear len b p = UB /\ 128 <= n)%nat.
Proof.
  intros H L. destruct H as [U LE CL SZ CH EN Q]. unfold clear.
  destruct SZ as [[C N]|(k & LC & LN)]; [lia|].
  assert (NE : cells b <> []) by (intros E; rewrite E in LC; discriminate).
  destruct (cells b) as [|c0 cs0] eqn:EC; [contradiction|]. rewrite <- EC in *. clear EC c0 cs0.
  destruct len as [|len']; [lia|]. remember (S len') as len eqn:EL. clear EL len'.
  rewrite (advance_ok text CL len (cells b) p) by (try lia; intros; apply CH; lia).
  cbn [bind]. rewrite U. destruct (Nat.ltb_spec n len); [lia|]. cbn [orb].
  destruct (Nat.ltb_spec (length (cells b)) (n + 2)) as [B|B].
  - right. split; [reflexivity|]. lia.
  - left. eexists. split; [reflexivity|].
    set (m := (n - len + 2)%nat). set (cs := firstn m (skipn len (cells b)) ++ skipn m (cells b)).
    assert (LM : length (firstn m (skipn len (cells b))) = m).
    { rewrite firstn_length, skipn_length. unfold m. lia. }
    assert (LCS : length cs = length (cells b)).
    { unfold cs. rewrite app_length, LM, skipn_length. unfold m. lia. }
    assert (NTH : forall i, (i < m)%nat -> nth_error cs i = nth_error (cells b) (len + i)).
    { intros i Hi. unfold cs. rewrite nth_error_app1 by lia. rewrite firstn_nth by exact Hi. apply skipn_nth. }
    assert (NCS : cs <> []) by (intros E; rewrite E in LCS; cbn in LCS; lia).
    constructor; cbn [cells used ended queue].
    + reflexivity.
    + rewrite skipn_length. lia.
    + rewrite <- (firstn_skipn len text) in CL. apply Forall_app in CL. apply CL.
    + right. exists k. lia.
    + intros i Hi. rewrite NTH by (unfold m; lia). rewrite skipn_nth. apply CH. lia.
    + intros _. destruct (EN NE) as (v & EV & VZ). exists v. split.
      * rewrite NTH by (unfold m; lia). replace (len + (n - len))%nat with n by lia. exact EV.
      * intros N E. apply VZ; [lia|exact E].
    + destruct (ended b).
      * rewrite skipn_length. split; [lia|exact NCS].
      * destruct Q as [junk Q]. exists junk. rewrite Q. f_equal. f_equal.
        apply nth_error_ext_eq. intros i. rewrite !skipn_nth. f_equal. lia.
Qed.

Lemma clear_all b text n p : holds b text n ->
  exists b', clear 0 b p = Ok (b', p) /\ idle b'.
Proof.
  intros [U LE CL SZ CH EN Q]. unfold clear. destruct SZ as [[C N]|(k & LC & LN)].
  - rewrite C. exists b. split; [reflexivity|]. split; [congruence|left; exact C].
  - destruct (cells b) as [|c0 cs0] eqn:EC; [discriminate|].
    cbn [length] in LC. unfold store. cbn [Nat.ltb Nat.leb length firstn skipn app bind].
    eexists. split; [reflexivity|]. split; [reflexivity|]. right. cbn [cells]. exists k, 0, cs0. split; [reflexivity|lia].
Qed.

Lemma holds_idle b text : holds b text 0 -> idle b.
Proof.
  intros [U LE CL SZ CH EN Q]. split; [exact U|]. destruct SZ as [[C N]|(k & LC & LN)]; [auto|right].
  destruct EN as (v & EV & _). { intros E; rewrite E in LC; discriminate. }
  destruct (cells b) as [|c0 cs0]; [discriminate|]. injection EV as ->. exists k, v, cs0. split; [reflexivity|].
  cbn [length] in LC. lia.
Qed.

Lemma idle_holds b text junk : idle b -> Forall (fun c => code c <> 0 /\ code c <> 10) text ->
  holds (Buf (cells b) (used b) (map code text ++ 10 :: junk) false) text 0.
Proof.
  intros [U C] CL. constructor; cbn [cells used ended queue]; auto; try lia.
  - destruct C as [C|(k & v & cs & C & LC)]; [auto|right]. exists k. rewrite C. cbn [length]. lia.
  - intros NE. destruct C as [C|(k & v & cs & C & LC)]; [contradiction|]. exists v. rewrite C.
    split; [reflexivity|lia].
  - exists junk. reflexivity.
Qed.

Lemma clear_idle b p : idle b -> exists b', clear 0 b p = Ok (b', p) /\ idle b'.
Proof.
  intros I. pose proof (idle_holds b [] [] I (Forall_nil _)) as H.
  destruct (clear_all _ _ _ p H) as (b' & E & I').
  unfold clear in *. cbn [cells queue ended] in E.
  destruct (cells b) as [|c0 cs0] eqn:EC; [eauto|].
  unfold store in *. cbn [Nat.ltb Nat.leb length firstn skipn app bind] in *.
  eexists. split; [reflexivity|]. injection E as <-. exact I'.
Qed.

(* A token that is all ASCII is taken as it stands. *)
Lemma code_bounds c : -128 <= code c < 128.
Proof.
  unfold code. pose proof (nat_ascii_bounded c). destruct (Z.ltb_spec (Z.of_nat (nat_of_ascii c)) 128); lia.
Qed.

Lemma lexem_ok w : Forall (fun c => 0 <= code c) w -> Forall (fun c => code c <> 0 /\ code c <> 10) w ->
  forall cs, (forall i, (i < length w)%nat -> nth_error cs i = option_map (fun c => Some (code c)) (nth_error w i)) ->
  nth_error cs (length w) = Some (Some 0) -> lexem cs = Ok (map code w).
Proof.
  induction 1 as [|c w P F IH]; intros CL cs H E.
  - destruct cs as [|o cs]; [discriminate|]. injection E as ->. reflexivity.
  - inversion CL as [|c' w' [C0 C10] CL']; subst. pose proof (H O ltac:(cbn; lia)) as H0.
    cbn [nth_error option_map] in H0. destruct cs as [|o cs]; [discriminate|]. injection H0 as ->.
    cbn [lexem map]. destruct (Z.eqb_spec (code c) 0); [contradiction|].
    pose proof (code_bounds c). destruct (Z.ltb_spec (code c) 0); [lia|]. destruct (Z.ltb_spec 127 (code c)); [lia|].
    cbn [orb]. rewrite (IH CL' cs); [reflexivity| |exact E]. intros i Hi. apply (H (S i)). cbn; lia.
Qed.

Lemma chars_back w : Forall (fun c => 0 <= code c) w ->
  map (fun v => ascii_of_nat (Z.to_nat v)) (map code w) = w.
Proof.
  induction 1 as [|c w P F IH]; [reflexivity|]. cbn [map]. rewrite IH. f_equal. unfold code in *.
  destruct (Z.ltb_spec (Z.of_nat (nat_of_ascii c)) 128).
  - rewrite Nat2Z.id. apply ascii_nat_embedding.
  - pose proof (nat_ascii_bounded c). lia.
Qed.

(* The fetcher gives the first line and a newline. *)
Lemma before_nul_line s : before_nul s = map code (line s) \/
  exists junk, before_nul s = map code (line s) ++ 10 :: junk.
Proof.
  induction s as [|c s IH]; [left; reflexivity|]. cbn [before_nul line].
  destruct (Z.eqb_spec (code c) 0) as [C|C]; cbn [orb]; [left; reflexivity|].
  destruct (Z.eqb_spec (code c) 10) as [D|D].
  - right. rewrite D. eexists. reflexivity.
  - cbn [map]. destruct IH as [->|[junk ->]]; [left; reflexivity|right]. exists junk. reflexivity.
Qed.

Lemma last_code l : Forall (fun c => code c <> 0 /\ code c <> 10) l -> last (map code l) 0 <> 10.
Proof.
  induction 1 as [|c l [C0 C10] F IH]; [discriminate|]. cbn [map]. destruct l as [|d l]; [exact C10|exact IH].
Qed.

Lemma fill_line s : Forall (fun c => code c <> 0 /\ code c <> 10) (line s) ->
  exists junk, fill s = map code (line s) ++ 10 :: junk.
Proof.
  intros CL. unfold fill. destruct (before_nul_line s) as [E|[junk E]].
  - rewrite E. pose proof (last_code _ CL). destruct (Z.eqb_spec (last (map code (line s)) 0) 10); [contradiction|].
    exists []. reflexivity.
  - rewrite E. destruct (last _ _ =? 10).
    + exists junk. reflexivity.
    + exists (junk ++ [10]). rewrite <- app_assoc. reflexivity.
Qed.
