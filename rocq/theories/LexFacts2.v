(* The scanner finds every lexeme a state can use. *)
From Coq Require Import ZArith String Ascii List Bool Lia.
From Verif Require Import Base Tables Parser Grammar LexFacts.
Import ListNotations.
Open Scope list_scope.
Open Scope Z_scope.

(** * Derivatives are complete *)

Lemma matches_nullable r w : matches r w -> w = [] -> nullable r = true.
Proof.
  induction 1; cbn [nullable]; intros E; try discriminate; try reflexivity.
  - apply app_eq_nil in E as [E1 E2]. rewrite IHmatches1, IHmatches2; auto.
  - rewrite IHmatches; auto.
  - rewrite IHmatches, orb_true_r; auto.
Qed.

Lemma re_eqb_refl r : re_eqb r r = true.
Proof.
  assert (R : forall l, ranges_eqb l l = true).
  { induction l as [|[a b] l IH]; [reflexivity|]. cbn. unfold range_eqb. cbn. rewrite !Z.eqb_refl. exact IH. }
  induction r; cbn; auto; rewrite ?IHr1, ?IHr2; auto.
Qed.

Lemma cat_complete a b w : matches (Cat a b) w -> matches (cat a b) w.
Proof.
  intros H. inversion H as [| | |a' b' u v U V E1 E2| | | |]; subst.
  destruct a; cbn; try (inversion U; fail);
    destruct b; try (inversion V; fail); try exact H;
    try (inversion U; subst; exact V);
    try (inversion V; subst; rewrite app_nil_r; exact U).
Qed.

Lemma branch_matches b w : forall a, branch b a = true -> matches b w -> matches a w.
Proof.
  induction a; intros E M; cbn [branch] in E; apply orb_true_iff in E as [E|E]; try discriminate;
    try (apply re_eqb_eq in E; subst; exact M).
  apply orb_true_iff in E as [E|E]; [apply M_left|apply M_right]; auto.
Qed.

Lemma alt_complete b w : forall a, matches a w \/ matches b w -> matches (alt a b) w.
Proof.
  assert (G : forall a b, matches a w \/ matches b w ->
     matches (match a with Void => b | _ => if branch b a then a else Alt a b end) w).
  { intros a b' H.
    assert (K : matches (if branch b' a then a else Alt a b') w).
    { destruct (branch b' a) eqn:B.
      - destruct H as [H|H]; [exact H|eapply branch_matches; eauto].
      - destruct H as [H|H]; [apply M_left|apply M_right]; exact H. }
    destruct a; try exact K. destruct H as [H|H]; [inversion H|exact H]. }
  induction b; intros a H; try (apply G; exact H).
  - cbn. destruct H as [H|H]; [exact H|inversion H].
  - cbn [alt]. apply IHb2. destruct H as [H|H].
    + left. apply IHb1. auto.
    + inversion H; subst; [left; apply IHb1; auto|auto].
Qed.

Lemma deriv_complete r w0 : matches r w0 -> forall c w, w0 = c :: w -> matches (deriv (code c) r) w.
Proof.
  induction 1; intros c0 w E; try discriminate.
  - inversion E; subst. cbn. rewrite H. constructor.
  - inversion E; subst. cbn. rewrite H. constructor.
  - cbn [deriv]. destruct u as [|x u].
    + cbn in E. subst v. rewrite (matches_nullable _ _ H eq_refl).
      apply alt_complete. right. apply IHmatches2. reflexivity.
    + cbn in E. inversion E; subst.
      assert (C : matches (cat (deriv (code c0) a) b) (u ++ v)).
      { apply cat_complete. constructor; [apply IHmatches1; reflexivity|exact H0]. }
      destruct (nullable a); [apply alt_complete; left|]; exact C.
  - cbn [deriv]. apply alt_complete. left. auto.
  - cbn [deriv]. apply alt_complete. right. auto.
  - destruct u as [|x u].
    + cbn in E. subst v. apply IHmatches2. reflexivity.
    + cbn in E. inversion E; subst. cbn [deriv]. apply cat_complete.
      constructor; [apply IHmatches1; reflexivity|exact H0].
Qed.

(** * What scanning a text can find *)

(* Not in the code: a state of a machine, the symbol found last, and what the
   rest of the text has to match. *)
Definition node := (Z * Z * re)%type.

Definition chars : list Z := Eval vm_compute in upto 128.

Lemma chars_In x : 0 <= x < 128 -> In x chars.
Proof. change chars with (upto 128). intros H. apply upto_In. cbn. lia. Qed.

Definition move (row : list (option (list (Z * Z * Z)) * Z)) (st best x : Z) : option (Z * Z) :=
  match nth_error row (Z.to_nat st) with
  | Some (Some l, _) =>
      match first l x with
      | Some t => match nth_error row (Z.to_nat t) with
                  | Some (_, a) => Some (t, if 0 <? a then a - 1 else best)
                  | None => None
                  end
      | None => None
      end
  | _ => None
  end.

Definition succs row (p : node) : list node :=
  let '(st, best, r) := p in
  flat_map (fun x => match deriv x r with
                     | Void => []
                     | d => match move row st best x with
                            | Some (t, b) => [(t, b, d)]
                            | None => []
                            end
                     end) chars.

(* The scanner may stop here, because the text ends or no lexeme goes on. *)
Definition exits row (p : node) : list Z :=
  let '(st, best, r) := p in
  if nullable r || existsb (fun x => match deriv x r with
                                     | Void => false
                                     | _ => match move row st best x with Some _ => false | None => true end
                                     end) chars
  then [best] else [].

Definition node_eqb (p q : node) : bool :=
  (fst (fst p) =? fst (fst q)) && (snd (fst p) =? snd (fst q)) && re_eqb (snd p) (snd q).
Definition node_in (p : node) (l : list node) : bool := existsb (node_eqb p) l.

Lemma node_in_In p l : node_in p l = true -> In p l.
Proof.
  unfold node_in. rewrite existsb_exists. intros ([[a b] r] & I & E).
  destruct p as [[a' b'] r']. unfold node_eqb in E. cbn in E. rewrite !andb_true_iff, !Z.eqb_eq in E.
  destruct E as [[-> ->] E]. apply re_eqb_eq in E. subst. exact I.
Qed.

Fixpoint visit (fuel : nat) row (todo seen : list node) : list node :=
  match fuel, todo with
  | S fuel', p :: todo' =>
      if node_in p seen then visit fuel' row todo' seen
      else visit fuel' row
             (fold_right (fun q acc => if node_in q acc then acc else q :: acc) todo' (succs row p))
             (p :: seen)
  | _, _ => seen
  end.

Definition whole row (l : list node) : bool :=
  forallb (fun p => forallb (fun q => node_in q l) (succs row p)) l.

(* The symbols found in texts that match r; None if the search is too short. *)
Definition finds row (r : re) : option (list Z) :=
  let l := visit 3000 row [(0, -1, r)] [] in
  if whole row l && node_in (0, -1, r) l then Some (nodup Z.eq_dec (flat_map (exits row) l)) else None.

Lemma closed_scan m row l : 0 <= m < 70 -> nth_error machines (Z.to_nat m) = Some row ->
  (forall p, In p l -> forallb (fun q => node_in q l) (succs row p) = true) ->
  forall text st best r n k f, In (st, best, r) l -> 0 <= st < states_of m ->
            matches r text -> Forall (fun c => 0 <= code c) text ->
            scan m st text n (best, k) = Ok f -> In (fsym f) (flat_map (exits row) l).
Proof.
  intros Hm N W. induction text as [|c text IH]; intros st best r0 n k f I Hst M P SC.
    - cbn [scan] in SC. inversion SC; subst. cbn [fsym fst].
      apply in_flat_map. exists (st, best, r0). split; [exact I|]. unfold exits.
      rewrite (matches_nullable _ _ M eq_refl). cbn [orb]. left. reflexivity.
    - inversion P as [|? ? Pc P']; subst.
      pose proof (deriv_complete _ _ M c text eq_refl) as MD.
      assert (NV : deriv (code c) r0 <> Void) by (intros V; rewrite V in MD; inversion MD).
      assert (IC : In (code c) chars) by (apply chars_In; pose proof (code_bound c); lia).
      destruct (scan_cases m st c text n (best, k) Hm Hst) as (ls & a & CA & [[F S]|(st' & ls' & a' & F & B' & _ & CA' & S)]).
      + rewrite S in SC. inversion SC; subst. cbn [fsym fst].
        apply in_flat_map. exists (st, best, r0). split; [exact I|]. unfold exits.
        assert (X : existsb (fun x => match deriv x r0 with
              | Void => false
              | _ => match move row st best x with Some _ => false | None => true end
              end) chars = true).
        { apply existsb_exists. exists (code c). split; [exact IC|].
          assert (MV : move row st best (code c) = None).
          { unfold move. unfold cell_at in CA. rewrite N in CA. rewrite CA, F. reflexivity. }
          rewrite MV. destruct (deriv (code c) r0); auto. }
        rewrite X, orb_true_r. left. reflexivity.
      + assert (MV : move row st best (code c) = Some (st', if 0 <? a' then a' - 1 else best)).
        { unfold move. unfold cell_at in CA, CA'. rewrite N in CA, CA'. rewrite CA, F, CA'. reflexivity. }
        assert (IN : In (st', if 0 <? a' then a' - 1 else best, deriv (code c) r0) l).
        { apply node_in_In. specialize (W _ I). rewrite forallb_forall in W. apply W.
          unfold succs. apply in_flat_map. exists (code c). split; [exact IC|]. rewrite MV.
          destruct (deriv (code c) r0); try (left; reflexivity). contradiction. }
        destruct S as [[A0 S]|[A1 S]]; rewrite S in SC.
        * subst a'. change (0 <? 0) with false in IN. exact (IH _ _ _ _ _ _ IN B' MD P' SC).
        * destruct (Z.ltb_spec 0 a'); [|lia]. exact (IH _ _ _ _ _ _ IN B' MD P' SC).
Qed.

Lemma machine_states m row : nth_error machines (Z.to_nat m) = Some row -> 0 <= 0 < states_of m.
Proof.
  intros N. unfold states_of. rewrite N. destruct tables_ok as (OK & _). rewrite forallb_forall in OK.
  specialize (OK _ (nth_error_In _ _ N)). unfold row_ok in OK.
  apply andb_true_iff in OK as [_ OK]. apply Z.leb_le in OK. lia.
Qed.

Lemma finds_scan m row r syms : 0 <= m < 70 -> nth_error machines (Z.to_nat m) = Some row ->
  finds row r = Some syms ->
  forall text f, matches r text -> Forall (fun c => 0 <= code c) text ->
    scan m 0 text 0 (-1, O) = Ok f -> In (fsym f) syms.
Proof.
  intros Hm N. unfold finds. generalize (visit 3000 row [(0, -1, r)] []). intros l. cbv zeta.
  destruct (whole row l && node_in (0, -1, r) l) eqn:E; [|discriminate].
  intros Q text f M P SC. apply (f_equal (fun o => match o with Some s => s | None => [] end)) in Q.
  cbv iota beta in Q. rewrite <- Q. apply andb_true_iff in E as [W I0].
  apply node_in_In in I0. unfold whole in W. rewrite forallb_forall in W.
  apply nodup_In.
  exact (closed_scan m row l Hm N W text 0 (-1) r O O f I0 (machine_states m row N) M P SC).
Qed.

(** * Lexemes that are always found *)

(* The scanner goes on as long as the lexeme of symbol a does, and stops after
   it when the next character is one of those given by ok. *)
Definition takes_node row (a : Z) (ok : Z -> bool) (p : node) : bool :=
  let '(st, best, r) := p in
  forallb (fun x => match deriv x r with
                    | Void => true
                    | _ => match move row st best x with Some _ => true | None => false end
                    end) chars
  && (negb (nullable r)
      || match nth_error row (Z.to_nat st) with Some (_, acc) => acc =? a + 1 | None => false end
         && (best =? a)
         && forallb (fun x => negb (ok x) || match move row st best x with Some _ => false | None => true end) chars).

Definition takes row (a : Z) (r : re) (ok : Z -> bool) : bool :=
  let l := visit 3000 row [(0, -1, r)] [] in
  whole row l && node_in (0, -1, r) l && negb (nullable r) && forallb (takes_node row a ok) l.

Lemma closed_takes m row l a ok : 0 <= a -> 0 <= m < 70 -> nth_error machines (Z.to_nat m) = Some row ->
  (forall p, In p l -> forallb (fun q => node_in q l) (succs row p) = true) ->
  (forall p, In p l -> takes_node row a ok p = true) ->
  forall w rest, match rest with c :: _ => ok (code c) = true /\ 0 <= code c | [] => True end ->
  forall st best r n k, In (st, best, r) l -> 0 <= st < states_of m ->
    matches r w -> Forall (fun c => 0 <= code c) w -> (w = [] -> k = n) ->
    exists f, scan m st (w ++ rest) n (best, k) = Ok f /\ fsym f = a /\ flen f = (n + length w)%nat.
Proof.
  intros Ha Hm N W T w rest O. induction w as [|c w IH]; intros st best r n k I Hst M P K.
  - cbn [app length]. rewrite (K eq_refl). specialize (T _ I). unfold takes_node in T.
    rewrite (matches_nullable _ _ M eq_refl) in T. cbn [negb orb] in T.
    rewrite !andb_true_iff, Z.eqb_eq in T. destruct T as [_ [[_ T2] T3]]. subst best.
    destruct rest as [|c rest].
    + eexists. split; [reflexivity|]. cbn. split; [reflexivity|lia].
    + destruct O as [O1 O2].
      destruct (scan_cases m st c rest n (a, n) Hm Hst) as (ls & a0 & CA & [[F S]|(st' & ls' & a' & F & B' & _ & CA' & S)]).
      * rewrite S. eexists. split; [reflexivity|]. cbn. split; [reflexivity|lia].
      * exfalso. rewrite forallb_forall in T3. specialize (T3 (code c)).
        rewrite O1 in T3. cbn [negb orb] in T3. unfold move in T3. unfold cell_at in CA, CA'. rewrite N in CA, CA'.
        rewrite CA, F, CA' in T3. discriminate T3. apply chars_In. pose proof (code_bound c). lia.
  - inversion P as [|? ? Pc P']; subst.
    pose proof (deriv_complete _ _ M c w eq_refl) as MD.
    assert (NV : deriv (code c) r <> Void) by (intros V; rewrite V in MD; inversion MD).
    assert (IC : In (code c) chars) by (apply chars_In; pose proof (code_bound c); lia).
    pose proof (T _ I) as TN. unfold takes_node in TN. apply andb_true_iff in TN as [TN _].
    rewrite forallb_forall in TN. specialize (TN _ IC).
    destruct (scan_cases m st c (w ++ rest) n (best, k) Hm Hst) as (ls & a0 & CA & [[F S]|(st' & ls' & a' & F & B' & _ & CA' & S)]).
    + exfalso. assert (MV : move row st best (code c) = None).
      { unfold move. unfold cell_at in CA. rewrite N in CA. rewrite CA, F. reflexivity. }
      rewrite MV in TN. destruct (deriv (code c) r); try discriminate. contradiction.
    + assert (MV : move row st best (code c) = Some (st', if 0 <? a' then a' - 1 else best)).
      { unfold move. unfold cell_at in CA, CA'. rewrite N in CA, CA'. rewrite CA, F, CA'. reflexivity. }
      assert (IN : In (st', if 0 <? a' then a' - 1 else best, deriv (code c) r) l).
      { apply node_in_In. specialize (W _ I). rewrite forallb_forall in W. apply W.
        unfold succs. apply in_flat_map. exists (code c). split; [exact IC|]. rewrite MV.
        destruct (deriv (code c) r); try (left; reflexivity). contradiction. }
      cbn [app]. destruct S as [[A0 S]|[A1 S]]; rewrite S.
      * subst a'. change (0 <? 0) with false in IN. cbv iota in IN.
        destruct (IH st' best _ (Datatypes.S n) k IN B' MD P') as (f & F1 & F2 & F3).
        -- intros ->. exfalso. specialize (T _ IN). unfold takes_node in T.
           rewrite (matches_nullable _ _ MD eq_refl) in T. cbn [negb orb] in T.
           rewrite !andb_true_iff in T. destruct T as [_ [[T _] _]].
           unfold cell_at in CA'. rewrite N in CA'. rewrite CA' in T. apply Z.eqb_eq in T. lia.
        -- exists f. split; [exact F1|]. split; [exact F2|]. cbn [length]. lia.
      * destruct (Z.ltb_spec 0 a'); [|lia].
        destruct (IH st' (a' - 1) _ (Datatypes.S n) (Datatypes.S n) IN B' MD P' (fun _ => eq_refl)) as (f & F1 & F2 & F3).
        exists f. split; [exact F1|]. split; [exact F2|]. cbn [length]. lia.
Qed.

Lemma takes_scan m row a r ok : 0 <= a -> 0 <= m < 70 -> nth_error machines (Z.to_nat m) = Some row ->
  takes row a r ok = true ->
  forall w rest, match rest with c :: _ => ok (code c) = true /\ 0 <= code c | [] => True end ->
    matches r w -> Forall (fun c => 0 <= code c) w ->
    w <> [] /\ exists f, scan m 0 (w ++ rest) 0 (-1, O) = Ok f /\ fsym f = a /\ flen f = length w.
Proof.
  intros Ha Hm N. unfold takes. generalize (visit 3000 row [(0, -1, r)] []). intros l. cbv zeta.
  rewrite !andb_true_iff, negb_true_iff. intros [[[W I0] NU] T] w rest O M P.
  apply node_in_In in I0. unfold whole in W. rewrite forallb_forall in W, T.
  assert (NW : w <> []) by (intros E; rewrite (matches_nullable _ _ M E) in NU; discriminate).
  split; [exact NW|].
  exact (closed_takes m row l a ok Ha Hm N W T w rest O 0 (-1) r 0%nat 0%nat I0 (machine_states m row N) M P
           (fun E => match NW E with end)).
Qed.

(** * Characters *)

(* Only characters 0..127 occur in the words of r. *)
Fixpoint plain_re (r : re) : bool :=
  match r with
  | Void | Eps | Except _ => true
  | Range l => forallb (fun p => 0 <=? fst p) l
  | Cat a b | Alt a b => plain_re a && plain_re b
  | Star a => plain_re a
  end.

Lemma plain_chars r w : matches r w -> plain_re r = true -> Forall (fun c => 0 <= code c) w.
Proof.
  induction 1; cbn [plain_re]; rewrite ?andb_true_iff; intros K.
  - constructor.
  - constructor; [|constructor]. rewrite forallb_forall in K. unfold in_ranges in H.
    apply existsb_exists in H as ([lo hi] & I & E). specialize (K _ I). cbn in *.
    rewrite andb_true_iff, !Z.leb_le in E. apply Z.leb_le in K. lia.
  - repeat constructor. assumption.
  - apply Forall_app. tauto.
  - tauto.
  - tauto.
  - constructor.
  - apply Forall_app. auto.
Qed.
