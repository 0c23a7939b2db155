(* The parser on the buffer does what the parser on the text does. *)
From Coq Require Import ZArith String Ascii List Bool Arith Lia.
From Verif Require Import Base Tables Parser ParserSpec ParserFacts3 ParserFacts8 Buffer BufferSpec BufferFacts.
Import ListNotations.
Open Scope list_scope.
Open Scope Z_scope.

(* Two computations end alike, the second going wrong only if F. *)
Definition sim {A B} (F : Prop) (P : A -> B -> Prop) (x : res A) (y : res B) : Prop :=
  match x, y with
  | Ok a, Ok b => P a b
  | UB, UB => True
  | _, UB => F
  | Throw, Throw => True
  | OutOfFuel, OutOfFuel => True
  | _, _ => False
  end.

Lemma sim_same {A B C} F (Q : B -> C -> Prop) (x : res A) f g :
  (forall a, x = Ok a -> sim F Q (f a) (g a)) -> sim F Q (bind x f) (bind x g).
Proof. intros H. destruct x; cbn; auto. Qed.

Lemma walk_positive : forall trans chars n t, walk chars trans n = Ok (Some t) -> 0 <= n.
Proof.
  induction trans as [|t0 trans IH]; intros chars n t E.
  - destruct chars as [|lo [|hi chars]]; discriminate.
  - destruct chars as [|lo [|hi chars]]; try discriminate. cbn [walk] in E.
    destruct (Z.leb_spec lo (-1)); [discriminate|].
    destruct (Z.leb_spec lo n); cbn [andb] in E.
    + destruct (Z.leb_spec n hi); [lia|]. exact (IH _ _ _ E).
    + exact (IH _ _ _ E).
Qed.

Lemma dfa_step_positive m st n t : dfa_step m st n = Ok (Some t) -> 0 <= n.
Proof.
  unfold dfa_step. intros E. destruct (rd dfa_idx m) as [row| | |]; try discriminate. cbn [bind] in E.
  destruct (rd row st) as [chr| | |]; try discriminate. cbn [bind] in E.
  destruct (chr <? 0); [discriminate|]. exact (walk_positive _ _ _ _ E).
Qed.

(* What the scanner finds is ASCII and has been looked at. *)
Lemma scan_found m : forall text st pre best f, Forall (fun c => 0 <= code c) pre ->
  (snd best <= length pre)%nat -> scan m st text (length pre) best = Ok f ->
  Forall (fun c => 0 <= code c) (firstn (flen f) (pre ++ text)) /\
  (flen f <= fread f)%nat /\ (length pre <= fread f <= length pre + length text)%nat /\
  (text <> [] -> length pre < fread f)%nat.
Proof.
  induction text as [|c text IH]; intros st pre best f FP LB E.
  - cbn [scan] in E. injection E as <-. cbn [flen fread]. rewrite app_nil_r. cbn [length].
    split; [|split; [lia|split; [lia|congruence]]].
    rewrite <- (firstn_skipn (snd best) pre) in FP. apply Forall_app in FP. apply FP.
  - cbn [scan] in E. destruct (dfa_step m st (code c)) as [o| | |] eqn:D; try discriminate. cbn [bind] in E.
    destruct o as [st'|].
    + assert (PC : 0 <= code c) by exact (dfa_step_positive _ _ _ _ D).
      assert (FP' : Forall (fun c => 0 <= code c) (pre ++ [c])) by (apply Forall_app; auto).
      assert (LP : length (pre ++ [c]) = S (length pre)) by (rewrite app_length; cbn; lia).
      assert (AP : pre ++ c :: text = (pre ++ [c]) ++ text) by (rewrite <- app_assoc; reflexivity).
      assert (FN : firstn (S (length pre)) (pre ++ c :: text) = pre ++ [c]).
      { rewrite AP, <- LP, firstn_app, Nat.sub_diag. cbn [firstn]. rewrite app_nil_r. apply firstn_all. }
      destruct (rd dfa_accept m) as [row| | |]; try discriminate. cbn [bind] in E.
      destruct (rd row st') as [a| | |]; try discriminate. cbn [bind] in E.
      assert (GO : forall best', (snd best' <= S (length pre))%nat ->
        scan m st' text (S (length pre)) best' = Ok f ->
        Forall (fun c => 0 <= code c) (firstn (flen f) (pre ++ c :: text)) /\
        (flen f <= fread f)%nat /\ (length pre <= fread f <= length pre + length (c :: text))%nat /\
        (c :: text <> [] -> length pre < fread f)%nat).
      { intros best' LB' E'. rewrite <- LP in E', LB'. destruct (IH _ _ _ _ FP' LB' E') as (I1 & I2 & I3 & I4).
        rewrite AP. split; [exact I1|]. split; [exact I2|]. rewrite LP in I3. cbn [length]. split; [lia|]. lia. }
      destruct (0 <? a).
      * destruct (a - 1 =? 0).
        -- injection E as <-. cbn [flen fread]. rewrite FN. cbn [length]. repeat split; auto; lia.
        -- destruct (rd symbols (a - 1)) as [s| | |]; try discriminate. cbn [bind] in E. destruct (snd s).
           ++ apply (GO (a - 1, S (length pre))); [cbn [snd]; lia|exact E].
           ++ injection E as <-. cbn [flen fread]. rewrite FN. cbn [length]. repeat split; auto; lia.
      * apply (GO best); [lia|exact E].
    + injection E as <-. cbn [flen fread length]. split; [|repeat split; try lia].
      rewrite <- (firstn_skipn (snd best) pre) in FP. apply Forall_app in FP. destruct FP as [FP _].
      rewrite firstn_app. replace (snd best - length pre)%nat with O by lia. cbn [firstn]. rewrite app_nil_r. exact FP.
Qed.

Lemma scan_length m : forall text st n best f, (fst best = -1 \/ (0 < snd best)%nat) ->
  scan m st text n best = Ok f -> fsym f = -1 \/ (0 < flen f)%nat.
Proof.
  induction text as [|c text IH]; intros st n best f B E; cbn [scan] in E.
  - injection E as <-. exact B.
  - destruct (dfa_step m st (code c)) as [o| | |]; try discriminate. cbn [bind] in E.
    destruct o as [st'|]; [|injection E as <-; exact B].
    destruct (rd dfa_accept m) as [row| | |]; try discriminate. cbn [bind] in E.
    destruct (rd row st') as [a| | |]; try discriminate. cbn [bind] in E.
    destruct (0 <? a).
    + destruct (a - 1 =? 0); [injection E as <-; right; cbn; lia|].
      destruct (rd symbols (a - 1)) as [s| | |]; try discriminate. cbn [bind] in E.
      destruct (snd s); [|injection E as <-; right; cbn; lia].
      apply IH in E; [exact E|]. right. cbn [snd]. lia.
    + apply IH in E; [exact E|exact B].
Qed.

Lemma get_sym_length s text f : get_sym s text = Ok f -> fsym f = 0 \/ fsym f = -1 \/ (0 < flen f)%nat.
Proof.
  unfold get_sym. intros E. destruct (rd dfa_select s) as [m| | |]; try discriminate. cbn [bind] in E.
  destruct text as [|c text]; [injection E as <-; left; reflexivity|]. right. destruct (-1 <? m).
  - exact (scan_length m (c :: text) 0 0 (-1, 0%nat) f (or_introl eq_refl) E).
  - injection E as <-. left. reflexivity.
Qed.

Lemma get_sym_found s text f : get_sym s text = Ok f ->
  Forall (fun c => 0 <= code c) (firstn (flen f) text) /\
  (flen f <= fread f)%nat /\ (fread f <= length text)%nat /\ (text <> [] -> 0 < fread f)%nat.
Proof.
  unfold get_sym. intros E. destruct (rd dfa_select s) as [m| | |]; try discriminate. cbn [bind] in E.
  destruct text as [|c text].
  - injection E as <-. cbn. repeat split; auto; congruence.
  - destruct (-1 <? m).
    + destruct (scan_found m (c :: text) 0 [] (-1, 0%nat) f) as (I1 & I2 & I3 & I4); auto.
      cbn [length app] in *. repeat split; auto; lia.
    + injection E as <-. cbn [flen fread firstn length]. repeat split; auto; lia.
Qed.

Lemma skipn_cons {A} (l : list A) n a : nth_error l n = Some a -> skipn n l = a :: skipn (S n) l.
Proof.
  revert n. induction l as [|b l IH]; intros [|n] E; try discriminate.
  - injection E as ->. reflexivity.
  - cbn [skipn nth_error] in *. rewrite (IH _ E). reflexivity.
Qed.

(* lex on the buffer and scan on the text. *)
Lemma lex_loop_sim m text : forall fuel st len c best b n,
  nth_error text len = Some c -> holds b text n -> (len < n)%nat -> (length text <= len + fuel)%nat ->
  sim False (fun f r => fst (fst r) = fsym f /\ snd (fst r) = flen f /\
                        holds (snd r) text (Nat.max n (fread f)))
    (scan m st (skipn len text) len best) (lex_loop fuel m st (code c) len best b).
Proof.
  induction fuel as [|fuel IH]; intros st len c best b n EC H LN LF.
  { assert (nth_error text len <> None) as NN by congruence. apply nth_error_Some in NN. lia. }
  rewrite (skipn_cons _ _ _ EC). cbn [scan lex_loop]. apply sim_same. intros o EO.
  destruct o as [st'|].
  - apply sim_same. intros row ER. apply sim_same. intros a EA.
    assert (MORE : forall best,
      sim False (fun f r => fst (fst r) = fsym f /\ snd (fst r) = flen f /\
                            holds (snd r) text (Nat.max n (fread f)))
        (scan m st' (skipn (S len) text) (S len) best)
        (bind (get_input (S len) b) (fun '(c0, b') =>
           if c0 =? 10 then Ok (best, b') else lex_loop fuel m st' c0 (S len) best b'))).
    { intros best'. destruct (get_input_ok b text n (S len) H) as (b' & E & H' & _). rewrite E. cbn [bind].
      unfold char_at. destruct (nth_error text (S len)) as [d|] eqn:ED.
      - destruct (clean_nth _ _ _ (h_clean _ _ _ H) ED) as [_ D10]. apply Z.eqb_neq in D10. rewrite D10.
        assert (nth_error text (S len) <> None) as NN by congruence. apply nth_error_Some in NN.
        specialize (IH st' (S len) d best' b' _ ED H' ltac:(lia) ltac:(lia)).
        destruct (scan m st' (skipn (S len) text) (S len) best') as [f| | |] eqn:ES;
          destruct (lex_loop fuel m st' (code d) (S len) best' b') as [r| | |]; cbn [sim] in *; try contradiction; auto.
        destruct IH as (I1 & I2 & I3). split; [exact I1|split; [exact I2|]].
        assert (FR : (S (S len) <= fread f)%nat).
        { rewrite (skipn_cons _ _ _ ED) in ES. clear - ES.
          cbn [scan] in ES. destruct (dfa_step m st' (code d)) as [o| | |]; try discriminate. cbn [bind] in ES.
          assert (G : forall t st l best, scan m st t l best = Ok f -> (l <= fread f)%nat).
          { clear. induction t as [|c t IH]; intros st l best E; cbn [scan] in E.
            - injection E as <-. cbn; lia.
            - destruct (dfa_step m st (code c)) as [o| | |]; try discriminate. cbn [bind] in E.
              destruct o as [st'|]; [|injection E as <-; cbn; lia].
              destruct (rd dfa_accept m) as [row| | |]; try discriminate. cbn [bind] in E.
              destruct (rd row st') as [a| | |]; try discriminate. cbn [bind] in E.
              destruct (0 <? a).
              + destruct (a - 1 =? 0); [injection E as <-; cbn; lia|].
                destruct (rd symbols (a - 1)) as [s| | |]; try discriminate. cbn [bind] in E.
                destruct (snd s); [apply IH in E; lia|injection E as <-; cbn; lia].
              + apply IH in E; lia. }
          destruct o as [st2|]; [|injection ES as <-; cbn; lia].
          destruct (rd dfa_accept m) as [row| | |]; try discriminate. cbn [bind] in ES.
          destruct (rd row st2) as [a| | |]; try discriminate. cbn [bind] in ES.
          destruct (0 <? a).
          + destruct (a - 1 =? 0); [injection ES as <-; cbn; lia|].
            destruct (rd symbols (a - 1)) as [s| | |]; try discriminate. cbn [bind] in ES.
            destruct (snd s); [apply G in ES; lia|injection ES as <-; cbn; lia].
          + apply G in ES; lia. }
        replace (Nat.max n (fread f)) with (Nat.max (Nat.max n (Nat.min (S (S len)) (length text))) (fread f)) by lia.
        exact I3.
      - cbn [Z.eqb Pos.eqb]. apply nth_error_None in ED.
        assert (skipn (S len) text = []) as -> by (apply skipn_all2; lia).
        cbn [scan sim fst snd fsym flen fread]. split; [reflexivity|split; [reflexivity|]].
        pose proof (h_le _ _ _ H).
        replace (Nat.max n (S len)) with (Nat.max n (Nat.min (S (S len)) (length text))); [exact H'|].
        assert (nth_error text len <> None) as NN by congruence. apply nth_error_Some in NN. lia. }
    destruct (0 <? a).
    + destruct (a - 1 =? 0).
      * cbn [sim fst snd fsym flen fread]. split; [reflexivity|split; [reflexivity|]].
        replace (Nat.max n (S len)) with n by lia. exact H.
      * apply sim_same. intros s Es. destruct (snd s).
        -- apply MORE.
        -- cbn [sim fst snd fsym flen fread]. split; [reflexivity|split; [reflexivity|]].
           replace (Nat.max n (S len)) with n by lia. exact H.
    + apply MORE.
  - cbn [sim fst snd fsym flen fread]. split; [destruct best; reflexivity|split; [destruct best; reflexivity|]].
    replace (Nat.max n (S len)) with n by lia. exact H.
Qed.

Lemma queue_length b text n : holds b text n -> (length text <= used b + length (queue b))%nat.
Proof.
  intros H. rewrite (h_used _ _ _ H). pose proof (h_queue _ _ _ H) as Q. destruct (ended b).
  - destruct Q. lia.
  - destruct Q as [junk ->]. rewrite app_length, map_length, skipn_length. cbn [length]. lia.
Qed.

Lemma next_sym_sim s b text n : holds b text n ->
  sim False (fun f r => fst (fst r) = fsym f /\ snd (fst r) = flen f /\
                        holds (snd r) text (Nat.max n (fread f)) /\
                        (text = [] -> ended (snd r) = true))
    (get_sym s text) (next_sym s b).
Proof.
  intros H. unfold get_sym, next_sym. apply sim_same. intros m EM.
  destruct (get_input_ok b text n 0 H) as (b' & E & H' & ED). rewrite E. cbn [bind].
  destruct text as [|c text].
  - cbn [char_at nth_error Z.eqb Pos.eqb sim fst snd fsym flen fread].
    split; [reflexivity|split; [reflexivity|]]. split; [exact H'|intros; apply ED; cbn; lia].
  - cbn [char_at nth_error].
    pose proof (h_clean _ _ _ H) as CL. inversion CL as [|c' t' [C0 C10] CL']; subst.
    apply Z.eqb_neq in C10. rewrite C10. cbn [length] in H'.
    replace (Nat.max n (Nat.min 1 (S (length text)))) with (Nat.max n 1) in H' by lia.
    destruct (-1 <? m).
    + pose proof (queue_length _ _ _ H') as QL.
      pose proof (lex_loop_sim m (c :: text) (S (used b' + length (queue b'))) 0 0 c (-1, 0%nat) b' _
        eq_refl H' ltac:(lia) ltac:(lia)) as L.
      cbn [skipn] in L.
      destruct (scan m 0 (c :: text) 0 (-1, 0%nat)) as [f| | |] eqn:ES;
        destruct (lex_loop _ m 0 (code c) 0 (-1, 0%nat) b') as [r| | |]; cbn [sim] in *; try contradiction; auto.
      destruct L as (I1 & I2 & I3). split; [exact I1|split; [exact I2|]].
      destruct (scan_found m (c :: text) 0 [] (-1, 0%nat) f) as (_ & _ & _ & I4); auto.
      cbn [length] in I4. specialize (I4 ltac:(discriminate)).
      replace (Nat.max n (fread f)) with (Nat.max (Nat.max n 1) (fread f)) by lia. split; [exact I3|discriminate].
    + cbn [sim fst snd fsym flen fread]. split; [reflexivity|split; [reflexivity|]]. split; [exact H'|discriminate].
Qed.
