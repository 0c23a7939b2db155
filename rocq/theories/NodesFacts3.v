(* Proofs about the memory of the syntax tree: whole inputs *)
From Coq Require Import ZArith String Ascii List Bool Lia Permutation.
From Verif Require Import Base Maps Tables Grammar Parser ParserSpec ParserFacts ParserFacts2 ParserFacts3.
From Verif Require Import Nodes NodesSpec NodesFacts NodesFacts2.
Import ListNotations.
Open Scope string_scope.
Open Scope list_scope.
Open Scope Z_scope.

Lemma nodes_weight before p ts l : nodes_at before p ts l -> length l = list_sum (map blocks_of ts).
Proof.
  induction 1 as [b|b a t e s q ts k K IH|b a e c kids k q ts k' K IHc K' IH].
  - reflexivity.
  - cbn [length map blocks_of list_sum fold_right]. fold (list_sum (map blocks_of ts)). lia.
  - cbn [length map blocks_of list_sum fold_right]. rewrite app_length. fold (list_sum (map blocks_of ts)). lia.
Qed.

Lemma cells_weight cells l : cells_at cells l -> length l = list_sum (map blocks_of (concat cells)).
Proof.
  induction 1 as [|p ts k cells l N C IH]; [reflexivity|]. cbn [concat]. rewrite app_length, map_app, list_sum_app, IH.
  rewrite (nodes_weight _ _ _ _ N). reflexivity.
Qed.

Lemma cells_empty cells l : cells_at cells l -> (l = [] <-> concat cells = []).
Proof.
  intros C. pose proof (cells_weight _ _ C) as W. split; intros E.
  - rewrite E in W. destruct (concat cells) as [|t ts]; [reflexivity|]. cbn [map list_sum fold_right length] in W.
    destruct t; cbn [blocks_of] in W; lia.
  - rewrite E in W. destruct l; [reflexivity|discriminate].
Qed.

Lemma perm_nil_app {A} (l F : list A) : Permutation l ([] ++ F) -> Permutation l F.
Proof. exact (fun P => P). Qed.

Lemma parse_calm rm left input : rm <> Some O ->
  match parse rm left input with Throw | OutOfFuel => False | _ => True end.
Proof.
  intros R. assert (U : parse unlimited left input <> OutOfFuel /\ parse unlimited left input <> Throw).
  { destruct (parse_total left input) as [E|(t & E & _)]; rewrite E; split; discriminate. }
  destruct rm as [[|n]|]; [contradiction| |].
  - destruct (parse_limited (S n) left input) as [G|[G _]]; [lia| |]; rewrite G; [|exact I].
    destruct (parse unlimited left input); try exact I; tauto.
  - change None with unlimited. destruct (parse unlimited left input); try exact I; tauto.
Qed.

Theorem pparse_memory rm left input h : rm <> Some O -> sound h ->
  match parse rm left input with
  | Ok (Accepted ts, kept) => exists h' p l, pparse rm left input h = (h', Ok (Some p, kept)) /\ sound h' /\
      nodes_at None p ts l /\ Permutation (live h') (l ++ live h)
  | Ok (Rejected, kept) => exists h', pparse rm left input h = (h', Ok (None, kept)) /\ sound h'
  | UB => exists h', pparse rm left input h = (h', UB)
  | _ => False
  end.
Proof.
  intros R S. pose proof (pparse_does rm left input R h (live h) S (Permutation_refl _)) as D.
  pose proof (parse_calm rm left input R) as C.
  destruct (parse rm left input) as [[o kept]| | |]; try contradiction; [|exact D].
  destruct D as (h' & [x kept'] & post & E & S' & [K B] & L). cbn [fst snd] in *. subst kept'.
  destruct o as [ts|], x as [p|]; try contradiction.
  - exists h', p, post. repeat (split; [assumption|]). exact L.
  - exists h'. split; [exact E|exact S'].
Qed.

Theorem pread_memory rm left input h : rm <> Some O -> sound h ->
  match parse rm left input with
  | Ok (Accepted ts, kept) => exists h', pread rm left input h = (h', Ok (Accepted ts, kept)) /\ sound h' /\
      Permutation (live h') (live h)
  | Ok (Rejected, kept) => exists h' lost c kept', pread rm left input h = (h', Ok (Rejected, kept)) /\ sound h' /\
      reached rm left input c /\ step c = Ok (inr (Rejected, kept')) /\
      cells_at (map nodes (stack c)) lost /\ Permutation (live h') (lost ++ live h)
  | UB => exists h', pread rm left input h = (h', UB)
  | _ => False
  end.
Proof.
  intros R S. pose proof (pread_does rm left input R h (live h) S (Permutation_refl _)) as D.
  pose proof (parse_calm rm left input R) as C.
  destruct (parse rm left input) as [[o kept]| | |]; try contradiction; [|exact D].
  destruct D as (h' & x & post & E & S' & [K B] & L). subst x. cbn [fst] in B. destruct o as [ts|].
  - subst post. exists h'. split; [exact E|]. split; [exact S'|exact L].
  - destruct B as (c & kept' & RC & ST & CA). exists h', post, c, kept'. repeat (split; [assumption|]). exact L.
Qed.

(* Inputs that are all accepted leave the memory as it was. *)
Theorem preads_memory rm : rm <> Some O -> forall inputs left h os kept, sound h ->
  session rm left inputs = Ok (os, kept) -> Forall (fun o => o <> Rejected) os ->
  exists h', preads rm left inputs h = (h', Ok (os, kept)) /\ sound h' /\ Permutation (live h') (live h).
Proof.
  intros R. induction inputs as [|s inputs IH]; intros left h os kept S E A; cbn [session preads] in *.
  - injection E as <- <-. exists h. split; [reflexivity|]. split; [exact S|apply Permutation_refl].
  - pose proof (pread_memory rm left s h R S) as P. destruct (parse rm left s) as [[o k]| | |]; try discriminate.
    cbn [bind fst snd] in E. destruct (session rm k inputs) as [[os' kept']| | |] eqn:E'; try discriminate.
    cbn [bind fst snd] in E. injection E as <- <-. inversion A as [|x y A1 A2]; subst.
    destruct o as [ts|]; [|contradiction]. destruct P as (h1 & P1 & S1 & L1).
    destruct (IH k h1 os' kept' S1 E' A2) as (h2 & P2 & S2 & L2).
    exists h2. unfold mbind. rewrite P1. cbn [fst snd]. rewrite P2. cbn [fst snd]. split; [reflexivity|]. split; [exact S2|].
    exact (Permutation_trans L2 L1).
Qed.

(* ---- what is lost with a rejected input is determined by it ---- *)

Fixpoint drive (n : nat) (c : config) : config :=
  match n with
  | O => c
  | S n' => match step c with Ok (inl c') => drive n' c' | _ => c end
  end.

Lemma drive_leads n : forall c, leads c (drive n c).
Proof.
  induction n as [|n IH]; intros c; cbn [drive]; [constructor|].
  destruct (step c) as [[c'|]| | |] eqn:E; try constructor. econstructor; [exact E|apply IH].
Qed.

Lemma leads_once a b : leads a b -> forall b' x y, leads a b' -> step b = Ok (inr x) -> step b' = Ok (inr y) -> b = b'.
Proof.
  induction 1 as [a|a a1 b E L IH]; intros b' x y L' F F'.
  - inversion L' as [|? ? ? E']; subst; [reflexivity|]. rewrite F in E'. discriminate.
  - inversion L' as [|? a2 ? E' L2]; subst.
    + rewrite F' in E. discriminate.
    + rewrite E in E'. injection E' as <-. exact (IH _ _ _ L2 F F').
Qed.

Lemma reached_from rm left input c : reached rm left input c -> leads (start rm left input) c.
Proof.
  induction 1 as [|c c' R IH E]; [constructor|]. apply (leads_trans _ _ _ IH). econstructor; [exact E|constructor].
Qed.

Theorem lost_blocks rm left input h c x kept : rm <> Some O -> sound h ->
  parse rm left input = Ok (Rejected, kept) ->
  reached rm left input c -> step c = Ok (inr x) ->
  exists h' lost, pread rm left input h = (h', Ok (Rejected, kept)) /\ sound h' /\
    cells_at (map nodes (stack c)) lost /\ Permutation (live h') (lost ++ live h).
Proof.
  intros R S P RC ST. pose proof (pread_memory rm left input h R S) as M. rewrite P in M.
  destruct M as (h' & lost & c' & kept' & E & S' & RC' & ST' & CA & L).
  assert (c = c') by (apply (leads_once (start rm left input) c (reached_from _ _ _ _ RC) c' x (Rejected, kept') (reached_from _ _ _ _ RC') ST ST')).
  subst c'. exists h', lost. repeat (split; [assumption|]). exact L.
Qed.

(* A session may lose any amount of memory. *)
Theorem preads_lose n : forall h, sound h ->
  exists h', preads allocated [] (repeat "a b" n) h = (h', Ok (repeat Rejected n, [])) /\
    sound h' /\ length (live h') = (3 * n + length (live h))%nat.
Proof.
  induction n as [|n IH]; intros h S; cbn [repeat preads].
  - exists h. split; [reflexivity|]. split; [exact S|reflexivity].
  - set (c := drive 50 (start allocated [] "a b")).
    assert (ST : step c = Ok (inr (Rejected, []))) by (vm_compute; reflexivity).
    assert (W : list_sum (map blocks_of (concat (map nodes (stack c)))) = 3%nat) by (vm_compute; reflexivity).
    assert (RC : reached allocated [] "a b" c) by (apply leads_reached; apply drive_leads).
    assert (P : parse allocated [] "a b" = Ok (Rejected, [])) by (vm_compute; reflexivity).
    destruct (lost_blocks allocated [] "a b" h c _ [] ltac:(discriminate) S P RC ST) as (h1 & lost & E & S1 & CA & L).
    destruct (IH h1 S1) as (h2 & E2 & S2 & L2).
    exists h2. unfold mbind. rewrite E. cbn [fst snd]. rewrite E2. cbn [fst snd]. split; [reflexivity|]. split; [exact S2|].
    rewrite L2, (Permutation_length L), app_length, (cells_weight _ _ CA), W. lia.
Qed.
