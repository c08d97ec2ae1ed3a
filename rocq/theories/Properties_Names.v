(** Properties proved about the names of parsers. *)

From Coq Require Import ZArith List Bool Lia.
From Verif Require Import Base Util Combinators Variadic Parsers Deep Spec SpecDeep
  SpecRules SpecReplace SpecNames Proofs_Deep Proofs_Rules Proofs_Replace Proofs_Names
  Properties_Deep Properties_Rules Properties_Replace Properties_Positions.
Import ListNotations.
Open Scope Z_scope.

Local Definition c11 := default_config Std11.

(** ** C89: names do not matter *)

(** Parsers that are the same up to names have the same results. *)
Theorem C89_same_up_to_names : forall sd env env' C e e',
  consistent env env' C -> same_up_to_names env env' C e e' ->
  forall s ps o, gives sd env e s ps o <-> gives sd env' e' s ps o.
Proof.
  intros sd env env' C e e' HC S s ps o. split; intros G.
  - destruct (names_sound sd env env' C HC) as (A & _). exact (A _ _ _ _ G _ S).
  - destruct (names_sound sd env' env (fun k j => C j k)) as (A & _).
    + intros k j c. apply names_sym, HC, c.
    + exact (A _ _ _ _ G _ (names_sym _ _ _ _ _ S)).
Qed.
Print Assumptions C89_same_up_to_names.

(** Definitions that are not needed do not matter. *)
Theorem C89_unused : forall sd env env' e,
  (forall k, needed env e k -> env' k = env k) ->
  forall s ps o, gives sd env e s ps o <-> gives sd env' e s ps o.
Proof.
  intros sd env env' e H. apply C89_same_up_to_names with (C := fun j k => j = k /\ needed env e j).
  - intros j k (<- & N). rewrite (H j N). rewrite <- (with_names_same (env j)) at 2.
    apply names_with. intros k M. constructor. split; [reflexivity|]. eapply needed_by; eauto.
  - rewrite <- (with_names_same e) at 2. apply names_with. intros k M. constructor.
    split; [reflexivity|]. apply needed_now, M.
Qed.
Print Assumptions C89_unused.

(** Other names.  Two names may become one if their definitions do. *)
Theorem C89_renaming : forall sd env env' r e,
  (forall k, needed env e k -> env' (r k) = renamed r (env k)) ->
  forall s ps o, gives sd env e s ps o <-> gives sd env' (renamed r e) s ps o.
Proof.
  intros sd env env' r e H.
  apply C89_same_up_to_names with (C := fun j k => k = r j /\ needed env e j).
  - intros j k (-> & N). rewrite (H j N). apply names_with. intros k M. constructor.
    split; [reflexivity|]. eapply needed_by; eauto.
  - apply names_with. intros k M. constructor. split; [reflexivity|]. apply needed_now, M.
Qed.
Print Assumptions C89_renaming.

(** Writing the definition instead of the name, in the parser and in the
    definitions of the program. *)
Theorem C89_inlining : forall sd env env' e e',
  (forall k, inlined env (env k) (env' k)) -> inlined env e e' ->
  forall s ps o, gives sd env e s ps o <-> gives sd env' e' s ps o.
Proof.
  intros sd env env' e e' HP H. apply C89_same_up_to_names with (C := eq).
  - intros j k <-. apply names_inlined, HP.
  - apply names_inlined, H.
Qed.
Print Assumptions C89_inlining.

(** Names are only needed for recursion: when the definitions do not go round in
    circles, there is a parser without names that has the same results in every
    program. *)
Theorem C89_only_for_recursion : forall sd env (rank : nat -> nat) e,
  (forall i j, needed env e i -> mentioned j (env i) -> (rank j < rank i)%nat) ->
  exists e', nameless e'
    /\ forall env' s ps o, gives sd env e s ps o <-> gives sd env' e' s ps o.
Proof.
  intros sd env rank e H. destruct (rank_bound rank e) as (n & B).
  assert (U : forall env' k, mentioned k e -> nameless (unfolded env n k)
    /\ same_up_to_names env env' (fun _ _ => False) (PRef k) (unfolded env n k)).
  { intros env' k M. apply (unfolded_names env env' rank (needed env e)).
    - intros i j N Mj. split; [eapply needed_by; eauto|eauto].
    - apply needed_now, M.
    - apply B, M. }
  exists (with_names (unfolded env n) e). split.
  - apply nameless_with. intros k M. apply (U env k M).
  - intros env'. apply C89_same_up_to_names with (C := fun _ _ => False).
    + intros j k [].
    + apply names_with. intros k M. apply (U env' k M).
Qed.
Print Assumptions C89_only_for_recursion.

(** In terms of what compiling comes to. *)
Theorem C89_same_compilation : forall cfg env env' C e e',
  program_every (fits cfg) env -> every (fits cfg) e ->
  program_every (fits cfg) env' -> every (fits cfg) e' ->
  consistent env env' C -> same_up_to_names env env' C e e' ->
  (forall s ps o, is_accept o \/ is_reject o ->
     ((exists n, eval cfg env n e s ps = o) <-> (exists n, eval cfg env' n e' s ps = o)))
  /\ (forall s v, compiles_to cfg env e s (Built v) <-> compiles_to cfg env' e' s (Built v))
  /\ (forall s l c m, compiles_to cfg env e s (ParsingFailed l c m)
        <-> compiles_to cfg env' e' s (ParsingFailed l c m)).
Proof.
  intros cfg env env' C e e' H1 H2 H3 H4 HC HE.
  pose proof (C89_same_up_to_names (cfg_std cfg) env env' C e e' HC HE) as X.
  pose proof (C64_build_parser cfg env e H1 H2) as B1.
  pose proof (C64_build_parser cfg env' e' H3 H4) as B2.
  split; [|split].
  - intros s ps o S. rewrite <- (C64_the_rules_are_exact cfg env e H1 H2 s ps o S).
    rewrite <- (C64_the_rules_are_exact cfg env' e' H3 H4 s ps o S). apply X.
  - intros s v. unfold compiles_to. rewrite (proj1 (B1 s) v), (proj1 (B2 s) v).
    split; intros (rest & pe & G); exists rest, pe; apply X; exact G.
  - intros s l c m. unfold compiles_to. rewrite (proj2 (B1 s) l c m), (proj2 (B2 s) l c m).
    split; intros (pe & G & Q); exists pe; (split; [apply X; exact G|exact Q]).
Qed.
Print Assumptions C89_same_compilation.

(** The other way round, writing a name instead of its definition, results can be
    lost: the name may then stand for itself. *)
Theorem C89_folding_refuted : exists sd env env' s ps o,
  (forall k, replaced (fun a b => exists j, a = env j /\ b = PRef j) (env k) (env' k))
  /\ gives sd env (PRef 0) s ps o /\ ~ gives sd env' (PRef 0) s ps o.
Proof.
  exists Std11, (fun _ => POneChar), PRef, [], start, (Reject unexpected_end_of_input start).
  split; [|split].
  - intros k. apply replaced_here. exists k. auto.
  - apply g_ref, g_one_char_end.
  - intros G. remember (PRef 0) as e eqn:E. revert E.
    induction G; intros E; try discriminate. apply IHG.
    injection E as ->. reflexivity.
Qed.
Print Assumptions C89_folding_refuted.

(** Nested brackets written with two names and with one. *)
Definition two_names : program := fun k =>
  match k with
  | 5%nat => POneOf [PRef 7; PLetter]
  | 7%nat => PMiddleOf (PLitC 40) (PRef 5) (PLitC 41)
  | _ => PFail unexpected_character
  end.
Definition one_name : program := fun _ =>
  POneOf [PMiddleOf (PLitC 40) (PRef 0) (PLitC 41); PLetter].

Example C89_case :
  consistent two_names one_name (fun j k => j = 5%nat /\ k = 0%nat)
  /\ same_up_to_names two_names one_name (fun j k => j = 5%nat /\ k = 0%nat) (PRef 5) (PRef 0)
  /\ (exists n, eval c11 two_names n (PRef 5) (text "((x))") start
       = Accept (VChar 120) [] (mkpos 1 6 41)).
Proof.
  assert (L : forall C p, (forall k, ~ mentioned k p) -> same_up_to_names two_names one_name C p p).
  { intros C p N. rewrite <- (with_names_same p) at 2. apply names_with. intros k M.
    destruct (N k M). }
  assert (N : forall c k, ~ mentioned k (PLitC c)).
  { intros c k M. inversion M as [|? x I M2]; subst. destruct I as [<-|[]].
    inversion M2 as [|? x I M3]; subst. destruct I as [<-|[]]. inversion M3. contradiction. }
  split; [|split].
  - intros j k (-> & ->). simpl.
    apply (names_inside _ _ _ (POneOf [PRef 7; PLetter])
             [PMiddleOf (PLitC 40) (PRef 0) (PLitC 41); PLetter]); [discriminate|].
    constructor; [|constructor; [|constructor]].
    + apply names_left. simpl.
      apply (names_inside _ _ _ (PMiddleOf (PLitC 40) (PRef 5) (PLitC 41))
               [PLitC 40; PRef 0; PLitC 41]); [discriminate|].
      constructor; [apply L, N|]. constructor; [constructor; auto|].
      constructor; [apply L, N|constructor].
    + apply L. intros k M. inversion M as [|? x I M2]; subst. destruct I as [<-|[]].
      inversion M2; contradiction.
  - constructor. auto.
  - exists 9%nat. vm_compute. reflexivity.
Qed.

Example C89_renaming_case : forall sd s ps o,
  gives sd two_names (PRef 5) s ps o <->
  gives sd (fun k => match k with
                     | 0%nat => POneOf [PRef 1; PLetter]
                     | _ => PMiddleOf (PLitC 40) (PRef 0) (PLitC 41)
                     end) (PRef 0) s ps o.
Proof.
  intros sd. apply (C89_renaming sd two_names _ (fun k => match k with 5%nat => 0%nat | _ => 1%nat end) (PRef 5)).
  intros k N.
  assert (X : k = 5%nat \/ k = 7%nat).
  { induction N as [k M|j k N IH M].
    - inversion M as [|? c I]; subst; [auto|contradiction].
    - destruct IH as [-> | ->]; simpl in M;
      repeat match goal with
      | H : _ \/ _ |- _ => destruct H; subst
      | H : False |- _ => contradiction
      | M : mentioned _ (PRef _) |- _ => inversion M; subst; clear M; auto
      | M : mentioned _ _ |- _ => inversion M; subst; clear M; simpl in *
      end. }
  destruct X as [-> | ->]; reflexivity.
Qed.

(** A list of letters in brackets whose definitions do not go round in circles. *)
Definition in_order : program := fun k =>
  match k with
  | 0%nat => PMiddleOf (PLitC 40) (PRef 1) (PLitC 41)
  | 1%nat => PRepeated (PRef 2)
  | 2%nat => PLetter
  | _ => PRef 0
  end.
Example C89_recursion_case : forall i j, needed in_order (PRef 0) i ->
  mentioned j (in_order i) -> (2 - j < 2 - i)%nat.
Proof.
  assert (X : forall k, needed in_order (PRef 0) k -> (k < 3)%nat).
  { intros k N. induction N as [k M|j k N IH M].
    - inversion M as [|? c I]; subst; [lia|contradiction].
    - destruct j as [|[|[|j]]]; simpl in M; try lia;
      repeat match goal with
      | H : _ \/ _ |- _ => destruct H; subst
      | H : False |- _ => contradiction
      | M : mentioned _ (PRef _) |- _ => inversion M; subst; clear M; try lia
      | M : mentioned _ _ |- _ => inversion M; subst; clear M; simpl in *
      end. }
  intros i j N M. apply X in N. destruct i as [|[|[|i]]]; simpl in M; try lia;
  repeat match goal with
  | H : _ \/ _ |- _ => destruct H; subst
  | H : False |- _ => contradiction
  | M : mentioned _ (PRef _) |- _ => inversion M; subst; clear M; try lia
  | M : mentioned _ _ |- _ => inversion M; subst; clear M; simpl in *
  end.
Qed.
