(** Properties proved about replacing parts of a parser: stated with the
    vocabulary of Spec.v, SpecDeep.v, SpecRules.v and SpecReplace.v. *)

From Coq Require Import ZArith List Bool Lia.
From Verif Require Import Base Util Combinators Variadic Parsers Deep Spec SpecDeep
  SpecRules SpecReplace Proofs_Deep Proofs_Rules Proofs_Replace Properties_Deep
  Properties_Rules.
Import ListNotations.
Open Scope Z_scope.

(** ** C66: parts of a parser can be replaced by parts that do the same *)

(** In a parser. *)
Theorem C66_replace_in_parser : forall sd env (R : pexpr -> pexpr -> Prop) e e',
  (forall a b, R a b -> same_results sd env a b) ->
  replaced R e e' -> same_results sd env e e'.
Proof.
  intros sd env R e e' HR HE s ps o.
  assert (P1 : replaced_program R env env) by (intros k; apply replaced_refl).
  assert (P2 : replaced_program (fun a b => R b a) env env) by (intros k; apply replaced_refl).
  split; intros G.
  - destruct (replaced_sound sd env env (fun a b => R b a) P2) as (A & _).
    + intros a b X s0 ps0 o0. apply (HR b a X).
    + exact (A _ _ _ _ G _ (replaced_sym _ _ _ HE)).
  - destruct (replaced_sound sd env env R P1) as (A & _).
    + intros a b X s0 ps0 o0. apply (HR a b X).
    + exact (A _ _ _ _ G _ HE).
Qed.
Print Assumptions C66_replace_in_parser.

(** In all definitions of a program too, for parts that do the same before and
    after the change. *)
Theorem C66_replace_in_program : forall sd env env' (R : pexpr -> pexpr -> Prop) e e',
  (forall a b, R a b -> same_results sd env a b /\ same_results sd env' a b) ->
  replaced_program R env env' -> replaced R e e' ->
  forall s ps o, gives sd env e s ps o <-> gives sd env' e' s ps o.
Proof.
  intros sd env env' R e e' HR HP HE s ps o.
  assert (HP' : replaced_program (fun a b => R b a) env' env)
    by (intros k; apply replaced_sym, HP).
  split; intros G.
  - destruct (replaced_sound sd env' env (fun a b => R b a) HP') as (A & _).
    + intros a b X s0 ps0 o0. apply (HR b a X).
    + exact (A _ _ _ _ G _ (replaced_sym _ _ _ HE)).
  - destruct (replaced_sound sd env env' R HP) as (A & _).
    + intros a b X s0 ps0 o0. apply (HR a b X).
    + exact (A _ _ _ _ G _ HE).
Qed.
Print Assumptions C66_replace_in_program.

(** For parts whose results are only known to be right in the program before the
    change, the changed program does not get wrong results ... *)
Theorem C66_replace_in_program_sound : forall sd env env' (R : pexpr -> pexpr -> Prop) e e',
  (forall a b, R a b -> refines sd env b a) ->
  replaced_program R env env' -> replaced R e e' ->
  forall s ps o, gives sd env' e' s ps o -> gives sd env e s ps o.
Proof.
  intros sd env env' R e e' HR HP HE s ps o G.
  destruct (replaced_sound sd env env' R HP HR) as (A & _).
  exact (A _ _ _ _ G _ HE).
Qed.
Print Assumptions C66_replace_in_program_sound.

(** ... but it can lose results: a definition and a reference to it do the same,
    and replacing the definition by the reference leaves nothing. *)
Theorem C66_replace_in_program_refuted : exists sd env env' (R : pexpr -> pexpr -> Prop),
  (forall a b, R a b -> same_results sd env a b)
  /\ replaced_program R env env'
  /\ exists s ps o, gives sd env (PRef 0) s ps o /\ ~ gives sd env' (PRef 0) s ps o.
Proof.
  exists Std11, (fun _ => POneChar), self_reference, (fun a b => a = POneChar /\ b = PRef 0).
  split; [|split].
  - intros a b (-> & ->) s ps o. split; intros G; [apply g_ref; exact G|].
    inversion G; subst; assumption.
  - intros k. apply replaced_here. auto.
  - exists [], start, (Reject unexpected_end_of_input start). split.
    + apply g_ref, g_one_char_end.
    + intros G. remember (PRef 0) as e eqn:E. revert E.
      induction G; intros E; try discriminate. apply IHG. reflexivity.
Qed.
Print Assumptions C66_replace_in_program_refuted.

(** What compiling a text with build_parser comes to. *)
Definition compiles_to (cfg : config) (env : program) (e : pexpr) (s : str)
  (b : build_result) : Prop := exists n, build_parser (eval cfg env n e) s = b.

Theorem C66_same_compilation : forall cfg env env' (R : pexpr -> pexpr -> Prop) e e',
  program_every (fits cfg) env -> every (fits cfg) e ->
  program_every (fits cfg) env' -> every (fits cfg) e' ->
  (forall a b, R a b ->
     same_results (cfg_std cfg) env a b /\ same_results (cfg_std cfg) env' a b) ->
  replaced_program R env env' -> replaced R e e' ->
  (forall s ps o, is_accept o \/ is_reject o ->
     ((exists n, eval cfg env n e s ps = o) <-> (exists n, eval cfg env' n e' s ps = o)))
  /\ (forall s v, compiles_to cfg env e s (Built v) <-> compiles_to cfg env' e' s (Built v))
  /\ (forall s l c m, compiles_to cfg env e s (ParsingFailed l c m)
        <-> compiles_to cfg env' e' s (ParsingFailed l c m)).
Proof.
  intros cfg env env' R e e' H1 H2 H3 H4 HR HP HE.
  pose proof (C66_replace_in_program _ env env' R e e' HR HP HE) as X.
  pose proof (C64_build_parser cfg env e H1 H2) as B1.
  pose proof (C64_build_parser cfg env' e' H3 H4) as B2.
  split; [|split].
  - intros s ps o S. rewrite <- (C64_the_rules_are_exact cfg env e H1 H2 s ps o S).
    rewrite <- (C64_the_rules_are_exact cfg env' e' H3 H4 s ps o S). apply X.
  - intros s v. unfold compiles_to. rewrite (proj1 (B1 s) v), (proj1 (B2 s) v).
    split; intros (rest & pe & G); exists rest, pe; apply X; exact G.
  - intros s l c m. unfold compiles_to. rewrite (proj2 (B1 s) l c m), (proj2 (B2 s) l c m).
    split; intros (pe & G & Q); exists pe; (split; [apply X; exact G|exact Q]).
Qed.
Print Assumptions C66_same_compilation.

(** The grammar of nested parentheses with a literal wrapped into first_of. *)
Definition wraps (a b : pexpr) : Prop := a = POneOfC [41] /\ b = PFirstOf [POneOfC [41]].
Definition nested_wrapped : program := fun _ =>
  POneOf [PMiddleOf (POneOfC [40]) (PRef 0) (PFirstOf [POneOfC [41]]); POneOfC [97]].

Example C66_case_wraps : forall sd env a b, wraps a b -> same_results sd env a b.
Proof.
  intros sd env a b (-> & ->) s ps o. split; intros G.
  - destruct (gives_settled _ _ _ _ _ _ G) as [(r & s' & ps' & ->)|(m & pe & ->)].
    + eapply g_first_of. eapply in_turn_cons; [exact G|apply in_turn_nil].
    + apply g_first_of_fails. apply breaks_off_here. exact G.
  - inversion G; subst.
    + match goal with X : in_turn _ _ _ _ _ _ _ _ |- _ => inversion X; subst end.
      match goal with X : in_turn _ _ [] _ _ _ _ _ |- _ => inversion X; subst end. auto.
    + match goal with X : breaks_off _ _ _ _ _ _ _ |- _ => inversion X; subst end; auto.
      match goal with X : breaks_off _ _ [] _ _ _ _ |- _ => inversion X end.
Qed.

Example C66_case_replaced : replaced_program wraps nested nested_wrapped.
Proof.
  intros k. apply (replaced_inside wraps
    (POneOf [PMiddleOf (POneOfC [40]) (PRef 0) (POneOfC [41]); POneOfC [97]])
    [PMiddleOf (POneOfC [40]) (PRef 0) (PFirstOf [POneOfC [41]]); POneOfC [97]]).
  constructor; [|constructor; [apply replaced_refl|constructor]].
  apply (replaced_inside wraps (PMiddleOf (POneOfC [40]) (PRef 0) (POneOfC [41]))
    [POneOfC [40]; PRef 0; PFirstOf [POneOfC [41]]]).
  constructor; [apply replaced_refl|]. constructor; [apply replaced_refl|].
  constructor; [|constructor]. apply replaced_here. split; reflexivity.
Qed.

Example C66_case : forall s ps o,
  gives Std98 nested (PRef 0) s ps o <-> gives Std98 nested_wrapped (PRef 0) s ps o.
Proof.
  apply (C66_replace_in_program Std98 nested nested_wrapped wraps).
  - intros a b W. split; apply C66_case_wraps; exact W.
  - exact C66_case_replaced.
  - apply replaced_refl.
Qed.

Example C66_case_text : forall sd, exists n,
  eval (default_config sd) nested_wrapped n (PRef 0) (text "((a))b") start
  = Accept (VChar 97) (text "b") (mkpos 1 6 41).
Proof. intros sd. exists 9%nat. destruct sd; vm_compute; reflexivity. Qed.
