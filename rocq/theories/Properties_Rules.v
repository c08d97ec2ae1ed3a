(** Properties proved about the rules of SpecRules.v: every theorem is stated
    with the vocabulary of Spec.v, SpecDeep.v and SpecRules.v. *)

From Coq Require Import ZArith List Bool Lia.
From Verif Require Import Base Util Combinators Variadic Parsers Deep Spec SpecDeep SpecRules
  Proofs_Deep Proofs_Rules Properties_Deep.
Import ListNotations.
Open Scope Z_scope.

(** ** C64: the rules describe the library completely *)

(** A parser has the result the rules give, and no other. *)
Theorem C64_the_rules_are_exact : forall cfg env e,
  program_every (fits cfg) env -> every (fits cfg) e ->
  forall s ps o, is_accept o \/ is_reject o ->
    (gives (cfg_std cfg) env e s ps o <-> exists n, eval cfg env n e s ps = o).
Proof.
  intros cfg env e HE He s ps o S. split.
  - intros G. destruct (rules_model cfg env HE) as (A & _).
    destruct (A _ _ _ _ G He) as (N & H). exists N. apply H. constructor.
  - intros (n & E). exact (covered_all cfg env HE n e He s ps o S E).
Qed.
Print Assumptions C64_the_rules_are_exact.

(** What the rules give is found with every large enough bound. *)
Theorem C64_found_eventually : forall cfg env e,
  program_every (fits cfg) env -> every (fits cfg) e ->
  forall s ps o, gives (cfg_std cfg) env e s ps o ->
    (is_accept o \/ is_reject o)
    /\ exists N, forall n, (N <= n)%nat -> eval cfg env n e s ps = o.
Proof.
  intros cfg env e HE He s ps o G. split; [exact (gives_settled _ _ _ _ _ _ G)|].
  destruct (rules_model cfg env HE) as (A & _). exact (A _ _ _ _ G He).
Qed.
Print Assumptions C64_found_eventually.

Theorem C64_at_most_one_result : forall cfg env e,
  program_every (fits cfg) env -> every (fits cfg) e ->
  forall s ps o1 o2, gives (cfg_std cfg) env e s ps o1 ->
    gives (cfg_std cfg) env e s ps o2 -> o1 = o2.
Proof.
  intros cfg env e HE He s ps o1 o2 G1 G2.
  destruct (C64_found_eventually cfg env e HE He s ps o1 G1) as (_ & N1 & E1).
  destruct (C64_found_eventually cfg env e HE He s ps o2 G2) as (_ & N2 & E2).
  rewrite <- (E1 (N1 + N2)%nat), <- (E2 (N1 + N2)%nat) by lia. reflexivity.
Qed.
Print Assumptions C64_at_most_one_result.

(** There are no rules for parsers that can not be instantiated or do not
    terminate, and rules for all others. *)
Theorem C64_no_result : forall cfg env e,
  program_every (fits cfg) env -> every (fits cfg) e ->
  forall s ps,
    ((forall o, ~ gives (cfg_std cfg) env e s ps o)
     <-> forall n, eval cfg env n e s ps = Illformed \/ eval cfg env n e s ps = OutOfFuel).
Proof.
  intros cfg env e HE He s ps. split.
  - intros N n. destruct (eval cfg env n e s ps) eqn:E; auto; exfalso.
    + apply (N (Accept r rem p)). apply C64_the_rules_are_exact; auto; [|eauto].
      left. do 3 eexists; reflexivity.
    + apply (N (Reject m p)). apply C64_the_rules_are_exact; auto; [|eauto].
      right. do 2 eexists; reflexivity.
  - intros N o G.
    destruct (C64_found_eventually cfg env e HE He s ps o G) as (S & k & E).
    specialize (E k (le_n k)). specialize (N k). rewrite E in N.
    destruct S as [(a & b & c & ->)|(a & b & ->)]; destruct N; discriminate.
Qed.
Print Assumptions C64_no_result.

(** Compiling a text with build_parser. *)
Theorem C64_build_parser : forall cfg env e,
  program_every (fits cfg) env -> every (fits cfg) e ->
  forall s,
    (forall v, (exists n, build_parser (eval cfg env n e) s = Built v)
       <-> exists rest pe, gives (cfg_std cfg) env e s start (Accept v rest pe))
    /\ (forall l c m, (exists n, build_parser (eval cfg env n e) s = ParsingFailed l c m)
       <-> exists pe, gives (cfg_std cfg) env e s start (Reject m pe)
             /\ line pe = l /\ col pe = c).
Proof.
  intros cfg env e HE He s. split.
  - intros v. split.
    + intros (n & B). unfold build_parser in B.
      destruct (eval cfg env n e s start) as [r rest pe| | |] eqn:E; try discriminate.
      injection B as ->. exists rest, pe. apply C64_the_rules_are_exact; auto; [|eauto].
      left. do 3 eexists; reflexivity.
    + intros (rest & pe & G).
      apply C64_the_rules_are_exact in G as (n & E); auto.
      * exists n. unfold build_parser. rewrite E. reflexivity.
      * left. do 3 eexists; reflexivity.
  - intros l c m. split.
    + intros (n & B). unfold build_parser in B.
      destruct (eval cfg env n e s start) as [|m0 pe| |] eqn:E; try discriminate.
      injection B as <- <- ->. exists pe. repeat split.
      apply C64_the_rules_are_exact; auto; [|eauto]. right. do 2 eexists; reflexivity.
    + intros (pe & G & <- & <-).
      apply C64_the_rules_are_exact in G as (n & E); auto.
      * exists n. unfold build_parser. rewrite E. reflexivity.
      * right. do 2 eexists; reflexivity.
Qed.
Print Assumptions C64_build_parser.

(** A grammar of nested parentheses around the letter a; the rules alone give
    its result. *)
Definition nested : program := fun _ =>
  POneOf [PMiddleOf (POneOfC [40]) (PRef 0) (POneOfC [41]); POneOfC [97]].

Example C64_nested_fits : forall sd,
  program_every (fits (default_config sd)) nested.
Proof.
  intros sd k. constructor; [intros _; cbn; lia|].
  intros c [<-|[<-|[]]].
  - constructor; [intros _; cbn; lia|].
    intros c [<-|[<-|[<-|[]]]]; constructor; try (intros _; cbn; lia); try exact Logic.I;
      intros ? [].
  - constructor; [intros _; cbn; lia|intros ? []].
Qed.

Example C64_derivation : exists pe,
  gives Std11 nested (PRef 0) (text "(a)b") start (Accept (VChar 97) (text "b") pe).
Proof.
  assert (P1 : walk start [40] (mkpos 1 2 40)).
  { apply walk_char; [|constructor]. intros [H|(H & _)]; discriminate. }
  assert (P2 : walk (mkpos 1 2 40) [97] (mkpos 1 3 97)).
  { apply walk_char; [|constructor]. intros [H|(H & _)]; discriminate. }
  assert (P3 : walk (mkpos 1 3 97) [41] (mkpos 1 4 41)).
  { apply walk_char; [|constructor]. intros [H|(H & _)]; discriminate. }
  assert (A : gives Std11 nested (PRef 0) (text "a)b") (mkpos 1 2 40)
                (Accept (VChar 97) (text ")b") (mkpos 1 3 97))).
  { apply g_ref. eapply g_one_of.
    - apply each_cons; [|apply each_cons; [|apply each_nil]].
      + apply g_middle_of_fails. apply breaks_off_here. apply g_one_of_c_error.
        cbn. intros [H|[]]. discriminate.
      + apply g_one_of_c; [left; reflexivity|exact P2].
    - split; [do 3 eexists; reflexivity|]. eexists [_], []. split; [reflexivity|].
      constructor; [do 2 eexists; reflexivity|constructor]. }
  exists (mkpos 1 4 41). apply g_ref. eapply g_one_of.
  - apply each_cons; [|apply each_cons; [|apply each_nil]].
    + eapply g_middle_of. eapply in_turn_cons.
      { apply g_one_of_c; [left; reflexivity|exact P1]. }
      eapply in_turn_cons; [exact A|]. eapply in_turn_cons; [|apply in_turn_nil].
      apply g_one_of_c; [left; reflexivity|exact P3].
    + apply g_one_of_c_error. cbn. intros [H|[]]. discriminate.
  - split; [do 3 eexists; reflexivity|]. eexists [], [_]. split; [reflexivity|constructor].
Qed.

(** A parser that only refers to itself has no result. *)
Definition self_reference : program := fun _ => PRef 0.
Example C64_no_result_case : forall o,
  ~ gives Std11 self_reference (PRef 0) (text "a") start o.
Proof.
  intros o G. remember (PRef 0) as e eqn:E. revert E.
  induction G; intros E; try discriminate. apply IHG. reflexivity.
Qed.
