(** Properties proved about the laws of SpecLaws.v. *)

From Coq Require Import ZArith List Bool Lia.
From Verif Require Import Base Util Combinators Variadic Parsers Deep Spec SpecDeep
  SpecRules SpecReplace SpecLaws Proofs_Deep Proofs_Rules Proofs_Replace Proofs_Laws
  Properties_Positions Properties_Deep Properties_Rules Properties_Replace.
Import ListNotations.
Open Scope Z_scope.

(** ** C67: an equational theory of parsers *)

(** The two sides of every law do the same on every text, at every position and
    in every program. *)
Theorem C67_laws : forall sd a b, law sd a b -> equivalent sd a b.
Proof. exact laws_hold. Qed.
Print Assumptions C67_laws.

(** So do parsers that are made from each other by applying laws anywhere. *)
Theorem C67_rewriting : forall sd a b, rewritten sd a b -> equivalent sd a b.
Proof.
  intros sd a b H env. induction H as [a|a b c R H IH|a b c R H IH]; intros s ps o.
  - reflexivity.
  - rewrite <- (IH s ps o).
    apply (C66_replace_in_parser sd env (law sd) a b); auto.
    intros x y L. apply laws_hold. auto.
  - rewrite <- (IH s ps o). symmetry.
    apply (C66_replace_in_parser sd env (law sd) b a); auto.
    intros x y L. apply laws_hold. auto.
Qed.
Print Assumptions C67_rewriting.

(** All definitions of a program can be rewritten, also recursive ones. *)
Theorem C67_rewritten_program : forall sd env env' e e',
  (forall k, rewritten sd (env k) (env' k)) -> rewritten sd e e' ->
  forall s ps o, gives sd env e s ps o <-> gives sd env' e' s ps o.
Proof.
  intros sd env env' e e' HP HE.
  apply (C66_replace_in_program sd env env' (equivalent sd)).
  - intros a b H. split; apply H.
  - intros k. apply replaced_here. apply C67_rewriting. apply HP.
  - apply replaced_here. apply C67_rewriting. exact HE.
Qed.
Print Assumptions C67_rewritten_program.

(** The compiler sees no difference. *)
Theorem C67_rewritten_compiles : forall cfg env env' e e',
  program_every (fits cfg) env -> every (fits cfg) e ->
  program_every (fits cfg) env' -> every (fits cfg) e' ->
  (forall k, rewritten (cfg_std cfg) (env k) (env' k)) -> rewritten (cfg_std cfg) e e' ->
  (forall s ps o, is_accept o \/ is_reject o ->
     ((exists n, eval cfg env n e s ps = o) <-> (exists n, eval cfg env' n e' s ps = o)))
  /\ (forall s v, compiles_to cfg env e s (Built v) <-> compiles_to cfg env' e' s (Built v))
  /\ (forall s l c m, compiles_to cfg env e s (ParsingFailed l c m)
        <-> compiles_to cfg env' e' s (ParsingFailed l c m)).
Proof.
  intros cfg env env' e e' H1 H2 H3 H4 HP HE.
  refine (C66_same_compilation cfg env env' (equivalent (cfg_std cfg)) e e' H1 H2 H3 H4 _ _ _).
  - intros a b H. split; apply H.
  - intros k. apply replaced_here. apply C67_rewriting. apply HP.
  - apply replaced_here. apply C67_rewriting. exact HE.
Qed.
Print Assumptions C67_rewritten_compiles.

(** The grammar of nested parentheses (Properties_Rules.v), written in another
    way: the parenthesised alternative as an inner choice, the letter wrapped
    into a pointless condition and the literal as an iteration of one character. *)
Definition nested' : program := fun _ =>
  POneOf [POneOf [PMiddleOf (POneOfC [40]) (PRef 0) (PFirstOf [POneOfC [41]])];
          PAcceptWhen (POneOfC [97]) (fun _ => Some true) (UserMsg 1)].

Example C67_nested_rewritten : forall sd, sd <> Std98 ->
  forall k, rewritten sd (nested' k) (nested k).
Proof.
  intros sd N k. unfold nested, nested'.
  eapply rewritten_step.
  { apply replaced_here. apply (law_one_of_nested sd [] [_] [_] N). }
  eapply rewritten_step; [|apply rewritten_same].
  apply (replaced_inside _
    (POneOf [PMiddleOf (POneOfC [40]) (PRef 0) (PFirstOf [POneOfC [41]]);
             PAcceptWhen (POneOfC [97]) (fun _ => Some true) (UserMsg 1)])
    [PMiddleOf (POneOfC [40]) (PRef 0) (POneOfC [41]); POneOfC [97]]).
  constructor; [|constructor; [|constructor]].
  - apply (replaced_inside _ (PMiddleOf (POneOfC [40]) (PRef 0) (PFirstOf [POneOfC [41]]))
             [POneOfC [40]; PRef 0; POneOfC [41]]).
    constructor; [apply replaced_refl|constructor; [apply replaced_refl|]].
    constructor; [|constructor]. apply replaced_here. apply law_first_of_one.
  - apply replaced_here. apply law_accept_when_true.
Qed.

Example C67_nested_same : forall s ps o,
  gives Std11 nested' (PRef 0) s ps o <-> gives Std11 nested (PRef 0) s ps o.
Proof.
  apply (C67_rewritten_program Std11 nested' nested (PRef 0) (PRef 0)).
  - apply C67_nested_rewritten. discriminate.
  - apply rewritten_same.
Qed.

Example C67_nested_text :
  (exists n, eval (default_config Std11) nested' n (PRef 0) (text "((a))b") start
             = Accept (VChar 97) (text "b") (mkpos 1 6 41))
  /\ (exists n, eval (default_config Std11) nested n (PRef 0) (text "((a))b") start
             = Accept (VChar 97) (text "b") (mkpos 1 6 41)).
Proof. split; exists 9%nat; vm_compute; reflexivity. Qed.

(** ** Choices inside choices in C++98 *)

(** In C++98 the message of a choice none of whose alternatives match is the one
    of the last alternative, so an inner choice without alternatives shows. *)
Theorem C67_one_of_nested_98_refuted : exists l1 l2 l3,
  ~ equivalent Std98 (POneOf (l1 ++ POneOf l2 :: l3)) (POneOf (l1 ++ l2 ++ l3)).
Proof.
  exists [PFail (UserMsg 1)], [], []. intros E.
  specialize (E nested [] start (Reject (UserMsg 1) start)). cbn [app] in E.
  assert (R : gives Std98 nested (POneOf [PFail (UserMsg 1)]) [] start
                (Reject (UserMsg 1) start)).
  { eapply g_one_of_fails with (es := [(UserMsg 1, start)]).
    - constructor; [apply g_fail|constructor].
    - reflexivity.
    - eexists [_], []. split; [reflexivity|]. split; [|intros x []].
      intros x [<-|[]]. right. reflexivity. }
  apply E in R.
  apply (C64_the_rules_are_exact (default_config Std98) nested) in R as (n & R).
  - destruct n; discriminate R.
  - apply C64_nested_fits.
  - constructor; [intros _; cbn; lia|].
    intros c [<-|[<-|[]]]; constructor; try exact Logic.I; try (intros _; cbn; lia);
      intros ? [].
  - right. do 2 eexists; reflexivity.
Qed.
Print Assumptions C67_one_of_nested_98_refuted.

(** An inner choice with alternatives does not, unless a parser the user wrote
    complains about something before its start. *)
Theorem C67_one_of_nested_98 : forall cfg env l1 l2 l3,
  cfg_std cfg = Std98 -> program_every (fits cfg) env ->
  (forall p, In p l2 -> every (fits cfg) p) ->
  program_every (natives (fun p => sound_accept p /\ sound_reject p)
    (fun f => keeps_errors f /\ keeps_positions f)) env ->
  (forall p, In p l2 -> every (natives (fun p => sound_accept p /\ sound_reject p)
    (fun f => keeps_errors f /\ keeps_positions f)) p) ->
  l2 <> [] ->
  same_results Std98 env (POneOf (l1 ++ POneOf l2 :: l3)) (POneOf (l1 ++ l2 ++ l3)).
Proof.
  intros cfg env l1 l2 l3 S HF H2 HN HN2 N s ps o. apply one_of_nested_if.
  intros os2 es2 e2 E R C es1 es3 e. apply choice_error_nested_98; auto.
  - intros ->. unfold rejections in R. cbn in R. subst.
    destruct l2; [congruence|inversion E].
  - clear C. unfold rejections in R. subst os2. clear N.
    revert es2 E. induction l2 as [|p l IH]; intros es2 E x Hx;
      destruct es2 as [|(m & pe) es2]; try (destruct Hx; fail); cbn [map fst snd] in E;
      inversion E; subst.
    destruct Hx as [<-|Hx].
    + rewrite <- S in *.
      match goal with G : gives _ _ p _ _ _ |- _ =>
        apply (C64_the_rules_are_exact cfg env p HF (H2 p (or_introl eq_refl))) in G
          as (n & G); [|right; do 2 eexists; reflexivity];
        destruct (C03_error_position_bounds cfg env n p HN (HN2 p (or_introl eq_refl))
                    s ps m pe (Proofs_Pos.adv ps s) G) as (A & _)
      end; [apply Proofs_Pos.walk_adv|exact A].
    + eapply IH; eauto; intros q Hq; [apply H2|apply HN2]; right; exact Hq.
Qed.
Print Assumptions C67_one_of_nested_98.

Example C67_one_of_nested_98_case :
  (forall p, In p [POneOfC [40]; POneOfC [41]] -> every (fits (default_config Std98)) p)
  /\ eval (default_config Std98) nested 3
       (POneOf [POneOfC [97]; POneOf [POneOfC [40]; POneOfC [41]]]) (text "x") start
     = Reject (literal_expected 41) start
  /\ eval (default_config Std98) nested 3
       (POneOf [POneOfC [97]; POneOfC [40]; POneOfC [41]]) (text "x") start
     = Reject (literal_expected 41) start.
Proof.
  split; [|split; vm_compute; reflexivity].
  intros p [<-|[<-|[]]]; constructor; try (intros _; cbn; lia); intros ? [].
Qed.

(** ** An operation that is not defined everywhere *)

(** Transforming a choice is not choosing between transformed parsers: all
    alternatives are transformed, not only the one that is chosen. *)
Theorem C67_transform_one_of_partial_refuted : exists f l,
  ~ equivalent Std11 (PTransform (POneOf l) f) (POneOf (map (fun p => PTransform p f) l)).
Proof.
  exists (fun v => match v with VVoid => Some VVoid | _ => None end),
    [PReturn VVoid; PReturn (VInt 1)].
  intros E. destruct (E nested [] start (Accept VVoid [] start)) as (A & _). clear E.
  cbn [map] in A.
  assert (G : gives Std11 nested
    (PTransform (POneOf [PReturn VVoid; PReturn (VInt 1)])
       (fun v => match v with VVoid => Some VVoid | _ => None end)) [] start
    (Accept VVoid [] start)).
  { eapply g_transform with (r := VVoid); [|reflexivity]. eapply g_one_of.
    - constructor; [apply g_return|constructor; [apply g_return|constructor]].
    - split; [do 3 eexists; reflexivity|]. exists [], [Accept (VInt 1) [] start].
      split; [reflexivity|constructor]. }
  apply A in G. inversion G; subst.
  match goal with X : each _ _ _ _ _ _ |- _ => inversion X; subst end.
  match goal with X : each _ _ [_] _ _ _ |- _ => inversion X; subst end.
  match goal with X : gives _ _ (PTransform (PReturn (VInt 1)) _) _ _ _ |- _ =>
    inversion X; subst end;
  match goal with X : gives _ _ (PReturn (VInt 1)) _ _ _ |- _ => inversion X; subst end.
  discriminate.
Qed.
Print Assumptions C67_transform_one_of_partial_refuted.
