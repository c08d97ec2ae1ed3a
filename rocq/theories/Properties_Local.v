(** What a parser does not look at does not matter: every theorem is stated with
    the vocabulary of Spec.v, SpecDeep.v, SpecRules.v, SpecCost.v and SpecLocal.v. *)

From Coq Require Import ZArith List Bool Lia.
From Verif Require Import Base Util Combinators Variadic Parsers Deep Spec SpecDeep SpecRules SpecCost SpecLocal
  Proofs_Pos Proofs_Deep Proofs_Rules Proofs_Cost Proofs_Local Properties_Deep Properties_Rules Properties_Cost.
Import ListNotations.
Open Scope Z_scope.

(** ** C79: what a parser does not look at does not matter *)

(** When neither the parser nor the parsers it applies look at the end [t] of
    the text, it can be replaced by any other one: the value, the consumed
    characters and the position of an acceptance stay the same, and so do the
    message and the position of an error. *)
Theorem C79_unseen : forall cfg env e,
  program_every (fits cfg) env -> every (fits cfg) e ->
  forall u t ps o, is_accept o \/ is_reject o -> (exists n, eval cfg env n e (u ++ t) ps = o) ->
    never_seen (cfg_std cfg) env t e (u ++ t) ps ->
    forall t', exists o', with_rest t t' o o' /\ exists n, eval cfg env n e (u ++ t') ps = o'.
Proof.
  intros cfg env e HE He u t ps o S R N t'. apply C64_the_rules_are_exact in R; auto.
  destruct (local_gives _ _ _ t' _ _ _ _ R N) as (o' & W & G). exists o'. split; auto.
  apply C64_the_rules_are_exact; auto. exact (gives_settled _ _ _ _ _ _ G).
Qed.
Print Assumptions C79_unseen.

(** In particular when every application made still has at least as many
    characters before [t] as any parser of the program looks at. *)
Theorem C79_far : forall cfg env e k,
  program_every (fits cfg) env -> every (fits cfg) e ->
  program_every (needs_at_most k) env -> every (needs_at_most k) e ->
  forall u t ps o, is_accept o \/ is_reject o -> (exists n, eval cfg env n e (u ++ t) ps = o) ->
    (forall e1 s1 ps1, reaches (cfg_std cfg) env (e, u ++ t, ps) (e1, s1, ps1) ->
       exists v, (k <= length v)%nat /\ s1 = v ++ t) ->
    forall t', exists o', with_rest t t' o o' /\ exists n, eval cfg env n e (u ++ t') ps = o'.
Proof.
  intros cfg env e k HE He HK Hk u t ps o S R F t'. eapply C79_unseen; eauto. eapply far_enough; eauto.
Qed.
Print Assumptions C79_far.

(** The same for build_parser: a value stays the value, an error the error. *)
Theorem C79_build_parser : forall cfg env e,
  program_every (fits cfg) env -> every (fits cfg) e ->
  forall u t b, (exists v, b = Built v) \/ (exists l c m, b = ParsingFailed l c m) ->
    (exists n, build_parser (eval cfg env n e) (u ++ t) = b) ->
    never_seen (cfg_std cfg) env t e (u ++ t) start ->
    forall t', exists n, build_parser (eval cfg env n e) (u ++ t') = b.
Proof.
  intros cfg env e HE He u t b B (n & E) N t'. unfold build_parser in E.
  destruct (eval cfg env n e (u ++ t) start) as [r rest pe|m pe| |] eqn:Ev;
    try (destruct B as [(v & ->)|(l & c & m & ->)]; discriminate).
  - destruct (C79_unseen cfg env e HE He u t start _ (or_introl (ex_intro _ _ (ex_intro _ _ (ex_intro _ _ eq_refl)))) (ex_intro _ n Ev) N t')
      as (o' & (w & _ & ->) & k & E'). exists k. unfold build_parser. rewrite E'. exact E.
  - destruct (C79_unseen cfg env e HE He u t start _ (or_intror (ex_intro _ _ (ex_intro _ _ eq_refl))) (ex_intro _ n Ev) N t')
      as (o' & W & k & E'). simpl in W. subst o'. exists k. unfold build_parser. rewrite E'. exact E.
Qed.
Print Assumptions C79_build_parser.

(** ** Examples *)

(** The letters a and b: whatever follows does not matter. *)
Definition ab : pexpr := PSequence [POneOfC [97]; POneOfC [98]].
Definition no_rules : program := fun _ => PFail none_of_the_expected_cases_found.

Lemma no_rules_fit : program_every (fits (default_config Std11)) no_rules.
Proof. intros k. each_part. Qed.
Lemma ab_fits : every (fits (default_config Std11)) ab.
Proof. each_part. Qed.

Lemma leaf_ends : forall env cs s ps b, ~ calls Std11 env (POneOfC cs, s, ps) b.
Proof. intros env cs s ps b C. inversion C; subst; match goal with H : _ |- _ => solve [inversion H] end. Qed.

Example C79_ab_never : forall t, never_seen Std11 no_rules t ab (text "ab" ++ t) start.
Proof.
  intros t. apply (far_enough (default_config Std11) no_rules 1 t ab).
  - intros k. each_part.
  - constructor; [exact Logic.I|]. intros c [<-|[<-|[]]]; (constructor; [cbn; lia | intros ? []]).
  - intros e1 s1 ps1 R. inversion R as [|? b ? C R1]; subst; [exists (text "ab"); split; [cbn; lia | reflexivity]|].
    inversion C; subst; try solve [match goal with H : _ |- _ => solve [inversion H] end].
    match goal with H : chains _ _ |- _ => inversion H as [? Q1 Q| | | | |] end.
    inversion R1 as [|? b' ? C1 R2]; subst.
    + destruct l1 as [|q [|r l1]]; simpl in Q.
      * match goal with H : in_turn _ _ _ _ _ _ _ _ |- _ => inversion H; subst end.
        exists (text "ab"). split; [cbn; lia | reflexivity].
      * injection Q as <- <- _.
        match goal with H : in_turn _ _ _ _ _ _ _ _ |- _ => inversion H; subst end.
        match goal with H : in_turn _ _ [] _ _ _ _ _ |- _ => inversion H; subst end.
        match goal with H : gives _ _ _ _ _ _ |- _ => inversion H; subst end.
        exists (text "b"). split; [cbn; lia | reflexivity].
      * destruct l1; discriminate.
    + exfalso. destruct l1 as [|q [|r l1]]; simpl in Q; [| |destruct l1; discriminate].
      * injection Q as <- _. exact (leaf_ends _ _ _ _ _ C1).
      * injection Q as <- <- _. exact (leaf_ends _ _ _ _ _ C1).
Qed.

Example C79_ab : forall t', exists n,
  build_parser (eval (default_config Std11) no_rules n ab) (text "ab" ++ t') = Built (VSeq [VChar 97; VChar 98]).
Proof.
  apply (C79_build_parser (default_config Std11) no_rules ab no_rules_fit ab_fits (text "ab") []).
  - left. eexists. reflexivity.
  - exists 5%nat. vm_compute. reflexivity.
  - apply C79_ab_never.
Qed.

(** What it looks at does matter: a repeated letter looks at the next character. *)
Definition letters : pexpr := PFoldl (POneOfC [97]) (Some (VInt 0)) (fun _ _ => Some (VInt 1)).
Example C79_seen :
  ~ never_seen Std11 no_rules [] letters (text "a") start
  /\ eval (default_config Std11) no_rules 9 letters (text "a" ++ []) start = Accept (VInt 1) [] (mkpos 1 2 97)
  /\ eval (default_config Std11) no_rules 9 letters (text "a" ++ text "a") start = Accept (VInt 1) [] (mkpos 1 3 97).
Proof.
  split; [|split; vm_compute; reflexivity]. intros N.
  assert (G : gives Std11 no_rules (POneOfC [97]) (text "a") start (Accept (VChar 97) [] (adv start [97])))
    by (apply g_one_of_c; [left; reflexivity | apply walk_adv]).
  destruct (N (POneOfC [97]) [] (adv start [97])) as (v & E & H).
  - eapply reaches_more; [|apply reaches_itself]. eapply calls_repeats; [constructor|].
    eapply many_more; [exact G | constructor].
  - destruct v; [congruence | discriminate].
Qed.
