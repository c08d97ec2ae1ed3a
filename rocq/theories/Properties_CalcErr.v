(** C63: the errors of the calculators. *)

From Coq Require Import ZArith List Bool Lia.
From Verif Require Import Base Util Combinators Variadic Parsers Deep Calculator Spec SpecDeep SpecTerm
  SpecType SpecCalc SpecCalcErr Proofs_Fold Proofs_Final5 Proofs_Grammar Proofs_Calc Proofs_Calc2
  Proofs_CalcErr.
Import ListNotations.
Open Scope Z_scope.

Local Definition c98 := default_config Std98.
Local Definition c11 := default_config Std11.

(** The message for a missing operand where there are brackets: C++98 reports the
    last choice of [one_of], the later dialects the general message. *)
Definition no_operand (cfg : config) (last : msg) : msg :=
  match cfg_std cfg with Std98 => last | _ => none_of_the_expected_cases_found end.

(** What a failing calculator says: it blames the first character that can not
    continue an expression and gives the reason; compilation itself fails only
    if part of the text is an expression without a value; and a text that is to
    be blamed is blamed. *)
Theorem C63_calculator : forall cfg n s, calc_fits cfg -> (2 * length s + 4 < n)%nat ->
  (forall l c m, build_parser (eval cfg no_program n calculator) s = ParsingFailed l c m ->
     blames plain_dialect digit_expected start s l c m)
  /\ (build_parser (eval cfg no_program n calculator) s = BuildIllformed ->
     has_senseless_part plain_dialect s)
  /\ (forall l c m, blames plain_dialect digit_expected start s l c m ->
     ~ has_senseless_part plain_dialect s ->
     build_parser (eval cfg no_program n calculator) s = ParsingFailed l c m).
Proof.
  intros cfg n s F L. assert (R := calculator_fails cfg n s F ltac:(lia)).
  destruct (calculator_main cfg n s F L) as (B & _ & Fu).
  splits.
  - intros l c m E. rewrite E in R. exact R.
  - intros E. rewrite E in R. exact R.
  - intros l c m Bl Ns. eapply blame_complete in Bl; [| |exact R| |exact Fu].
    + destruct Bl as [E|(_ & H)]; [exact E | tauto].
    + intros x H. destruct H.
    + intros v E. apply B in E as (e & z & _ & T & _). eauto.
Qed.
Print Assumptions C63_calculator.

Theorem C63_calculator_with_parens : forall cfg n s, calc_fits cfg -> (2 * length s + 4 < n)%nat ->
  (forall l c m, build_parser (eval cfg calc2_program n calculator_with_parens) s = ParsingFailed l c m ->
     blames parens_dialect (no_operand cfg (literal_expected 40)) start s l c m)
  /\ (build_parser (eval cfg calc2_program n calculator_with_parens) s = BuildIllformed ->
     has_senseless_part parens_dialect s)
  /\ (forall l c m, blames parens_dialect (no_operand cfg (literal_expected 40)) start s l c m ->
     ~ has_senseless_part parens_dialect s ->
     build_parser (eval cfg calc2_program n calculator_with_parens) s = ParsingFailed l c m).
Proof.
  intros cfg n s F L. assert (R := calc2_fails cfg n s F ltac:(lia)).
  destruct (calculator_with_parens_main cfg n s F L) as (B & _ & Fu).
  splits.
  - intros l c m E. rewrite E in R. exact R.
  - intros E. rewrite E in R. exact R.
  - intros l c m Bl Ns. eapply blame_complete in Bl; [| |exact R| |exact Fu].
    + destruct Bl as [E|(_ & H)]; [exact E | tauto].
    + intros x H. destruct H.
    + intros v E. apply B in E as (e & z & _ & T & _). eauto.
Qed.
Print Assumptions C63_calculator_with_parens.

Theorem C63_calculator_with_unary_ops : forall cfg n s, calc_fits cfg -> (2 * length s + 4 < n)%nat ->
  (forall l c m, build_parser (eval cfg calc3_program n calculator_with_unary_ops) s = ParsingFailed l c m ->
     blames unary_dialect (no_operand cfg (literal_expected 40)) start s l c m)
  /\ (build_parser (eval cfg calc3_program n calculator_with_unary_ops) s = BuildIllformed ->
     has_senseless_part unary_dialect s)
  /\ (forall l c m, blames unary_dialect (no_operand cfg (literal_expected 40)) start s l c m ->
     ~ has_senseless_part unary_dialect s ->
     build_parser (eval cfg calc3_program n calculator_with_unary_ops) s = ParsingFailed l c m).
Proof.
  intros cfg n s F L. assert (R := calc3_fails cfg n s F ltac:(lia)).
  destruct (calculator_with_unary_ops_main cfg n s F L) as (B & _ & Fu).
  splits.
  - intros l c m E. rewrite E in R. exact R.
  - intros E. rewrite E in R. exact R.
  - intros l c m Bl Ns. eapply blame_complete in Bl; [| |exact R| |exact Fu].
    + destruct Bl as [E|(_ & H)]; [exact E | tauto].
    + apply (signs_ok BothSigns IntParen).
    + intros v E. apply B in E as (e & z & _ & T & _). eauto.
Qed.
Print Assumptions C63_calculator_with_unary_ops.

(** The last parser of the tutorial, which only needs the text to start with an
    expression. *)
Theorem C63_tutorial : forall cfg n s ps, calc_fits cfg -> (length s + 1 < n)%nat ->
  (forall m pe, eval cfg tut23_program n exp_parser23 s ps = Reject m pe ->
     blames_begin tutorial_dialect (no_operand cfg missing_primary_expression) ps s m pe)
  /\ (eval cfg tut23_program n exp_parser23 s ps = Illformed -> has_senseless_part tutorial_dialect s).
Proof.
  intros cfg n s ps F L. assert (H := tut23_fails cfg n s ps F L). split.
  - intros m pe E. rewrite E in H. exact H.
  - intros E. rewrite E in H. exact H.
Qed.
Print Assumptions C63_tutorial.

(** There is at most one thing to blame, and nothing in the text of an
    expression. *)
Theorem C63_blame_unique : forall d missing begin s l c m l' c' m',
  In d [plain_dialect; parens_dialect; unary_dialect] ->
  blames d missing begin s l c m -> blames d missing begin s l' c' m' -> l = l' /\ c = c' /\ m = m'.
Proof.
  intros d missing begin s l c m l' c' m' D. apply blames_unique.
  destruct D as [<-|[<-|[<-|[]]]];
    [apply (signs_ok NoSigns IntOnly) | apply (signs_ok NoSigns IntParen) | apply (signs_ok BothSigns IntParen)].
Qed.
Print Assumptions C63_blame_unique.

Theorem C63_no_blame_for_expressions : forall d missing begin s l c m e,
  In d [plain_dialect; parens_dialect; unary_dialect] ->
  blames d missing begin s l c m -> ~ calc_text d e s.
Proof.
  intros d missing begin s l c m e D. apply blamed_is_no_text.
  destruct D as [<-|[<-|[<-|[]]]];
    [apply (signs_ok NoSigns IntOnly) | apply (signs_ok NoSigns IntParen) | apply (signs_ok BothSigns IntParen)].
Qed.
Print Assumptions C63_no_blame_for_expressions.

(** ** Examples *)

Local Definition run1 cfg := build_parser (eval cfg no_program 99 calculator).
Local Definition run2 cfg := build_parser (eval cfg calc2_program 99 calculator_with_parens).
Local Definition run3 cfg := build_parser (eval cfg calc3_program 99 calculator_with_unary_ops).

Example C63_calculator_example :
  run1 c98 (text "1 + 2 * ") = ParsingFailed 1 9 digit_expected
  /\ run1 c11 (text " 12 3") = ParsingFailed 1 5 end_of_input_expected
  /\ run1 c11 (text "") = ParsingFailed 1 1 digit_expected
  /\ run1 c11 (text "1/0+x") = BuildIllformed.
Proof. vm_compute. repeat split; reflexivity. Qed.

Example C63_parens_example :
  run2 c98 (text "1 + (2 * (3 - 4) x") = ParsingFailed 1 18 (unpaired 1 5 (literal_expected 41))
  /\ run2 c98 (text "1 + (2 * )") = ParsingFailed 1 10 (literal_expected 40)
  /\ run2 c11 (text "1 + (2 * )") = ParsingFailed 1 10 none_of_the_expected_cases_found
  /\ run2 c11 (text "(1))") = ParsingFailed 1 4 end_of_input_expected
  /\ run2 c11 (text "-1") = ParsingFailed 1 1 none_of_the_expected_cases_found.
Proof. vm_compute. repeat split; reflexivity. Qed.

Example C63_unary_example :
  run3 c98 (text "-(1 +- +)") = ParsingFailed 1 9 (literal_expected 40)
  /\ run3 c11 (text "-(1 +- +3 4") = ParsingFailed 1 11 (unpaired 1 2 (literal_expected 41)).
Proof. vm_compute. repeat split; reflexivity. Qed.

Lemma default_fits : forall d, calc_fits (default_config d).
Proof.
  intros d. unfold calc_fits, fits_one_of, fits_sequence.
  cbn [limit_sequence limit_one_of default_config]. split; intros; lia.
Qed.

Example C63_blames_example :
  blames unary_dialect none_of_the_expected_cases_found start (text "-(1 +- +3 4") 1 11
    (unpaired 1 2 (literal_expected 41))
  /\ ~ exists e, calc_text unary_dialect e (text "-(1 +- +3 4").
Proof.
  assert (B : blames unary_dialect none_of_the_expected_cases_found start (text "-(1 +- +3 4") 1 11
    (unpaired 1 2 (literal_expected 41))).
  { apply (C63_calculator_with_unary_ops c11 99 (text "-(1 +- +3 4")); [apply default_fits | simpl; lia|].
    vm_compute. reflexivity. }
  split; auto. intros (e & T). eapply C63_no_blame_for_expressions; eauto. simpl. auto.
Qed.

Example C63_tutorial_example :
  eval c98 tut23_program 99 exp_parser23 (text "1+(2*") start = Reject missing_primary_expression (mkpos 1 6 42)
  /\ eval c98 tut23_program 99 exp_parser23 (text "1+(2*3") start
     = Reject (unpaired 1 3 (literal_expected 41)) (mkpos 1 7 51)
  /\ eval c98 tut23_program 99 exp_parser23 (text " 1") start = Reject missing_primary_expression (mkpos 1 1 0).
Proof. vm_compute. repeat split; reflexivity. Qed.
