(** C48, C49: the calculators and the tutorial. *)

From Coq Require Import ZArith List Bool Lia.
From Verif Require Import Base Util Combinators Variadic Parsers Deep Calculator Spec SpecDeep SpecTerm
  SpecType SpecCalc Proofs_Fold Proofs_Parsers Properties_Equivalences Proofs_Final5 Proofs_Grammar Proofs_Calc Proofs_Calc2.
Import ListNotations.
Open Scope Z_scope.

Local Definition c98 := default_config Std98.
Local Definition c11 := default_config Std11.

(** ** C48 *)

(** What each calculator does with each text.  [calc_text] is the language,
    [means] the arithmetic.  A text outside the language is never built. *)
Theorem C48_calculator : forall cfg n s, calc_fits cfg -> (2 * length s + 4 < n)%nat ->
  (forall v, build_parser (eval cfg no_program n calculator) s = Built v <->
     exists e z, v = VInt z /\ calc_text plain_dialect e s /\ means e z)
  /\ (forall e, calc_text plain_dialect e s -> meaningless e ->
     build_parser (eval cfg no_program n calculator) s = BuildIllformed)
  /\ build_parser (eval cfg no_program n calculator) s <> BuildOutOfFuel.
Proof. exact calculator_main. Qed.
Print Assumptions C48_calculator.

Theorem C48_calculator_with_parens : forall cfg n s, calc_fits cfg -> (2 * length s + 4 < n)%nat ->
  (forall v, build_parser (eval cfg calc2_program n calculator_with_parens) s = Built v <->
     exists e z, v = VInt z /\ calc_text parens_dialect e s /\ means e z)
  /\ (forall e, calc_text parens_dialect e s -> meaningless e ->
     build_parser (eval cfg calc2_program n calculator_with_parens) s = BuildIllformed)
  /\ build_parser (eval cfg calc2_program n calculator_with_parens) s <> BuildOutOfFuel.
Proof. exact calculator_with_parens_main. Qed.
Print Assumptions C48_calculator_with_parens.

Theorem C48_calculator_with_unary_ops : forall cfg n s, calc_fits cfg -> (2 * length s + 4 < n)%nat ->
  (forall v, build_parser (eval cfg calc3_program n calculator_with_unary_ops) s = Built v <->
     exists e z, v = VInt z /\ calc_text unary_dialect e s /\ means e z)
  /\ (forall e, calc_text unary_dialect e s -> meaningless e ->
     build_parser (eval cfg calc3_program n calculator_with_unary_ops) s = BuildIllformed)
  /\ build_parser (eval cfg calc3_program n calculator_with_unary_ops) s <> BuildOutOfFuel.
Proof. exact calculator_with_unary_ops_main. Qed.
Print Assumptions C48_calculator_with_unary_ops.

(** The default limits are large enough. *)
Theorem C48_default_limits_suffice : forall d, calc_fits (default_config d).
Proof.
  intros d. unfold calc_fits, fits_one_of, fits_sequence.
  cbn [limit_sequence limit_one_of default_config]. split; intros; lia.
Qed.
Print Assumptions C48_default_limits_suffice.

(** Printing an expression with its value and calculating. *)
Theorem C48_print_and_calculate : forall cfg n e z, calc_fits cfg -> printable unary_dialect e ->
  means e z -> (2 * length (print_exp e) + 4 < n)%nat ->
  build_parser (eval cfg calc3_program n calculator_with_unary_ops) (print_exp e) = Built (VInt z).
Proof.
  intros cfg n e z F P M L. apply (calculator_with_unary_ops_main cfg n (print_exp e) F L).
  exists e, z. splits; auto. apply print_exp_text; auto.
Qed.
Print Assumptions C48_print_and_calculate.

(** A text does not have two values. *)
Theorem C48_texts_have_one_value : forall d e1 e2 s z1 z2,
  In d [plain_dialect; parens_dialect; unary_dialect] ->
  calc_text d e1 s -> calc_text d e2 s -> means e1 z1 -> means e2 z2 -> z1 = z2.
Proof.
  intros d e1 e2 s z1 z2 D T1 T2 M1 M2.
  assert (F : calc_fits c11) by (split; intros H; discriminate).
  set (n := S (2 * length s + 4)). assert (L : (2 * length s + 4 < n)%nat) by (unfold n; lia).
  assert (X : forall b : build_result, (forall v, b = Built v <-> exists e z, v = VInt z /\ calc_text d e s /\ means e z)
    -> z1 = z2).
  { intros b H. assert (B1 : b = Built (VInt z1)) by (apply H; eauto).
    assert (B2 : b = Built (VInt z2)) by (apply H; eauto). congruence. }
  destruct D as [<-|[<-|[<-|[]]]]; eapply X.
  - apply (calculator_main c11 n s F L).
  - apply (calculator_with_parens_main c11 n s F L).
  - apply (calculator_with_unary_ops_main c11 n s F L).
Qed.
Print Assumptions C48_texts_have_one_value.

(** The inputs of the three programs, and some more. *)
Local Definition calc1 := build_parser (eval c98 no_program 99 calculator).
Local Definition calc2 := build_parser (eval c98 calc2_program 99 calculator_with_parens).
Local Definition calc3 := build_parser (eval c11 calc3_program 99 calculator_with_unary_ops).

Example C48_fits : calc_fits c98 /\ calc_fits c11.
Proof. split; split; intros H; vm_compute in *; try discriminate; lia. Qed.

Example C48_inputs :
  map calc1 [text "13"; text " 1+ 2*4-6/2"; text "1+2*3+4"; text "2 * 3 + 4"]
    = map (fun z => Built (VInt z)) [13; 6; 11; 10]
  /\ map calc2 [text "13"; text " 1+ 2*4-6/2"; text "(1+2)*(3+4)"; text "(2*3)+(4*5)"; text "2 + (3 * 4)"]
    = map (fun z => Built (VInt z)) [13; 6; 21; 26; 14]
  /\ map calc3 [text "+3"; text "-21"; text "24 + - 21"; text "- - 21"; text "-(3 * 4)"]
    = map (fun z => Built (VInt z)) [3; -21; 3; 21; -12].
Proof. vm_compute. repeat split; reflexivity. Qed.

Example C48_failures :
  calc1 (text "1+") = ParsingFailed 1 3 digit_expected
  /\ calc1 (text "(1)") = ParsingFailed 1 1 digit_expected
  /\ calc1 (text "7/0") = BuildIllformed
  /\ calc1 (text "2147483647 + 1") = BuildIllformed
  /\ calc2 (text "1 2") = ParsingFailed 1 3 end_of_input_expected
  /\ calc3 (text "-7 / 2") = Built (VInt (-3)).
Proof. vm_compute. repeat split; reflexivity. Qed.

Example C48_text : exists e, calc_text unary_dialect e (text "24 + - 21") /\ means e 3.
Proof.
  assert (F : calc_fits c11) by (split; intros H; discriminate).
  pose proof (proj1 (C48_calculator_with_unary_ops c11 99 (text "24 + - 21") F ltac:(vm_compute; lia)) (VInt 3)) as H.
  destruct (proj1 H) as (e & z & E & T & M); [vm_compute; reflexivity|].
  injection E as <-. eauto.
Qed.

Example C48_outside : forall e, ~ calc_text parens_dialect e (text "(1+2").
Proof.
  intros e T. assert (F : calc_fits c11) by (split; intros H; discriminate).
  destruct (C48_calculator_with_parens c11 99 (text "(1+2") F ltac:(vm_compute; lia)) as (A & B & _).
  destruct (means_dec e) as [(z & M)|M].
  - assert (H := proj2 (A (VInt z)) ltac:(eauto)). vm_compute in H. discriminate.
  - specialize (B e T M). vm_compute in B. discriminate.
Qed.

Example C48_print :
  print_exp (CBin Mul (CBin Sub (CLit (text "1")) (CNeg (CLit (text "2")))) (CBin Div (CLit (text "6")) (CLit (text "4"))))
    = text "( 1 - - 2 ) * ( 6 / 4 ) "
  /\ calc3 (text "( 1 - - 2 ) * ( 6 / 4 ) ") = Built (VInt 3).
Proof. vm_compute. split; reflexivity. Qed.

(** ** C49 *)

(** exp_parser23, the last one of the tutorial. *)
Theorem C49_final_parser : forall cfg n s ps, calc_fits cfg -> (length s + 1 < n)%nat ->
  (forall v rem, (exists ps', eval cfg tut23_program n exp_parser23 s ps = Accept v rem ps') <->
     exists e z, v = VInt z /\ means e z /\ starts_with_exp tutorial_dialect e s rem
       /\ not_starting_with operator_char rem)
  /\ (forall e rem, starts_with_exp tutorial_dialect e s rem -> not_starting_with operator_char rem ->
     meaningless e -> eval cfg tut23_program n exp_parser23 s ps = Illformed).
Proof. exact exp_parser23_exact. Qed.
Print Assumptions C49_final_parser.

(** exp_parser22: only the additions are complete. *)
Theorem C49_complete_additions : forall cfg n s ps, calc_fits cfg -> (length s < n)%nat ->
  (forall v rem ps', eval cfg tut20_program n exp_parser22 s ps = Accept v rem ps' ->
     exists e z, v = VInt z /\ means e z /\ starts_with_exp tutorial_dialect e s rem
       /\ not_starting_with (fun c => c = 43 \/ c = 45) rem
       /\ forall e' rem', starts_with_exp tutorial_dialect e' s rem' -> (length rem <= length rem')%nat)
  /\ (forall e rem z, starts_with_exp tutorial_dialect e s rem -> not_starting_with operator_char rem ->
     means e z -> exists ps', eval cfg tut20_program n exp_parser22 s ps = Accept (VInt z) rem ps')
  /\ (forall e rem, starts_with_exp tutorial_dialect e s rem -> not_starting_with operator_char rem ->
     meaningless e -> eval cfg tut20_program n exp_parser22 s ps = Illformed).
Proof.
  intros cfg n s ps F L. destruct (exp_parser22_reads cfg n s ps F L) as (A & B). splits; auto.
  - intros e rem z T N M. destruct (B e rem T N) as [(z' & ps' & M' & E)|(N' & _)]; [|destruct (N' z M)].
    same_means. eauto.
  - intros e rem T N Me. destruct (B e rem T N) as [(z' & ps' & M' & E)|(_ & E)]; auto. destruct (Me z' M').
Qed.
Print Assumptions C49_complete_additions.

Lemma two_ways_forms : forall cfg n s ps,
  let p := eval cfg tut20_program n (PSequence [POneOf [plus_token; minus_token]; mult_exp6]) in
  let sp := eval cfg tut20_program n mult_exp6 in
  eval cfg tut20_program (S n) exp_parser20 s ps = foldl_start_with_parser n p sp binary_op s ps
  /\ eval cfg tut20_program n exp_parser21 s ps
     = first_of cfg [foldl_start_with_parser n p sp binary_op; fail_at_first_char_expected p] s ps
  /\ eval cfg tut20_program n exp_parser22 s ps
     = foldl_reject_incomplete_start_with_parser n p sp binary_op s ps.
Proof. intros cfg n s ps p sp. subst p sp. splits; destruct n; reflexivity. Qed.

(** exp_parser21 and exp_parser22 are two ways to write the same parser (11_3_1
    and 11_3_2 of the tutorial), unless a sum is too large: wherever exp_parser20
    can be instantiated they have the same outcome, error messages included. *)
Theorem C49_two_ways : forall cfg n s ps, calc_fits cfg ->
  (eval cfg tut20_program (S n) exp_parser20 s ps <> Illformed ->
   eval cfg tut20_program n exp_parser21 s ps = eval cfg tut20_program n exp_parser22 s ps)
  /\ (eval cfg tut20_program (S n) exp_parser20 s ps = Illformed ->
      eval cfg tut20_program n exp_parser21 s ps = Illformed).
Proof.
  intros cfg n s ps F.
  assert (F2 : fits_sequence cfg 2) by (destruct F as (F1 & F2); intros E; specialize (F2 E); lia).
  destruct (two_ways_forms cfg n s ps) as (-> & -> & ->).
  split; intros D.
  - symmetry. eapply (C20_reject_incomplete_defined cfg n _ None VVoid binary_op _ s ps F2). exact D.
  - rewrite first_of_2, D by auto. reflexivity.
Qed.
Print Assumptions C49_two_ways.

(** If a sum is too large an unfinished addition after it hides that from
    exp_parser22. *)
Theorem C49_two_ways_refuted : exists s m pe,
  eval c11 tut20_program 30 exp_parser21 s start = Illformed
  /\ eval c11 tut20_program 30 exp_parser22 s start = Reject m pe.
Proof.
  exists (text "2147483647+1+"), none_of_the_expected_cases_found, (mkpos 1 14 43).
  vm_compute. auto.
Qed.
Print Assumptions C49_two_ways_refuted.

(** So exp_parser21 accepts exactly what exp_parser22 accepts. *)
Theorem C49_alternative : forall cfg n s ps, calc_fits cfg -> (length s < n)%nat ->
  (forall v rem ps', eval cfg tut20_program n exp_parser21 s ps = Accept v rem ps' <->
     eval cfg tut20_program n exp_parser22 s ps = Accept v rem ps')
  /\ (forall m pe, eval cfg tut20_program n exp_parser21 s ps = Reject m pe ->
     eval cfg tut20_program n exp_parser22 s ps = Reject m pe).
Proof.
  intros cfg n s ps F L. destruct (C49_two_ways cfg n s ps F) as (A & B).
  destruct (eval cfg tut20_program (S n) exp_parser20 s ps) as [v0 rem0 ps0 | m0 pe0 | | ] eqn:E;
    try (rewrite A by discriminate; split; [tauto | auto]).
  rewrite B by reflexivity. split; [|discriminate].
  intros v rem ps'. split; [discriminate|]. intros A22. exfalso.
  destruct (two_ways_forms cfg n s ps) as (E20 & _ & E22). rewrite E20 in E. rewrite E22 in A22.
  unfold foldl_start_with_parser, foldl_reject_incomplete_start_with_parser in *.
  destruct (eval cfg tut20_program n mult_exp6 s ps); try congruence.
  apply foldl_ri_undefined in E as [E|(m & pe & E)]; congruence.
Qed.
Print Assumptions C49_alternative.

(** exp_parser16, exp_parser18 and exp_parser20 read the longest expression at
    the start of the text, whatever follows, and never fail when there is one. *)
Theorem C49_longest_expression : forall cfg n s ps env p d, calc_fits cfg -> (length s + 1 < n)%nat ->
  In (env, p, d) [(no_program, exp_parser16, plain_dialect); (no_program, exp_parser18, minus_dialect);
                  (tut20_program, exp_parser20, tutorial_dialect)] ->
  (forall v rem ps', eval cfg env n p s ps = Accept v rem ps' ->
     exists e z, v = VInt z /\ means e z /\ starts_with_exp d e s rem
       /\ forall e' rem', starts_with_exp d e' s rem' -> (length rem <= length rem')%nat)
  /\ (forall e rem m pe, starts_with_exp d e s rem -> eval cfg env n p s ps <> Reject m pe)
  /\ (forall e rem z, starts_with_exp d e s rem -> not_starting_with operator_char rem ->
     means e z -> exists ps', eval cfg env n p s ps = Accept (VInt z) rem ps')
  /\ (forall e rem, starts_with_exp d e s rem -> not_starting_with operator_char rem ->
     meaningless e -> eval cfg env n p s ps = Illformed).
Proof.
  intros cfg n s ps env p d F L H.
  assert (R : exists k q, (length s < k)%nat /\ q k s ps = eval cfg env n p s ps /\ reads_longest d k q).
  { destruct H as [H|[H|[H|[]]]]; inversion H; subst.
    - exists n, (fun n => eval cfg no_program n exp_parser16). split; [lia|]. split; [reflexivity|]. apply exp_parser16_longest; auto.
    - exists n, (fun n => eval cfg no_program n exp_parser18). split; [lia|]. split; [reflexivity|]. apply exp_parser18_longest; auto.
    - destruct n as [|n]; [lia|]. exists n, (fun n => eval cfg tut20_program (S n) exp_parser20).
      split; [lia|]. split; [reflexivity|]. apply exp_parser20_longest; auto. }
  destruct R as (k & q & Lk & <- & R). destruct (R s ps Lk) as (A & B & C). splits; auto.
  - intros e rem z T N M. destruct (C e rem T N) as [(z' & ps' & M' & E)|(N' & _)]; [|destruct (N' z M)].
    same_means. eauto.
  - intros e rem T N Me. destruct (C e rem T N) as [(z' & ps' & M' & E)|(_ & E)]; auto. destruct (Me z' M').
Qed.
Print Assumptions C49_longest_expression.

(** exp_parser19, introduced for expressions with parentheses, parses no nested
    ones: primary_exp2 refers to paren_exp2 (11.hpp).  It fails on every text that
    starts with two opening brackets. *)
Theorem C49_nested_brackets_rejected : forall cfg n t ps, calc_fits cfg -> (length t + 2 <= n)%nat ->
  exists m pe, eval cfg no_program n exp_parser19 (40 :: 40 :: t) ps = Reject m pe.
Proof. intros cfg n t ps F L. apply exp_parser19_nested; auto. lia. Qed.
Print Assumptions C49_nested_brackets_rejected.

Theorem C49_nested_brackets_refuted : exists s e z,
  starts_with_exp tutorial_dialect e s [] /\ means e z
  /\ forall cfg n ps, calc_fits cfg -> (length s < n)%nat ->
     exists m pe, eval cfg no_program n exp_parser19 s ps = Reject m pe.
Proof.
  exists (text "((1))").
  assert (F : calc_fits c11) by (split; intros H; discriminate).
  pose proof (proj1 (C49_final_parser c11 99 (text "((1))") (mkpos 1 1 0) F ltac:(vm_compute; lia)) (VInt 1) []) as H.
  destruct (proj1 H) as (e & z & E & M & T & _); [eexists; vm_compute; reflexivity|].
  exists e, z. splits; auto. intros cfg n ps Fc L.
  apply (C49_nested_brackets_rejected cfg n (text "1))") ps Fc). simpl in L. simpl. lia.
Qed.
Print Assumptions C49_nested_brackets_refuted.

(** exp_parser17 groups divisions to the right, exp_parser12 adds where it should
    subtract and exp_parser14 has no precedence; the tutorial says so. *)
Theorem C49_early_parsers_refuted :
  (exists s e z, starts_with_exp plain_dialect e s [] /\ means e z
     /\ build_parser (eval c11 no_program 99 exp_parser17) s <> Built (VInt z))
  /\ (exists s e z, starts_with_exp plain_dialect e s [] /\ means e z
     /\ build_parser (eval c11 no_program 99 exp_parser12) s <> Built (VInt z))
  /\ (exists s e z, starts_with_exp plain_dialect e s [] /\ means e z
     /\ build_parser (eval c11 no_program 99 exp_parser14) s <> Built (VInt z)).
Proof.
  assert (F : calc_fits c11) by (split; intros H; discriminate).
  assert (X : forall s z ps', (length s + 1 < 99)%nat ->
    eval c11 no_program 99 exp_parser16 s (mkpos 1 1 0) = Accept (VInt z) [] ps' ->
    exists e, starts_with_exp plain_dialect e s [] /\ means e z).
  { intros s z ps' L E.
    destruct (C49_longest_expression c11 99 s (mkpos 1 1 0) _ _ _ F L (or_introl eq_refl)) as (A & _).
    destruct (A _ _ _ E) as (e & z' & Q & M & T & _). injection Q as <-. eauto. }
  splits.
  - exists (text "8 / 4 / 2").
    destruct (X (text "8 / 4 / 2") 1 (mkpos 1 10 50)) as (e & T & M); [vm_compute; lia | vm_compute; reflexivity|].
    exists e, 1. splits; auto. vm_compute. discriminate.
  - exists (text "1 + 2 - 3").
    destruct (X (text "1 + 2 - 3") 0 (mkpos 1 10 51)) as (e & T & M); [vm_compute; lia | vm_compute; reflexivity|].
    exists e, 0. splits; auto. vm_compute. discriminate.
  - exists (text "1 + 2 * 3").
    destruct (X (text "1 + 2 * 3") 7 (mkpos 1 10 51)) as (e & T & M); [vm_compute; lia | vm_compute; reflexivity|].
    exists e, 7. splits; auto. vm_compute. discriminate.
Qed.
Print Assumptions C49_early_parsers_refuted.

(** The outputs shown in doc/getting_started.qbk *)
Local Definition tut (p : pexpr) := build_parser (eval c98 no_program 99 p).
Local Definition tut20 (p : pexpr) := build_parser (eval c98 tut20_program 99 p).
Local Definition tut23 (p : pexpr) := build_parser (eval c98 tut23_program 99 p).
Local Notation num z := (Built (VInt z)).

Example C49_documented_values :
  tut exp_parser1 (text "13") = num 13
  /\ tut exp_parser1 (text "thirteen") = ParsingFailed 1 1 digit_expected
  /\ tut exp_parser1 (text "11 13") = num 11
  /\ tut exp_parser2 (text "11 13") = ParsingFailed 1 3 end_of_input_expected
  /\ tut exp_parser3 (text "11 ") = num 11
  /\ tut exp_parser6 (text "11 + 2") = num 13
  /\ tut exp_parser9 (text "1 + 2 + 3 + 4") = num 10
  /\ tut exp_parser10 (text "1 + 2 + 3 + 4") = num 10
  /\ tut exp_parser11 (text "1 + 2 + 3 + 4") = num 10
  /\ tut exp_parser12 (text "1 + 2 - 3") = num 6
  /\ tut exp_parser13 (text "1 + 2 - 3") = num 0
  /\ tut exp_parser14 (text "1 + 2 * 3") = num 9
  /\ tut exp_parser15 (text "1 + 2 * 3") = num 7
  /\ tut exp_parser16 (text "8 / 4") = num 2
  /\ tut exp_parser16 (text "8 / 4 / 2") = num 1
  /\ tut exp_parser17 (text "8 / 4 / 2") = num 4
  /\ tut exp_parser18 (text "---13") = num (-13)
  /\ tut exp_parser19 (text "(1 + 2) * 3") = num 9.
Proof. vm_compute. repeat split; reflexivity. Qed.

Example C49_documented_errors :
  tut20 exp_parser20 (text "hello") = ParsingFailed 1 1 missing_primary_expression
  /\ tut20 exp_parser20 (text "(1+2") = ParsingFailed 1 5 (unpaired 1 1 (literal_expected 41))
  /\ tut20 exp_parser20 (text "0+(1+2") = num 0
  /\ tut20 exp_parser21 (text "0+(1+2") = ParsingFailed 1 7 (unpaired 1 3 (literal_expected 41))
  /\ tut20 exp_parser22 (text "0+(1+2") = ParsingFailed 1 7 (unpaired 1 3 (literal_expected 41))
  /\ tut23 exp_parser23 (text "1+(2*") = ParsingFailed 1 6 missing_primary_expression
  /\ tut23 exp_parser23 (text "1+(2*3") = ParsingFailed 1 7 (unpaired 1 3 (literal_expected 41)).
Proof. vm_compute. repeat split; reflexivity. Qed.

(** Only C++98 gives the messages of the tutorial. *)
Theorem C49_documented_errors_refuted : exists s1 s2, forall cfg, cfg_std cfg <> Std98 ->
  build_parser (eval cfg tut20_program 60 exp_parser20) s1
  = ParsingFailed 1 1 none_of_the_expected_cases_found
  /\ build_parser (eval cfg tut23_program 60 exp_parser23) s2
     = ParsingFailed 1 6 none_of_the_expected_cases_found.
Proof.
  exists (text "hello"), (text "1+(2*"). intros cfg H.
  destruct cfg as [[| |] a b c]; [now elim H| |]; split; vm_compute; reflexivity.
Qed.
Print Assumptions C49_documented_errors_refuted.

Example C49_longest :
  eval c11 tut20_program 99 exp_parser20 (text "1+2*(3") start = Accept (VInt 3) (text "*(3") (mkpos 1 4 50)
  /\ eval c11 tut20_program 99 exp_parser20 (text "1+(2/0") start = Illformed
  /\ eval c11 tut23_program 99 exp_parser23 (text "1+2*3 x") start = Accept (VInt 7) (text "x") (mkpos 1 7 32).
Proof. vm_compute. repeat split; reflexivity. Qed.
