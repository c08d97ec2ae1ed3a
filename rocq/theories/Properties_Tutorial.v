(** C49: the parsers of the tutorial one by one. *)

From Coq Require Import ZArith List Bool Lia.
From Verif Require Import Base Util Combinators Variadic Parsers Deep Calculator Spec SpecDeep SpecCalc
  SpecTutorial Proofs_Fold Proofs_Calc Proofs_Tutorial.
Import ListNotations.
Open Scope Z_scope.

Local Definition c11 := default_config Std11.

(** exp_parser5: two numbers and the [+] between them; exp_parser6: their sum. *)
Theorem C49_two_numbers : forall cfg env n s ps, calc_fits cfg -> (length s < n)%nat ->
  reads_exactly two_numbers (fun x => VSeq [VInt (fst x); VChar 43; VInt (snd x)]) (eval cfg env n exp_parser5) s ps
  /\ reads_exactly (computing two_numbers (fun x => an_int (fst x + snd x))) VInt (eval cfg env n exp_parser6) s ps.
Proof.
  intros cfg env n s ps F L. split; (eapply good_exact; [|exact L]).
  - apply two_numbers_good; auto.
  - apply added_good; auto.
Qed.
Print Assumptions C49_two_numbers.

(** exp_parser7: all numbers; exp_parser8: the first number and the sum of the
    others. *)
Theorem C49_list_of_numbers : forall cfg env n s ps, calc_fits cfg -> (length s < n)%nat ->
  reads_exactly (numbers [43]) (fun x => VSeq [VInt (fst x); VSeq (map item_value (snd x))])
    (eval cfg env n exp_parser7) s ps
  /\ reads_exactly (computing (numbers [43]) rest_total) (fun x => VSeq [VInt (fst x); VInt (snd x)])
    (eval cfg env n exp_parser8) s ps.
Proof.
  intros cfg env n s ps F L. split; (eapply good_exact; [|exact L]).
  - apply list_good; auto. apply plus_good; auto.
  - eapply rest_good; [exact F | apply plus_good; exact F | apply transformed_rest; auto; apply plus_good; exact F].
Qed.
Print Assumptions C49_list_of_numbers.

(** exp_parser9, exp_parser10, exp_parser11: the sum of all numbers;
    exp_parser12: the same when some of them are to be subtracted. *)
Theorem C49_sums : forall cfg env n s ps, calc_fits cfg -> (length s < n)%nat ->
  reads_exactly (computing (numbers [43]) whole_total) VInt (eval cfg env n exp_parser9) s ps
  /\ reads_exactly (computing (numbers [43]) whole_total) VInt (eval cfg env n exp_parser10) s ps
  /\ reads_exactly (computing (numbers [43]) whole_total) VInt (eval cfg env n exp_parser11) s ps
  /\ reads_exactly (computing (numbers [43; 45]) whole_total) VInt (eval cfg env n exp_parser12) s ps.
Proof.
  intros cfg env n s ps F L. assert (P := plus_good cfg F env n). assert (PM := plus_minus_good cfg F env n).
  splits; (eapply good_exact; [|exact L]).
  - eapply whole_good; eauto. apply transformed_rest; auto.
  - eapply whole_good; eauto. apply folded_rest; auto.
  - apply started_good; auto.
  - apply started_good; auto.
Qed.
Print Assumptions C49_sums.

(** exp_parser13 to exp_parser19 *)
Theorem C49_each_parser : forall cfg env n s ps R p, calc_fits cfg -> (length s < n)%nat ->
  In (R, p) [(read13, exp_parser13); (read14, exp_parser14); (read15, exp_parser15); (read16, exp_parser16);
             (read17, exp_parser17); (read18, exp_parser18); (read19, exp_parser19)] ->
  reads_exactly R VInt (eval cfg env n p) s ps.
Proof.
  intros cfg env n s ps R p F L H.
  repeat destruct H as [H|H]; try (injection H as <- <-); [..|destruct H]; (eapply good_exact; [|exact L]).
  - apply good13; auto.
  - apply good14; auto.
  - apply good15; auto.
  - apply good16; auto.
  - apply good17; auto.
  - apply good18; auto.
  - apply good19; auto.
Qed.
Print Assumptions C49_each_parser.

(** None of these readings is ambiguous. *)
Theorem C49_readings_unambiguous : forall R,
  In R [read13; read14; read15; read16; read17; read18; read19] -> unambiguous R.
Proof.
  intros R H x y s t u A B.
  assert (F : calc_fits c11) by (split; intros E; discriminate).
  assert (L : (length s < S (length s))%nat) by lia.
  assert (X : forall p, good R VInt (S (length s)) (eval c11 no_program (S (length s)) p) -> x = y /\ (x <> None -> t = u)).
  { intros p G. eapply good_functional; [exact G | exact VInt_injective | exact L | exact A | exact B]. }
  repeat destruct H as [<-|H]; [..|destruct H].
  - apply (X exp_parser13). apply good13; auto.
  - apply (X exp_parser14). apply good14; auto.
  - apply (X exp_parser15). apply good15; auto.
  - apply (X exp_parser16). apply good16; auto.
  - apply (X exp_parser17). apply good17; auto.
  - apply (X exp_parser18). apply good18; auto.
  - apply (X exp_parser19). apply good19; auto.
Qed.
Print Assumptions C49_readings_unambiguous.

(** Concrete readings; that they exist follows from running the parsers. *)
Ltac read_it p :=
  let H := fresh in
  assert (H : calc_fits c11) by (split; intros ?; discriminate);
  let G := fresh in
  match goal with |- ?R (Some ?z) ?s ?t =>
    assert (G : reads_exactly R VInt (eval c11 no_program 99 p) s start);
    [apply C49_each_parser; [exact H | vm_compute; lia | simpl; tauto]
    | destruct G as (G & _); destruct (proj1 (G (VInt z) t)) as (b & Eb & Rb);
      [eexists; vm_compute; reflexivity | injection Eb as <-; exact Rb]]
  end.

Example C49_reading_13 : read13 (Some 5) (text "10 - 3 - 2 * 5") (text "* 5").
Proof. read_it exp_parser13. Qed.
Example C49_reading_14 : read14 (Some 5) (text "1 + 2 * 3 - 4") (text "").
Proof. read_it exp_parser14. Qed.
Example C49_reading_15 : read15 (Some 7) (text "1 + 2 * 3 / 4") (text "/ 4").
Proof. read_it exp_parser15. Qed.
Example C49_reading_17 : read17 (Some (-4)) (text "1 - 16 / 4 / 2 + 3") (text "").
Proof. read_it exp_parser17. Qed.
Example C49_reading_19 : read19 (Some 8) (text "-(1 - 3) * (2 + 2) + (") (text "+ (").
Proof. read_it exp_parser19. Qed.

(** The same by hand. *)
Example C49_reading_by_hand : read17 (Some 3) (text "6/4/2") [].
Proof.
  assert (N : forall c t, digit_char c -> not_starting_with digit_char t -> not_starting_with space_char t ->
    a_number (an_int (c - 48)) (c :: t) t).
  { intros c t D Nd Ns. exists [c]. split.
    - apply (tokens_one (CNum [c]) [c] [] t); auto. constructor; [discriminate | auto].
    - unfold decimal. simpl. f_equal. }
  assert (D : forall t, not_starting_with space_char t -> op_at [42; 47] 47 (47 :: t) t).
  { intros t Ns. split; [simpl; auto|]. apply (tokens_one (COp 47) [47] [] t); auto.
    - constructor. unfold op_char. simpl. auto.
    - intros (ds & E). discriminate. }
  exists (Some 3), [], []. splits.
  - change (Some 3) with (both (calculate 47) (Some 6) (both (calculate 47) (Some 4) (Some 2))).
    eapply rc_more; [apply (N 54); vm_compute; intuition discriminate | apply D; vm_compute; intuition discriminate|].
    eapply rc_more; [apply (N 52); vm_compute; intuition discriminate | apply D; vm_compute; intuition discriminate|].
    apply rc_last; [apply (N 50); vm_compute; intuition discriminate|].
    intros c u H. apply op_at_head in H as (r & H). discriminate.
  - constructor. intros c s1 x t H. apply op_at_head in H as (r & H). discriminate.
  - reflexivity.
Qed.

Local Definition tutorial (p : pexpr) (s : str) := build_parser (eval c11 no_program 99 p) s.
Example C49_tutorial_values :
  tutorial exp_parser5 (text "11 + 2") = Built (VSeq [VInt 11; VChar 43; VInt 2])
  /\ tutorial exp_parser7 (text "1 + 2 + 3") = Built (VSeq [VInt 1; VSeq [item_value (43, 2); item_value (43, 3)]])
  /\ tutorial exp_parser8 (text "1 + 2 + 3") = Built (VSeq [VInt 1; VInt 5])
  /\ tutorial exp_parser12 (text "7 - 2") = Built (VInt 9)
  /\ tutorial exp_parser9 (text "2147483647 + 1") = BuildIllformed
  /\ tutorial exp_parser17 (text "8 / 4 / 0") = BuildIllformed
  /\ tutorial exp_parser17 (text "8 / 4 /") = ParsingFailed 1 8 digit_expected.
Proof. vm_compute. repeat split; reflexivity. Qed.
