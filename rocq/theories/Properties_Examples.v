(** C50 to C54: the examples rational, minimal_rational, binary_number,
    constexpr_parser, regexp and parsing_error. *)

From Coq Require Import ZArith List Bool Lia.
From Verif Require Import Base Util Combinators Variadic Parsers Deep Messages Calculator Examples Spec
  SpecTerm SpecCalc SpecExamples Proofs_Pos Proofs_Fold Proofs_Variadic Proofs_Parsers Proofs_Final5 Proofs_Calc
  Proofs_Examples.
Import ListNotations.
Open Scope Z_scope.

Local Definition c98 := default_config Std98.
Local Definition c11 := default_config Std11.

(** ** C50 *)

Theorem C50_rational : forall cfg env n s, rational_fits cfg -> (length s < n)%nat ->
  (forall v, build_parser (eval cfg env n rational_parser) s = Built v <->
     exists a b, v = rational [VInt a; VInt b] /\ rational_text s a b /\ is_int a /\ is_int b)
  /\ (build_parser (eval cfg env n rational_parser) s = BuildIllformed <-> number_too_large s)
  /\ build_parser (eval cfg env n rational_parser) s <> BuildOutOfFuel.
Proof.
  intros cfg env n s F L. destruct (rational_verdict cfg env n s start F L) as (A & B & C).
  unfold build_parser. splits.
  - intros v. split.
    + destruct (eval cfg env n rational_parser s start) eqn:E; try discriminate.
      intros H. inversion H; subst. apply (proj1 (A _ _ _) eq_refl).
    + intros H. rewrite (proj2 (A v [] (adv start s))) by auto. reflexivity.
  - rewrite <- B. destruct (eval cfg env n rational_parser s start); split; congruence.
  - destruct (eval cfg env n rational_parser s start); congruence.
Qed.
Print Assumptions C50_rational.

Theorem C50_minimal_rational : forall cfg env n s, (2 < limit_sequence cfg)%nat -> (length s < n)%nat ->
  (forall v, build_parser (eval cfg env n minimal_rational_parser) s = Built v <->
     exists a b, v = rational [VInt a; VInt b] /\ fraction_text s a b /\ is_int a /\ is_int b)
  /\ (build_parser (eval cfg env n minimal_rational_parser) s = BuildIllformed <-> number_too_large s)
  /\ build_parser (eval cfg env n minimal_rational_parser) s <> BuildOutOfFuel.
Proof.
  intros cfg env n s F L. destruct (minimal_rational_verdict cfg env n s start F L) as (A & B & C).
  unfold build_parser. splits.
  - intros v. split.
    + destruct (eval cfg env n minimal_rational_parser s start) eqn:E; try discriminate.
      intros H. inversion H; subst. apply (proj1 (A _ _ _) eq_refl).
    + intros H. rewrite (proj2 (A v [] (adv start s))) by auto. reflexivity.
  - rewrite <- B. destruct (eval cfg env n minimal_rational_parser s start); split; congruence.
  - destruct (eval cfg env n minimal_rational_parser s start); congruence.
Qed.
Print Assumptions C50_minimal_rational.

(** Where the errors are: at the first character that does not fit. *)
Theorem C50_rational_errors : forall cfg env n s ps, rational_fits cfg -> (length s < n)%nat ->
  (not_starting_with digit_char s -> eval cfg env n rational_parser s ps = Reject digit_expected ps)
  /\ forall ds w t, leading_number ds w t s -> is_int (decimal ds) ->
    (forall pe, t <> [] -> not_starting_with (fun c => c = 47) t -> walk ps (ds ++ w) pe ->
       exists m, eval cfg env n rational_parser s ps = Reject m pe)
    /\ (forall u pe, t = 47 :: u -> not_starting_with digit_char u -> walk ps (ds ++ w ++ [47]) pe ->
       eval cfg env n rational_parser s ps = Reject digit_expected pe)
    /\ (forall u ds' w' t' pe, t = 47 :: u -> leading_number ds' w' t' u -> is_int (decimal ds') -> t' <> [] ->
       walk ps (ds ++ w ++ 47 :: ds' ++ w') pe ->
       eval cfg env n rational_parser s ps = Reject end_of_input_expected pe).
Proof.
  intros cfg env n s ps F L. destruct (rational_cases cfg env F n s ps L) as (C1 & C2). split; auto.
  intros ds w t Ld I. destruct (C2 ds w t Ld) as (_ & C3). destruct (C3 I) as (_ & C4 & C5). splits.
  - intros pe N1 N2 W. apply walk_iff in W as ->. auto.
  - intros u pe -> N W. apply walk_iff in W as ->. apply (C5 u eq_refl); auto.
  - intros u ds' w' t' pe -> Lu I' N W. apply walk_iff in W as ->.
    destruct (C5 u eq_refl) as (_ & C6). destruct (C6 _ _ _ Lu) as (_ & C7). apply C7; auto.
Qed.
Print Assumptions C50_rational_errors.

Theorem C50_minimal_rational_errors : forall cfg env n s ps, (2 < limit_sequence cfg)%nat -> (length s < n)%nat ->
  (not_starting_with digit_char s -> eval cfg env n minimal_rational_parser s ps = Reject digit_expected ps)
  /\ forall ds w t, leading_number ds w t s -> is_int (decimal ds) ->
    (forall pe, not_starting_with (fun c => c = 47) t -> walk ps (ds ++ w) pe ->
       eval cfg env n minimal_rational_parser s ps = Reject (literal_expected 47) pe)
    /\ (forall u pe, t = 47 :: u -> not_starting_with digit_char u -> walk ps (ds ++ w ++ [47]) pe ->
       eval cfg env n minimal_rational_parser s ps = Reject digit_expected pe)
    /\ (forall u ds' w' t' pe, t = 47 :: u -> leading_number ds' w' t' u -> is_int (decimal ds') -> t' <> [] ->
       walk ps (ds ++ w ++ 47 :: ds' ++ w') pe ->
       eval cfg env n minimal_rational_parser s ps = Reject end_of_input_expected pe).
Proof.
  intros cfg env n s ps F L. destruct (minimal_rational_cases cfg env F n s ps L) as (C1 & C2). split; auto.
  intros ds w t Ld I. destruct (C2 ds w t Ld) as (_ & C3). destruct (C3 I) as (C4 & C5). splits.
  - intros pe N W. apply walk_iff in W as ->. auto.
  - intros u pe -> N W. apply walk_iff in W as ->. apply (C5 u eq_refl); auto.
  - intros u ds' w' t' pe -> Lu I' N W. apply walk_iff in W as ->.
    destruct (C5 u eq_refl) as (_ & C6). destruct (C6 _ _ _ Lu) as (_ & C7). apply C7; auto.
Qed.
Print Assumptions C50_minimal_rational_errors.

(** The default limits are large enough for all examples of this file. *)
Theorem C50_default_limits_suffice : forall d,
  rational_fits (default_config d) /\ regexp_fits (default_config d)
  /\ fits_sequence (default_config d) 3 /\ fits_one_of_c (default_config d) 2.
Proof.
  intros d. unfold rational_fits, regexp_fits, fits_one_of, fits_sequence, fits_one_char_except, fits_one_of_c.
  cbn [limit_sequence limit_one_of limit_one_char_except default_config]. splits; intros; lia.
Qed.
Print Assumptions C50_default_limits_suffice.

(** The calls of the two programs (rational/main.cpp:66-72) *)
Example C50_documented :
  build_parser (eval c11 no_program 20 rational_parser) (text "1/3") = Built (rational [VInt 1; VInt 3])
  /\ build_parser (eval c11 no_program 20 rational_parser) (text "4/4") = Built (rational [VInt 4; VInt 4])
  /\ build_parser (eval c11 no_program 20 rational_parser) (text "13") = Built (rational [VInt 13; VInt 1])
  /\ build_parser (eval c11 no_program 20 rational_parser) (text "7/") = ParsingFailed 1 3 digit_expected
  /\ build_parser (eval c98 no_program 20 minimal_rational_parser) (text "1/3") = Built (rational [VInt 1; VInt 3])
  /\ build_parser (eval c98 no_program 20 minimal_rational_parser) (text "7/") = ParsingFailed 1 3 digit_expected.
Proof. vm_compute. repeat split; reflexivity. Qed.

(** There is no whitespace after the slash. *)
Example C50_no_space_after_slash : ~ rational_text (text "12 / 5") 12 5.
Proof.
  intros H. assert (E : build_parser (eval c98 no_program 20 rational_parser) (text "12 / 5")
    = Built (rational [VInt 12; VInt 5])).
  { apply (C50_rational c98 no_program 20 (text "12 / 5")).
    - apply C50_default_limits_suffice.
    - vm_compute. lia.
    - exists 12, 5. unfold is_int. splits; auto; change (2 ^ 31) with 2147483648; lia. }
  vm_compute in E. discriminate.
Qed.

Local Ltac all_chars :=
  vm_compute text; repeat (apply Forall_cons; [unfold digit_char, space_char; lia|]); apply Forall_nil.

Example C50_text : rational_text (text "12 /5 ") 12 5 /\ number_too_large (text "99999999999").
Proof.
  split.
  - apply rt_fraction. apply (ft_fraction (text "12") (text " ") (text "5") (text " "));
      try (split; [discriminate|]); all_chars.
  - exists (text "99999999999"), [], []. split.
    + unfold leading_number, number. splits; simpl; auto; try discriminate.
      all_chars.
    + left. vm_compute. intros (_ & H). discriminate H.
Qed.

(** ** C51 *)

Theorem C51_binary_number : forall cfg env n s, fits_sequence cfg 2 -> fits_one_of_c cfg 2 -> (length s < n)%nat ->
  (forall v, build_parser (eval cfg env n binary_parser) s = Built v <->
     exists z, v = VInt z /\ binary_text s z /\ is_int z)
  /\ (build_parser (eval cfg env n binary_parser) s = BuildIllformed <->
      exists u t z, s = u ++ t /\ binary_text u z /\ ~ is_int z)
  /\ (forall l c m, build_parser (eval cfg env n binary_parser) s = ParsingFailed l c m ->
      exists u t pe, s = u ++ t /\ Forall bit_char u /\ not_starting_with bit_char t
        /\ walk start u pe /\ l = line pe /\ c = col pe
        /\ (u = [] \/ (t <> [] /\ m = end_of_input_expected)))
  /\ build_parser (eval cfg env n binary_parser) s <> BuildOutOfFuel.
Proof.
  intros cfg env n s F F' L. destruct (binary_verdict cfg env n s start F F' L) as (A & B & R & C).
  unfold build_parser. splits.
  - intros v. split.
    + destruct (eval cfg env n binary_parser s start) eqn:E; try discriminate.
      intros H. inversion H; subst. apply (proj1 (A _ _ _) eq_refl).
    + intros H. rewrite (proj2 (A v [] (adv start s))) by auto. reflexivity.
  - rewrite <- B. destruct (eval cfg env n binary_parser s start); split; congruence.
  - intros l c m. destruct (eval cfg env n binary_parser s start) eqn:E; try discriminate.
    intros H. inversion H; subst. destruct (R _ _ eq_refl) as (u & t & E1 & Fu & Nt & -> & D).
    exists u, t, (adv start u). splits; auto. apply walk_adv.
  - destruct (eval cfg env n binary_parser s start); congruence.
Qed.
Print Assumptions C51_binary_number.

(** Every number that fits into an [int] can be written. *)
Theorem C51_every_number : forall cfg env z, fits_sequence cfg 2 -> fits_one_of_c cfg 2 -> 0 <= z -> is_int z ->
  exists s, forall n, (length s < n)%nat -> build_parser (eval cfg env n binary_parser) s = Built (VInt z).
Proof.
  intros cfg env z F F' H I. destruct (binary_exists z H) as (s & B). exists s. intros n L.
  apply (C51_binary_number cfg env n s F F' L). exists z. auto.
Qed.
Print Assumptions C51_every_number.

(** The comment of the example (binary_number/main.cpp:25-30) gives the grammar
    [S ::= ('0' | '1')*], which has the empty text; it is not parsed. *)
Theorem C51_documented_grammar_refuted :
  exists s, Forall bit_char s /\ forall cfg env n v, fits_sequence cfg 2 -> fits_one_of_c cfg 2 -> (0 < n)%nat ->
    build_parser (eval cfg env n binary_parser) s <> Built v.
Proof.
  exists []. split; auto. intros cfg env n v F F' L E.
  apply (C51_binary_number cfg env n [] F F' L) in E as (z & _ & B & _).
  apply binary_text_iff in B as (N & _). congruence.
Qed.
Print Assumptions C51_documented_grammar_refuted.

(** The results printed by the program (binary_number/main.cpp:61-73) *)
Example C51_documented :
  build_parser (eval c11 no_program 20 binary_parser) (text "100") = Built (VInt 4)
  /\ build_parser (eval c11 no_program 20 binary_parser) (text "1011") = Built (VInt 11)
  /\ build_parser (eval c11 no_program 20 binary_parser) (text "11111111") = Built (VInt 255)
  /\ build_parser (eval c98 no_program 20 binary_parser) (text "1101") = Built (VInt 13)
  /\ build_parser (eval c98 no_program 20 binary_parser) (text "10210") = ParsingFailed 1 3 end_of_input_expected.
Proof. vm_compute. repeat split; reflexivity. Qed.

Example C51_text : binary_text (text "1011") 11.
Proof.
  apply (bt_more (text "101") 5 49); [|right; auto]. apply (bt_more (text "10") 2 49); [|right; auto].
  apply (bt_more (text "1") 1 48); [|left; auto]. apply (bt_one 49). right; auto.
Qed.

(** ** C52 *)

Theorem C52_template_parser : forall cfg env n s, fits_sequence cfg 3 -> (length s < n)%nat ->
  Z.of_nat (length s) < 2 ^ 31 ->
  (forall v, build_parser (eval cfg env n tmp_parser) s = Built v <->
     exists i j k, aba i j k [] s /\ v = VSeq [VInt (Z.of_nat i); VInt (Z.of_nat j); VInt (Z.of_nat k)])
  /\ (forall i j k rest pe, aba i j k rest s -> rest <> [] ->
     walk start (repeat 97 i ++ repeat 98 j ++ repeat 97 k) pe ->
     build_parser (eval cfg env n tmp_parser) s = ParsingFailed (line pe) (col pe) end_of_input_expected).
Proof.
  intros cfg env n s F L B. unfold build_parser.
  assert (B' : Z.of_nat (length s) <= int_max)
    by (unfold int_max; change (2 ^ 31) with 2147483648 in B; unfold str, char in *; lia).
  split.
  - intros v. split.
    + intros H. destruct (aba_total s) as (i & j & k & rest & A).
      rewrite (tmp_spec cfg F env n i j k rest s start A L B') in H. destruct rest; [|discriminate].
      inversion H; subst. eauto.
    + intros (i & j & k & A & ->). rewrite (tmp_spec cfg F env n i j k [] s start A L B'). reflexivity.
  - intros i j k rest pe A N W. rewrite (tmp_spec cfg F env n i j k rest s start A L B').
    apply walk_iff in W as ->. destruct rest; [congruence|]. reflexivity.
Qed.
Print Assumptions C52_template_parser.

(** Every text has exactly one such beginning. *)
Theorem C52_longest_beginning : forall s,
  (exists i j k rest, aba i j k rest s)
  /\ forall i j k rest i' j' k' rest', aba i j k rest s -> aba i' j' k' rest' s ->
     i = i' /\ j = j' /\ k = k' /\ rest = rest'.
Proof. intros s. split; [apply aba_total | intros; eapply aba_unique; eauto]. Qed.
Print Assumptions C52_longest_beginning.

(** Replacing one of the parsers by a [constexpr] function makes no difference. *)
Theorem C52_mixed_parser : forall cfg env n s ps, fits_sequence cfg 3 -> (length s < n)%nat ->
  Z.of_nat (length s) < 2 ^ 31 ->
  eval cfg env n (mixed_parser cfg n) s ps = eval cfg env n tmp_parser s ps.
Proof.
  intros cfg env n s ps F L B.
  assert (B' : Z.of_nat (length s) <= int_max)
    by (unfold int_max; change (2 ^ 31) with 2147483648 in B; unfold str, char in *; lia).
  destruct (aba_total s) as (i & j & k & rest & A).
  rewrite (tmp_spec cfg F env n i j k rest s ps A L B'), (mixed_spec cfg F env n i j k rest s ps A L B').
  reflexivity.
Qed.
Print Assumptions C52_mixed_parser.

(** The [constexpr] parser counts the letters of the longest beginning. *)
Theorem C52_constexpr_parser : forall n i j k rest s, aba i j k rest s -> (length s < n)%nat ->
  constexpr_parse n s = Some (mkparsed (Z.of_nat i) (Z.of_nat j) (Z.of_nat k)).
Proof. exact constexpr_spec. Qed.
Print Assumptions C52_constexpr_parser.

(** Where the template parser has a result, the two agree. *)
Theorem C52_parsers_agree : forall cfg env n s v, fits_sequence cfg 3 -> (length s < n)%nat ->
  Z.of_nat (length s) < 2 ^ 31 -> build_parser (eval cfg env n tmp_parser) s = Built v ->
  constexpr_parse n s = parsed_build v.
Proof.
  intros cfg env n s v F L B H. apply (C52_template_parser cfg env n s F L B) in H as (i & j & k & A & ->).
  rewrite (constexpr_spec n i j k [] s A L). reflexivity.
Qed.
Print Assumptions C52_parsers_agree.

(** The [constexpr] parser does not notice that the text goes on. *)
Theorem C52_constexpr_rejects_refuted :
  exists s, (forall i j k, ~ aba i j k [] s)
    /\ (forall cfg env n v, fits_sequence cfg 3 -> (length s < n)%nat ->
          build_parser (eval cfg env n tmp_parser) s <> Built v)
    /\ forall n, (length s < n)%nat -> constexpr_parse n s = Some (mkparsed 1 1 1).
Proof.
  assert (A : aba 1 1 1 [99] (text "abac")) by (unfold aba; simpl; splits; auto; try discriminate; lia).
  assert (X : forall i j k, ~ aba i j k [] (text "abac")).
  { intros i j k H. destruct (aba_unique _ _ _ _ _ _ _ _ _ A H) as (_ & _ & _ & E). discriminate. }
  exists (text "abac"). splits; auto.
  - intros cfg env n v F L H. apply C52_template_parser in H; auto; [|vm_compute; auto].
    destruct H as (i & j & k & H & _). eapply X; eauto.
  - intros n L. apply (constexpr_spec n 1 1 1 [99]); auto.
Qed.
Print Assumptions C52_constexpr_rejects_refuted.

(** The text of the program, constexpr_parser/main.cpp:286-305 *)
Example C52_documented :
  constexpr_parse 40 (text "aaaabbbaaa") = Some (mkparsed 4 3 3)
  /\ build_parser (eval c11 no_program 40 tmp_parser) (text "aaaabbbaaa") = Built (VSeq [VInt 4; VInt 3; VInt 3])
  /\ build_parser (eval c11 no_program 40 (mixed_parser c11 40)) (text "aaaabbbaaa")
     = Built (VSeq [VInt 4; VInt 3; VInt 3])
  /\ build_parser (eval c98 no_program 40 tmp_parser) (text "abab") = ParsingFailed 1 4 end_of_input_expected
  /\ aba 4 3 3 [] (text "aaaabbbaaa").
Proof. unfold aba. vm_compute. repeat split; try reflexivity; discriminate. Qed.

(** ** C53 *)

(** A text of the language gives a regular expression that matches what the text
    says; the others are errors at the first character that does not fit. *)
Theorem C53_regexp : forall cfg env n s, regexp_fits cfg -> (length s < n)%nat ->
  (forall v, build_parser (eval cfg env n regexp_parser) s = Built v ->
     exists l re, regexp_text s l /\ regex_value v = Some re
       /\ forall t, regex_match t re = true <-> matches l t)
  /\ (forall l, regexp_text s l -> exists v, build_parser (eval cfg env n regexp_parser) s = Built v)
  /\ ((forall l, ~ regexp_text s l) ->
      exists u l t pe m, s = u ++ t /\ regexp_text u l
        /\ build_parser (eval cfg env n regexp_parser) s = ParsingFailed (line pe) (col pe) m
        /\ ((exists t', t = 41 :: t') /\ walk start u pe /\ m = end_of_input_expected
            \/ exists g, broken_group g t /\ walk start (u ++ 40 :: g) pe)).
Proof.
  intros cfg env n s F L.
  destruct (regexp_cases cfg F n env s start L) as (u & l & t & E & T & C). unfold build_parser. splits.
  - intros v H. destruct C as [(-> & v' & re & A & R & Ere)|[((t' & Et) & A)|(g & k & B & A)]];
      rewrite A in H; try discriminate.
    inversion H; subst v'. rewrite app_nil_r in E. subst u. exists l, re. splits; auto.
    intros x. rewrite Ere. apply regex_match_iff.
  - intros l' T'. rewrite E in T'. destruct (regexp_text_prefix u l T t l' T') as (k' & _ & Tk).
    destruct (regexp_text_stop t k' Tk) as (N1 & N2).
    destruct C as [(-> & v' & re & A & R & Ere)|[((t' & Et) & A)|(g & k & B & A)]].
    + exists v'. rewrite A. auto.
    + exfalso. eapply N1; eauto.
    + exfalso. eapply N2; eauto.
  - intros N. destruct C as [(-> & v' & re & A & R & Ere)|[((t' & Et) & A)|(g & k & B & A)]].
    + exfalso. rewrite app_nil_r in E. subst u. eapply N; eauto.
    + exists u, l, t, (adv start u), end_of_input_expected. rewrite A. splits; auto. left. splits; eauto. apply walk_adv.
    + exists u, l, t, (adv start (u ++ 40 :: g)), k. rewrite A. splits; auto. right. exists g. split; auto. apply walk_adv.
Qed.
Print Assumptions C53_regexp.

(** A text says one thing only. *)
Theorem C53_one_meaning : forall s l l', regexp_text s l -> regexp_text s l' -> l = l'.
Proof.
  intros s l l' T T'. rewrite <- (app_nil_r s) in T'.
  destruct (regexp_text_prefix s l T [] l' T') as (k & -> & Tk). inversion Tk. rewrite app_nil_r. auto.
Qed.
Print Assumptions C53_one_meaning.

(** The comment of the example (regexp/main.cpp:97-102) allows empty and nested
    groups; they are not parsed. *)
Theorem C53_documented_grammar_refuted :
  (exists s l, documented_regexp s l /\ l <> [] /\ forall cfg env n v, regexp_fits cfg -> (length s < n)%nat ->
     build_parser (eval cfg env n regexp_parser) s <> Built v)
  /\ (exists s l, documented_regexp s l /\ l = [] /\ forall cfg env n v, regexp_fits cfg -> (length s < n)%nat ->
     build_parser (eval cfg env n regexp_parser) s <> Built v).
Proof.
  assert (X : forall s g, broken_group g s -> forall cfg env n v, regexp_fits cfg -> (length s < n)%nat ->
    build_parser (eval cfg env n regexp_parser) s <> Built v).
  { intros s g B cfg env n v F L H. destruct (C53_regexp cfg env n s F L) as (A & _).
    destruct (A v H) as (l & re & T & _). destruct (regexp_text_stop s l T) as (_ & N). eapply N; eauto. }
  split.
  - exists (text "((a))"), [Char 97]. splits.
    + apply (dr_group (text "(a)") [Char 97] [] []); [|constructor].
      apply (dr_group (text "a") [Char 97] [] []); [|constructor].
      apply (dr_simple 97 (Char 97) [] []); [|constructor]. constructor. unfold special. lia.
    + discriminate.
    + apply (X _ []). exists (text "(a))"). splits; simpl; auto. unfold plain. intuition discriminate.
  - exists (text "()"), []. splits; auto.
    + apply (dr_group [] [] [] []); constructor.
    + apply (X _ []). exists (text ")"). splits; simpl; auto. unfold plain. intuition discriminate.
Qed.
Print Assumptions C53_documented_grammar_refuted.

(** What the parser accepts is documented. *)
Theorem C53_language_is_documented : forall s l, regexp_text s l -> documented_regexp s l.
Proof.
  intros s l H. induction H as [|c a s l P H IH|g ps s l Ng Fg H IH]; [constructor|constructor; auto|].
  constructor; auto. clear Ng. induction Fg; constructor; auto.
Qed.
Print Assumptions C53_language_is_documented.

Definition parsed_regex (s : str) : option (list atom) :=
  match build_parser (eval c11 no_program 40 regexp_parser) s with Built v => regex_value v | _ => None end.

(** The regular expressions of the program, regexp/main.cpp:127-160 *)
Example C53_documented :
  parsed_regex (text ".(bc)") = Some [AnyChar; ThisChar 98; ThisChar 99]
  /\ option_map (regex_match (text "abc")) (parsed_regex (text ".(bc)")) = Some true
  /\ option_map (regex_match (text "aba")) (parsed_regex (text ".(bc)")) = Some false
  /\ build_parser (eval c98 no_program 40 regexp_parser) (text "a((b))") = ParsingFailed 1 3 unexpected_character
  /\ build_parser (eval c98 no_program 40 regexp_parser) (text "ab)") = ParsingFailed 1 3 end_of_input_expected.
Proof. vm_compute. repeat split; reflexivity. Qed.

Example C53_text : regexp_text (text ".(b.)") [Any; Char 98; Any] /\ matches [Any; Char 98; Any] (text "abc").
Proof.
  split.
  - apply (rx_simple 46 Any (text "(b.)") [Char 98; Any]); [constructor|].
    apply (rx_group (text "b.") [Char 98; Any] [] []); [discriminate| |constructor].
    repeat constructor. unfold special. simpl. lia.
  - repeat constructor.
Qed.

(** ** C54 *)

(** The report of the example for every text: the position of the first
    character that is neither a leading a nor the b after them. *)
Theorem C54_parsing_error : forall cfg env n user k rest, fits_sequence cfg 2 -> (k < n)%nat ->
  not_starting_with (fun c => c = 97) rest ->
  (not_starting_with (fun c => c = 98) rest ->
   debug_parsing_error user (eval cfg env n parsing_error_grammar) (repeat 97 k ++ rest)
   = Some (literal "Compile-time parsing results" ++ [10] ++ literal "----------------------------" ++ [10]
           ++ literal "Input text:" ++ [10] ++ print_c_str (repeat 97 k ++ rest) ++ [10] ++ [10]
           ++ literal "Parsing failed:" ++ [10] ++ literal "line 1, col "
           ++ print_int (Z.of_nat k + 1) ++ literal ": " ++ literal "Expected: b" ++ [10]))
  /\ (forall t, rest = 98 :: t ->
   debug_parsing_error user (eval cfg env n parsing_error_grammar) (repeat 97 k ++ rest)
   = Some (literal "Compile-time parsing results" ++ [10] ++ literal "----------------------------" ++ [10]
           ++ literal "Input text:" ++ [10] ++ print_c_str (repeat 97 k ++ rest) ++ [10] ++ [10]
           ++ literal "Parsing was successful. Remaining string is:" ++ [10] ++ print_c_str t ++ [10])).
Proof.
  intros cfg env n user k rest F L N. unfold debug_parsing_error.
  rewrite (parsing_error_spec cfg env n k rest start F L N). split.
  - intros N8. destruct (adv_letters 97 k 1 1 0 eq_refl) as (El & Ec).
    assert (E : forall o, match rest with
      | [] => Reject (literal_expected 98) (adv start (repeat 97 k))
      | c :: t => if c =? 98 then o c t else Reject (literal_expected 98) (adv start (repeat 97 k)) end
      = Reject (literal_expected 98) (adv start (repeat 97 k))).
    { intros o. destruct rest as [|c t]; auto. simpl in N8. destruct (Z.eqb_spec c 98); [contradiction|auto]. }
    rewrite (E (fun c t => Accept _ t _)). clear E. cbn [display]. unfold start, str, char in *.
    rewrite El, Ec, (Z.add_comm 1). reflexivity.
  - intros t ->. cbn [Z.eqb Pos.eqb]. reflexivity.
Qed.
Print Assumptions C54_parsing_error.

(** ... and its outcome *)
Theorem C54_outcome : forall cfg env n k rest, fits_sequence cfg 2 -> (k < n)%nat ->
  not_starting_with (fun c => c = 97) rest ->
  (forall t, rest = 98 :: t -> build_parser (eval cfg env n parsing_error_grammar) (repeat 97 k ++ rest)
     = Built (VSeq [VSeq (map VChar (repeat 97 k)); VChar 98]))
  /\ (not_starting_with (fun c => c = 98) rest ->
      build_parser (eval cfg env n parsing_error_grammar) (repeat 97 k ++ rest)
      = ParsingFailed 1 (Z.of_nat k + 1) (literal_expected 98)).
Proof.
  intros cfg env n k rest F L N. unfold build_parser. rewrite (parsing_error_spec cfg env n k rest start F L N).
  split.
  - intros t ->. reflexivity.
  - intros N8. destruct (adv_letters 97 k 1 1 0 eq_refl) as (El & Ec).
    unfold start, str, char in *. destruct rest as [|c t].
    + rewrite El, Ec, (Z.add_comm 1). auto.
    + simpl in N8. destruct (Z.eqb_spec c 98); [contradiction|]. rewrite El, Ec, (Z.add_comm 1). auto.
Qed.
Print Assumptions C54_outcome.

Example C54_documented :
  debug_parsing_error (fun _ => []) (eval c11 no_program 20 parsing_error_grammar) (text "aaac")
  = Some (literal "Compile-time parsing results" ++ [10] ++ literal "----------------------------" ++ [10]
      ++ literal "Input text:" ++ [10] ++ text "aaac" ++ [10] ++ [10]
      ++ literal "Parsing failed:" ++ [10] ++ literal "line 1, col 4: Expected: b" ++ [10]).
Proof. vm_compute. reflexivity. Qed.
