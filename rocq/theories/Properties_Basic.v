(** C22 - C30, C32: parsers and combinators defined by a single header. *)

From Coq Require Import ZArith List Bool.
From Verif Require Import Base Util Combinators Variadic Parsers Spec
  Proofs_Pos Proofs_Fold Proofs_Variadic Proofs_Parsers Proofs_Parsers2 Proofs_Final3 Proofs_Final5.
Import ListNotations.
Open Scope Z_scope.

Local Definition c98 := default_config Std98.
Local Definition c11 := default_config Std11.

(** ** C22 predicates do not consume *)

Theorem C22_look_ahead : forall p s ps,
  (forall v s' ps', look_ahead p s ps = Accept v s' ps' <->
     s' = s /\ ps' = ps /\ exists s1 ps1, p s ps = Accept v s1 ps1)
  /\ (forall m pe, look_ahead p s ps = Reject m pe <-> p s ps = Reject m pe).
Proof. intros p s ps. split; intros; [apply look_ahead_accept|apply look_ahead_reject]. Qed.
Print Assumptions C22_look_ahead.

Theorem C22_except : forall p r m s ps,
  (forall v s' ps', except p r m s ps = Accept v s' ps' <->
     v = r /\ s' = s /\ ps' = ps /\ rejects p s ps)
  /\ (forall m' pe, except p r m s ps = Reject m' pe <->
     m' = m /\ pe = ps /\ accepts p s ps).
Proof. intros p r m s ps. split; intros; [apply except_accept|apply except_reject]. Qed.
Print Assumptions C22_except.

Theorem C22_if : forall p t f s ps,
  (forall v s' ps', if_ p t f s ps = Accept v s' ps' <->
     s' = s /\ ps' = ps /\ ((accepts p s ps /\ v = t) \/ (rejects p s ps /\ v = f)))
  /\ (forall m pe, if_ p t f s ps <> Reject m pe).
Proof. intros p t f s ps. split; intros; [apply if_accept|apply if_reject]. Qed.
Print Assumptions C22_if.

Theorem C22_optional : forall p d s ps,
  (forall v s' ps', optional p d s ps = Accept v s' ps' <->
     p s ps = Accept v s' ps' \/ (rejects p s ps /\ v = d /\ s' = s /\ ps' = ps))
  /\ (forall m pe, optional p d s ps <> Reject m pe).
Proof. intros p d s ps. split; intros; [apply optional_accept|apply optional_reject]. Qed.
Print Assumptions C22_optional.

(** It accepts when [p] fails without having consumed anything. *)
Theorem C22_fail_at_first_char_expected : forall p s ps,
  (forall v s' ps', fail_at_first_char_expected p s ps = Accept v s' ps' <->
     v = VVoid_ /\ s' = s /\ ps' = ps /\ exists m, p s ps = Reject m ps)
  /\ (forall m pe, fail_at_first_char_expected p s ps = Reject m pe <->
     (p s ps = Reject m pe /\ pe <> ps)
     \/ (accepts p s ps /\ m = expected_to_fail /\ pe = ps)).
Proof. intros p s ps. split; intros; [apply facb_accept|apply facb_reject]. Qed.
Print Assumptions C22_fail_at_first_char_expected.

Theorem C22_empty : forall r s ps,
  (forall v s' ps', empty r s ps = Accept v s' ps' <->
     s = [] /\ v = r /\ s' = s /\ ps' = ps)
  /\ (forall m pe, empty r s ps = Reject m pe <->
     s <> [] /\ m = end_of_input_expected /\ pe = ps).
Proof. intros r s ps. split; intros; [apply empty_accept|apply empty_reject]. Qed.
Print Assumptions C22_empty.

Example C22_case :
  accepts digit (text "1a") start /\ rejects digit (text "a1") start
  /\ look_ahead digit (text "1a") start = Accept (VChar 49) (text "1a") start
  /\ except digit VVoid unexpected_character (text "a1") start = Accept VVoid (text "a1") start
  /\ if_ digit (VInt 1) (VInt 2) (text "1a") start = Accept (VInt 1) (text "1a") start
  /\ fail_at_first_char_expected (keyword (text "ab") VVoid) (text "ac") start
     = Reject (literal_expected 98) (mkpos 1 2 97).
Proof.
  split; [eexists _, _, _; vm_compute; reflexivity|].
  split; [eexists _, _; vm_compute; reflexivity|]. vm_compute. auto.
Qed.

(** ** C23 entire_input *)

Theorem C23_entire_input_accepts : forall cfg p m s ps v s' ps', fits_sequence cfg 2 ->
  (entire_input cfg p m s ps = Accept v s' ps' <-> p s ps = Accept v [] ps' /\ s' = []).
Proof. exact entire_input_accept. Qed.
Print Assumptions C23_entire_input_accepts.

Theorem C23_entire_input_rejects : forall cfg p m s ps m' pe, fits_sequence cfg 2 ->
  (entire_input cfg p m s ps = Reject m' pe <->
   p s ps = Reject m' pe
   \/ exists r s1, s1 <> [] /\ p s ps = Accept r s1 pe /\ m' = m).
Proof. exact entire_input_reject. Qed.
Print Assumptions C23_entire_input_rejects.

Example C23_case :
  fits_sequence c98 2
  /\ entire_input c98 (int_ 9) (UserMsg 1) (text "12") start = Accept (VInt 12) [] (mkpos 1 3 50)
  /\ entire_input c98 (int_ 9) (UserMsg 1) (text "12x") start = Reject (UserMsg 1) (mkpos 1 3 50)
  /\ entire_input c98 (int_ 9) (UserMsg 1) (text "x12") start = Reject digit_expected start
  /\ entire_input c98 (int_ 9) end_of_input_expected (text "12x") start
     = Reject end_of_input_expected (mkpos 1 3 50).
Proof. split; [intros _; cbv; repeat constructor|]. vm_compute. auto. Qed.

(** ** C24 keyword *)

Theorem C24_keyword_accepts : forall kw r s ps v s' ps',
  keyword kw r s ps = Accept v s' ps' <-> s = kw ++ s' /\ v = r /\ walk ps kw ps'.
Proof. exact keyword_accept. Qed.
Print Assumptions C24_keyword_accepts.

Theorem C24_keyword_rejects : forall kw r s ps m pe,
  keyword kw r s ps = Reject m pe <->
  exists u c kw' s1, kw = u ++ c :: kw' /\ s = u ++ s1
    /\ not_starting_with (fun d => d = c) s1 /\ m = literal_expected c /\ walk ps u pe.
Proof. exact keyword_reject. Qed.
Print Assumptions C24_keyword_rejects.

Theorem C24_keyword_finishes : forall kw r s ps, finishes (keyword kw r) s ps.
Proof. exact keyword_finishes. Qed.
Print Assumptions C24_keyword_finishes.

Example C24_case :
  keyword (text "let") (VInt 7) (text "let x") start = Accept (VInt 7) (text " x") (mkpos 1 4 116)
  /\ keyword (text "let") (VInt 7) (text "lex") start = Reject (literal_expected 116) (mkpos 1 3 101)
  /\ keyword (text "let") (VInt 7) (text "le") start = Reject (literal_expected 116) (mkpos 1 3 101)
  /\ keyword [] (VInt 7) (text "le") start = Accept (VInt 7) (text "le") start.
Proof. vm_compute. auto. Qed.

(** ** C25 parsers of one character *)

Theorem C25_one_char : char_class_parser (fun _ => True) unexpected_end_of_input
  unexpected_end_of_input one_char.
Proof. exact one_char_class. Qed.
Print Assumptions C25_one_char.

Theorem C25_lit : forall c,
  char_class_parser (fun d => d = c) (literal_expected c) (literal_expected c) (lit_c c).
Proof. exact lit_c_class. Qed.
Print Assumptions C25_lit.

Theorem C25_range : forall lo hi,
  char_class_parser (fun d => lo <= d <= hi) unexpected_end_of_input unexpected_character
    (range_c lo hi).
Proof. exact range_c_class. Qed.
Print Assumptions C25_range.

Theorem C25_digit : char_class_parser digit_char digit_expected digit_expected digit.
Proof. exact digit_class. Qed.
Print Assumptions C25_digit.

Theorem C25_letter :
  char_class_parser letter_char unexpected_end_of_input letter_expected letter.
Proof. exact letter_class. Qed.
Print Assumptions C25_letter.

Theorem C25_space :
  char_class_parser space_char unexpected_end_of_input whitespace_expected space.
Proof. exact space_class. Qed.
Print Assumptions C25_space.

(** The messages depend on the language standard. *)
Theorem C25_one_of_c : forall cfg cs, fits_one_of_c cfg (length cs) ->
  char_class_parser (fun d => In d cs)
    (match cfg_std cfg with
     | Std98 => last (map literal_expected cs) none_of_the_expected_cases_found
     | _ => unexpected_end_of_input
     end)
    (match cfg_std cfg with
     | Std98 => last (map literal_expected cs) none_of_the_expected_cases_found
     | _ => none_of_the_expected_cases_found
     end)
    (one_of_c cfg cs).
Proof. exact one_of_c_class. Qed.
Print Assumptions C25_one_of_c.

Theorem C25_one_char_except_c : forall cfg cs, fits_one_char_except cfg (length cs) ->
  char_class_parser (fun d => ~ In d cs) unexpected_end_of_input unexpected_character
    (one_char_except_c cfg cs).
Proof. exact one_char_except_c_class. Qed.
Print Assumptions C25_one_char_except_c.

Theorem C25_alphanum : forall cfg, fits_one_of cfg 2 ->
  let m := match cfg_std cfg with
           | Std98 => digit_expected
           | _ => none_of_the_expected_cases_found
           end in
  char_class_parser (fun c => letter_char c \/ digit_char c) m m (alphanum cfg).
Proof. exact alphanum_class. Qed.
Print Assumptions C25_alphanum.

(** What [char_class_parser] says, as "accepts exactly". *)
Theorem C25_accepts_exactly : forall P m1 m2 p, char_class_parser P m1 m2 p ->
  (forall c, {P c} + {~ P c}) ->
  (forall s ps v s' ps', p s ps = Accept v s' ps' <->
    exists c, P c /\ s = c :: s' /\ v = VChar c /\ walk ps [c] ps')
  /\ (forall s ps, rejects p s ps <-> not_starting_with P s).
Proof.
  intros P m1 m2 p H D. split.
  - exact (class_accept P m1 m2 p H D).
  - exact (class_reject P m1 m2 p H D).
Qed.
Print Assumptions C25_accepts_exactly.

Example C25_case :
  fits_one_of_c c98 3 /\ fits_one_char_except c98 3 /\ fits_one_of c98 2
  /\ one_of_c c98 [97; 98; 99] (text "bx") start = Accept (VChar 98) (text "x") (mkpos 1 2 98)
  /\ one_of_c c98 [97; 98; 99] (text "x") start = Reject (literal_expected 99) start
  /\ one_of_c c11 [97; 98; 99] (text "x") start = Reject none_of_the_expected_cases_found start
  /\ one_char_except_c c98 [97; 98; 99] (text "bx") start = Reject unexpected_character start
  /\ range_c 97 102 (text "ex") start = Accept (VChar 101) (text "x") (mkpos 1 2 101)
  /\ one_char [10; 97] (mkpos 1 1 13) = Accept (VChar 10) [97] (mkpos 1 2 10).
Proof.
  split; [intros _; cbv; repeat constructor|]. split; [intros _; cbv; repeat constructor|].
  split; [intros _; cbv; repeat constructor|]. vm_compute. auto 8.
Qed.

(** ** C26 int_ *)

Theorem C26_int_accepts : forall n s ps v s' ps',
  int_ n s ps = Accept v s' ps' <->
  exists ds, ds <> [] /\ Forall digit_char ds /\ s = ds ++ s'
    /\ not_starting_with digit_char s' /\ walk ps ds ps' /\ (length ds < n)%nat
    /\ decimal ds <= int_max /\ v = VInt (decimal ds).
Proof. exact int_accept. Qed.
Print Assumptions C26_int_accepts.

Theorem C26_int_rejects : forall n s ps m pe,
  int_ n s ps = Reject m pe <->
  not_starting_with digit_char s /\ m = digit_expected /\ pe = ps.
Proof. exact int_reject. Qed.
Print Assumptions C26_int_rejects.

Theorem C26_int_overflow : forall n ds s' ps, ds <> [] -> Forall digit_char ds ->
  not_starting_with digit_char s' -> (length ds < n)%nat -> int_max < decimal ds ->
  int_ n (ds ++ s') ps = Illformed.
Proof. exact int_overflow. Qed.
Print Assumptions C26_int_overflow.

(** [print_number] is the decimal printer of Coq's standard library. *)
Theorem C26_int_round_trip : forall n k rest ps, Z.of_N k <= int_max ->
  not_starting_with digit_char rest -> (length (print_number k) < n)%nat ->
  exists ps', walk ps (print_number k) ps'
    /\ int_ n (print_number k ++ rest) ps = Accept (VInt (Z.of_N k)) rest ps'.
Proof. exact int_round_trip. Qed.
Print Assumptions C26_int_round_trip.

Example C26_case :
  print_number 2147483647 = text "2147483647"
  /\ int_ 20 (text "2147483647+") start = Accept (VInt 2147483647) (text "+") (mkpos 1 11 55)
  /\ int_ 20 (text "2147483648+") start = Illformed
  /\ int_ 20 (text "007") start = Accept (VInt 7) [] (mkpos 1 4 55)
  /\ int_ 20 (text "+1") start = Reject digit_expected start.
Proof. vm_compute. auto. Qed.

(** ** C27 digit conversions *)

Theorem C27_mutually_inverse : forall c n,
  digit_to_int_c c = VInt n <-> int_to_digit_c n = Some (VChar c).
Proof. exact digit_int_inverse. Qed.
Print Assumptions C27_mutually_inverse.

Theorem C27_int_to_digit_domain : forall n,
  (exists v, int_to_digit_c n = Some v) <-> 0 <= n <= 9.
Proof. exact int_to_digit_domain. Qed.
Print Assumptions C27_int_to_digit_domain.

Theorem C27_digit_to_int_domain : forall c,
  (digit_char c -> exists n, digit_to_int_c c = VInt n)
  /\ (~ digit_char c -> digit_to_int_c c = VErr digit_expected).
Proof. exact digit_to_int_domain. Qed.
Print Assumptions C27_digit_to_int_domain.

Theorem C27_values :
  (forall n, 0 <= n <= 9 -> int_to_digit_c n = Some (VChar (48 + n)))
  /\ (forall c, digit_char c -> digit_to_int_c c = VInt (c - 48)).
Proof. split; [exact int_to_digit_value|exact digit_to_int_value]. Qed.
Print Assumptions C27_values.

Example C27_case :
  digit_to_int_c 55 = VInt 7 /\ int_to_digit_c 7 = Some (VChar 55)
  /\ digit_char 55 /\ digit_to_int_c 97 = VErr digit_expected /\ int_to_digit_c 10 = None.
Proof. unfold digit_char. repeat split; auto; discriminate. Qed.

(** The functions of util take any integral constant by its number, and nothing
    else. *)
Theorem C27_integral_constants : forall v n, numeral v n ->
  (forall lo hi, exists b, in_range_c lo hi v = Some b /\ (b = true <-> lo <= n <= hi))
  /\ (exists b, is_digit v = Some b /\ (b = true <-> digit_char n))
  /\ (exists b, is_letter v = Some b /\ (b = true <-> letter_char n))
  /\ (exists b, is_whitespace v = Some b /\ (b = true <-> space_char n))
  /\ digit_to_int v = Some (digit_to_int_c n)
  /\ int_to_digit v = int_to_digit_c n
  /\ (forall s, push_back (VStr s) v = Some (VStr (s ++ [n])) /\ push_front (VStr s) v = Some (VStr (n :: s))).
Proof. exact integral_constants. Qed.
Print Assumptions C27_integral_constants.

Theorem C27_other_values : forall v, (forall n, ~ numeral v n) ->
  (forall lo hi, in_range_c lo hi v = None) /\ is_digit v = None /\ is_letter v = None /\ is_whitespace v = None
  /\ digit_to_int v = None /\ int_to_digit v = None.
Proof. exact other_values. Qed.
Print Assumptions C27_other_values.

Example C27_integral_case :
  numeral (VBool true) 1 /\ int_to_digit (VBool true) = Some (VChar 49) /\ is_digit (VInt 50) = Some true
  /\ digit_to_int (VInt 50) = Some (VInt 2) /\ (forall n, ~ numeral (VStr (text "7")) n)
  /\ digit_to_int (VStr (text "7")) = None.
Proof. splits; try reflexivity; [constructor|]. intros n H. inversion H. Qed.

(** ** C28 token and spaces *)

Theorem C28_token_accepts : forall cfg n p s ps r s' ps', fits_sequence cfg 2 ->
  (token cfg n p s ps = Accept r s' ps' <->
   exists s1 ps1 w, p s ps = Accept r s1 ps1 /\ s1 = w ++ s' /\ Forall space_char w
     /\ not_starting_with space_char s' /\ (length w < n)%nat /\ walk ps1 w ps').
Proof. exact token_accept. Qed.
Print Assumptions C28_token_accepts.

Theorem C28_token_rejects : forall cfg n p s ps m pe, fits_sequence cfg 2 ->
  (token cfg n p s ps = Reject m pe <-> p s ps = Reject m pe).
Proof. exact token_reject. Qed.
Print Assumptions C28_token_rejects.

Theorem C28_spaces_accepts : forall n s ps v s' ps',
  spaces n s ps = Accept v s' ps' <->
  exists w, w <> [] /\ s = w ++ s' /\ Forall space_char w /\ not_starting_with space_char s'
    /\ (length w < n)%nat /\ walk ps w ps' /\ v = VSeq (map VChar w).
Proof. exact spaces_accept. Qed.
Print Assumptions C28_spaces_accepts.

Theorem C28_spaces_rejects : forall n s ps m pe,
  spaces n s ps = Reject m pe <->
  pe = ps /\ ((s = [] /\ m = unexpected_end_of_input) \/
    (s <> [] /\ not_starting_with space_char s /\ m = whitespace_expected)).
Proof. exact spaces_reject. Qed.
Print Assumptions C28_spaces_rejects.

Example C28_case :
  fits_sequence c98 2
  /\ token c98 9 digit (49 :: 32 :: 9 :: 13 :: 10 :: 97 :: nil) start
     = Accept (VChar 49) [97] (mkpos 2 2 10)
  /\ token c98 9 digit (text "1a") start = Accept (VChar 49) [97] (mkpos 1 2 49)
  /\ spaces 9 (text "  a") start = Accept (VSeq [VChar 32; VChar 32]) [97] (mkpos 1 3 32)
  /\ spaces 9 (text "a") start = Reject whitespace_expected start.
Proof. split; [intros _; cbv; repeat constructor|]. vm_compute. auto. Qed.

(** ** C29 middle_of *)

Theorem C29_middle_of_accepts : forall cfg p1 p2 p3 s ps v s' ps', fits_sequence cfg 3 ->
  (middle_of cfg p1 p2 p3 s ps = Accept v s' ps' <->
   exists r1 r3, in_row [p1; p2; p3] s ps [r1; v; r3] s' ps').
Proof. exact middle_of_accept. Qed.
Print Assumptions C29_middle_of_accepts.

Theorem C29_middle_of_rejects : forall cfg p1 p2 p3 s ps m pe, fits_sequence cfg 3 ->
  (middle_of cfg p1 p2 p3 s ps = Reject m pe <->
   p1 s ps = Reject m pe
   \/ (exists r1 s1 ps1, p1 s ps = Accept r1 s1 ps1 /\ p2 s1 ps1 = Reject m pe)
   \/ (exists r1 s1 ps1 r2 s2 ps2 m3, p1 s ps = Accept r1 s1 ps1
        /\ p2 s1 ps1 = Accept r2 s2 ps2 /\ p3 s2 ps2 = Reject m3 pe
        /\ m = unpaired (line ps) (col ps) m3)).
Proof. exact middle_of_reject. Qed.
Print Assumptions C29_middle_of_rejects.

Example C29_case :
  fits_sequence c98 3
  /\ middle_of c98 (lit_c 40) digit (lit_c 41) (text "(1)") (mkpos 3 4 0)
     = Accept (VChar 49) [] (mkpos 3 7 41)
  /\ middle_of c98 (lit_c 40) digit (lit_c 41) (text "(1]") (mkpos 3 4 0)
     = Reject (unpaired 3 4 (literal_expected 41)) (mkpos 3 6 49)
  /\ middle_of c98 (lit_c 40) digit (lit_c 41) (text "(a)") (mkpos 3 4 0)
     = Reject digit_expected (mkpos 3 5 40).
Proof. split; [intros _; cbv; repeat constructor|]. vm_compute. auto. Qed.

(** ** C30 transform *)

Theorem C30_transform : forall p f s ps,
  (forall v s' ps', transform p f s ps = Accept v s' ps' <->
     exists r, p s ps = Accept r s' ps' /\ f r = Some v)
  /\ (forall m pe, transform p f s ps = Reject m pe <-> p s ps = Reject m pe)
  /\ (transform p f s ps = Illformed <->
      p s ps = Illformed \/ exists r s' ps', p s ps = Accept r s' ps' /\ f r = None).
Proof.
  intros p f s ps. split; [|split]; intros;
    [apply transform_accept|apply transform_reject|apply transform_illformed].
Qed.
Print Assumptions C30_transform.

Theorem C30_transform_identity : forall p f, (forall v, f v = Some v) ->
  same_parser (transform p f) p.
Proof. exact transform_identity. Qed.
Print Assumptions C30_transform_identity.

Theorem C30_transform_compose : forall p f g,
  same_parser (transform (transform p f) g)
    (transform p (fun v => match f v with Some w => g w | None => None end)).
Proof. exact transform_compose. Qed.
Print Assumptions C30_transform_compose.

Theorem C30_transform_error_message : forall p f s ps,
  (forall v s' ps', transform_error_message p f s ps = Accept v s' ps' <->
     p s ps = Accept v s' ps')
  /\ (forall m pe, transform_error_message p f s ps = Reject m pe <->
     exists m0, p s ps = Reject m0 pe /\ f m0 = Some m).
Proof. intros p f s ps. split; intros; [apply tem_accept|apply tem_reject]. Qed.
Print Assumptions C30_transform_error_message.

Theorem C30_transform_error : forall p f s ps v s' ps',
  transform_error p f s ps = Accept v s' ps' <->
  p s ps = Accept v s' ps' \/ exists m pe, p s ps = Reject m pe /\ f m pe = Accept v s' ps'.
Proof. exact te_accept. Qed.
Print Assumptions C30_transform_error.

Theorem C30_change_error_message : forall p m s ps,
  (forall v s' ps', change_error_message p m s ps = Accept v s' ps' <->
     p s ps = Accept v s' ps')
  /\ (forall m' pe, change_error_message p m s ps = Reject m' pe <->
     rejects p s ps /\ m' = m /\ pe = ps).
Proof. intros p m s ps. split; intros; [apply cem_accept|apply cem_reject]. Qed.
Print Assumptions C30_change_error_message.

Theorem C30_sequence_apply : forall cfg t l s ps,
  (1 <= length l < limit_sequence cfg)%nat ->
  (forall v s' ps', sequence_apply cfg t l s ps = Accept v s' ps' <->
     exists rs, in_row l s ps rs s' ps' /\ v = t rs)
  /\ (forall m pe, sequence_apply cfg t l s ps = Reject m pe <->
     first_failure l s ps (Reject m pe)).
Proof.
  intros cfg t l s ps L. split; intros;
    [apply sequence_apply_accept; exact L|apply sequence_apply_reject; exact L].
Qed.
Print Assumptions C30_sequence_apply.

Example C30_case :
  transform digit digit_to_int (text "7a") start = Accept (VInt 7) (text "a") (mkpos 1 2 55)
  /\ transform_error_message (keyword (text "ab") VVoid) (fun _ => Some (UserMsg 1)) (text "ax") start
     = Reject (UserMsg 1) (mkpos 1 2 97)
  /\ change_error_message (keyword (text "ab") VVoid) (UserMsg 1) (text "ax") start
     = Reject (UserMsg 1) start
  /\ sequence_apply c11 (VTmpl 3) [digit_val; letter] (text "1a") start
     = Accept (VTmpl 3 [VInt 1; VChar 97]) [] (mkpos 1 3 97)
  /\ (1 <= length [digit_val; letter] < limit_sequence c11)%nat.
Proof. repeat (split; [vm_compute; reflexivity|]). cbv. split; repeat constructor. Qed.

(** ** C32 build_parser *)

Theorem C32_build_parser : forall p s,
  (forall v, build_parser p s = Built v <->
     exists s' ps', p s (mkpos 1 1 0) = Accept v s' ps')
  /\ (forall l c m, build_parser p s = ParsingFailed l c m <->
     exists pe, p s (mkpos 1 1 0) = Reject m pe /\ line pe = l /\ col pe = c)
  /\ (build_parser p s = BuildIllformed <-> p s (mkpos 1 1 0) = Illformed)
  /\ (build_parser p s = BuildOutOfFuel <-> p s (mkpos 1 1 0) = OutOfFuel).
Proof.
  intros p s. split; [exact (build_parser_built p s)|].
  split; [exact (build_parser_failed p s)|]. exact (build_parser_other p s).
Qed.
Print Assumptions C32_build_parser.

Example C32_case :
  build_parser (int_ 9) (text "12 rest") = Built (VInt 12)
  /\ build_parser (entire_input c11 (int_ 9) end_of_input_expected) (text "12 rest")
     = ParsingFailed 1 3 end_of_input_expected.
Proof. vm_compute. auto. Qed.
