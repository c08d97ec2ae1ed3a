(** The assertions of the examples of the reference documentation
    (/repo/doc/*.qbk), about the model.  Like Tests.v this file tests the model
    against what the authors of the library wrote down; it proves nothing for
    all inputs.

    The translation is mechanical: one example for every [static_assert], in the
    order of the page, for every language standard ([d]).  Errors defined with
    [BOOST_METAPARSE_DEFINE_ERROR] are [UserMsg 200], [UserMsg 201], ...
    Arguments that are still to be evaluated are translated as their values
    (C83 is about them).  226 of the 234 assertions are translated; those of
    grammar.qbk are proved for all inputs in Properties_Manual.v (C77), those of
    unless_error.qbk are special cases of theorems of C83, the others left out are
    about [mpl::plus]. *)

From Coq Require Import ZArith List Bool.
From Verif Require Import Base Util Combinators Variadic Parsers Deep Tests.
Import ListNotations.
Open Scope Z_scope.


(** /repo/doc/BOOST_METAPARSE_DEFINE_ERROR.qbk *)

(** the error message should be age_expected when the age is missing *)
Example doc_BOOST_METAPARSE_DEFINE_ERROR_1 : forall d,
  defined_same (Some (UserMsg 200)) (get_message (run d (PSequence [(PToken (PRepeated1
  PLetter)); (PToken (PChangeErrorMessage PInt (UserMsg 200)))]) (Some [74; 111; 101;
  32]) (Some start))).
Proof. intros []; vm_compute; reflexivity. Qed.


(** /repo/doc/BOOST_METAPARSE_STRING.qbk *)

(** The type generated by the macro should be identical to the hand-crafted one. *)
Example doc_BOOST_METAPARSE_STRING_1 :
  defined_same (Some (VStr [72; 101; 108; 108; 111])) (Some (VStr [72; 101; 108; 108;
  111])).
Proof. vm_compute; reflexivity. Qed.

(** The type generated by the macro should be identical to the hand-crafted one. *)
Example doc_BOOST_METAPARSE_STRING_2 :
  defined_same (Some (VStr [65; 32; 108; 111; 110; 103; 101; 114; 32; 115; 116; 114;
  105; 110; 103])) (Some (VStr [65; 32; 108; 111; 110; 103; 101; 114; 32; 115; 116; 114;
  105; 110; 103])).
Proof. vm_compute; reflexivity. Qed.


(** /repo/doc/accept_when.qbk *)

(** accept_digit should accept a digit *)
Example doc_accept_when_1 : forall d,
  is_error (run d (PAcceptWhen POneChar is_digit (UserMsg 200)) (Some [48]) (Some
  start)) = Some false.
Proof. intros []; vm_compute; reflexivity. Qed.

(** the result of parsing should be the character value *)
Example doc_accept_when_2 : forall d,
  bind (get_result (run d (PAcceptWhen POneChar is_digit (UserMsg 200)) (Some [48])
  (Some start))) as_int = Some 48.
Proof. intros []; vm_compute; reflexivity. Qed.

(** accept_digit should reject a character that is not a digit *)
Example doc_accept_when_3 : forall d,
  is_error (run d (PAcceptWhen POneChar is_digit (UserMsg 200)) (Some [120]) (Some
  start)) = Some true.
Proof. intros []; vm_compute; reflexivity. Qed.


(** /repo/doc/alphanum.qbk *)

(** alphanum should accept a digit *)
Example doc_alphanum_1 : forall d,
  is_error (run d PAlphanum (Some [48]) (Some start)) = Some false.
Proof. intros []; vm_compute; reflexivity. Qed.

(** alphanum should accept a character *)
Example doc_alphanum_2 : forall d,
  is_error (run d PAlphanum (Some [120]) (Some start)) = Some false.
Proof. intros []; vm_compute; reflexivity. Qed.

(** the result of parsing should be the character value *)
Example doc_alphanum_3 : forall d,
  bind (get_result (run d PAlphanum (Some [120]) (Some start))) as_int = Some 120.
Proof. intros []; vm_compute; reflexivity. Qed.

(** alphanum should reject a comma *)
Example doc_alphanum_4 : forall d,
  is_error (run d PAlphanum (Some [44]) (Some start)) = Some true.
Proof. intros []; vm_compute; reflexivity. Qed.


(** /repo/doc/always.qbk *)

(** always13 should accept x *)
Example doc_always_1 : forall d,
  is_error (run d (PAlways (PLitC 120) (VInt 13)) (Some [120]) (Some start)) = Some
  false.
Proof. intros []; vm_compute; reflexivity. Qed.

(** the result of parsing should be the integral_constant type *)
Example doc_always_2 : forall d,
  defined_same (get_result (run d (PAlways (PLitC 120) (VInt 13)) (Some [120]) (Some
  start))) (Some (VInt 13)).
Proof. intros []; vm_compute; reflexivity. Qed.

(** always13 should reject characters other than x *)
Example doc_always_3 : forall d,
  is_error (run d (PAlways (PLitC 120) (VInt 13)) (Some [121]) (Some start)) = Some true.
Proof. intros []; vm_compute; reflexivity. Qed.


(** /repo/doc/always_c.qbk *)

(** always13 should accept x *)
Example doc_always_c_1 : forall d,
  is_error (run d (PAlways (PLitC 120) (VInt 13)) (Some [120]) (Some start)) = Some
  false.
Proof. intros []; vm_compute; reflexivity. Qed.

(** the result of parsing should be the integral_constant type *)
Example doc_always_c_2 : forall d,
  defined_same (get_result (run d (PAlways (PLitC 120) (VInt 13)) (Some [120]) (Some
  start))) (Some (VInt 13)).
Proof. intros []; vm_compute; reflexivity. Qed.

(** always13 should reject characters other than x *)
Example doc_always_c_3 : forall d,
  is_error (run d (PAlways (PLitC 120) (VInt 13)) (Some [121]) (Some start)) = Some true.
Proof. intros []; vm_compute; reflexivity. Qed.


(** /repo/doc/build_parser.qbk *)

(** string_to_int should be a metafunction turning a string into an int *)
Example doc_build_parser_1 : forall d,
  bind (get_result (run d PInt (Some [49; 49; 49; 51]) (Some start))) as_int = Some 1113.
Proof. intros []; vm_compute; reflexivity. Qed.


(** /repo/doc/change_error_message.qbk *)

(** name_parser should accept 'name <a name>' *)
Example doc_change_error_message_1 : forall d,
  is_error (run d (PLastOf [(PToken (PKeyword [110; 97; 109; 101] VVoid_));
  (PChangeErrorMessage (PToken (PRepeated1 PLetter)) (UserMsg 200))]) (Some [110; 97;
  109; 101; 32; 66; 101; 108; 97]) (Some start)) = Some false.
Proof. intros []; vm_compute; reflexivity. Qed.

(** name_parser should reject input when name is a question mark *)
Example doc_change_error_message_2 : forall d,
  is_error (run d (PLastOf [(PToken (PKeyword [110; 97; 109; 101] VVoid_));
  (PChangeErrorMessage (PToken (PRepeated1 PLetter)) (UserMsg 200))]) (Some [110; 97;
  109; 101; 32; 63]) (Some start)) = Some true.
Proof. intros []; vm_compute; reflexivity. Qed.

(** the error message should be the one specified by change_error_message *)
Example doc_change_error_message_3 : forall d,
  defined_same (get_message (run d (PLastOf [(PToken (PKeyword [110; 97; 109; 101]
  VVoid_)); (PChangeErrorMessage (PToken (PRepeated1 PLetter)) (UserMsg 200))]) (Some
  [110; 97; 109; 101; 32; 63]) (Some start))) (Some (UserMsg 200)).
Proof. intros []; vm_compute; reflexivity. Qed.


(** /repo/doc/digit.qbk *)

(** digit should accept a digit *)
Example doc_digit_1 : forall d,
  is_error (run d PDigit (Some [48]) (Some start)) = Some false.
Proof. intros []; vm_compute; reflexivity. Qed.

(** digit should reject a character *)
Example doc_digit_2 : forall d,
  is_error (run d PDigit (Some [120]) (Some start)) = Some true.
Proof. intros []; vm_compute; reflexivity. Qed.

(** the result of parsing should be the character value *)
Example doc_digit_3 : forall d,
  bind (get_result (run d PDigit (Some [48]) (Some start))) as_int = Some 48.
Proof. intros []; vm_compute; reflexivity. Qed.


(** /repo/doc/digit_to_int.qbk *)

(** it should convert a character to the corresponding integer value *)
Example doc_digit_to_int_1 :
  bind (digit_to_int (VChar 48)) as_int = Some 0.
Proof. vm_compute; reflexivity. Qed.

(** it should support currying *)
Example doc_digit_to_int_2 :
  bind (digit_to_int (VChar 55)) as_int = Some 7.
Proof. vm_compute; reflexivity. Qed.

(** it should support lazy evaluation *)
Example doc_digit_to_int_3 :
  bind (digit_to_int (VChar 52)) as_int = Some 4.
Proof. vm_compute; reflexivity. Qed.


(** /repo/doc/digit_to_int_c.qbk *)

(** it should convert a character to the corresponding integer value *)
Example doc_digit_to_int_c_1 :
  bind (digit_to_int (VChar 48)) as_int = Some 0.
Proof. vm_compute; reflexivity. Qed.

(** it should convert a character to the corresponding integer value *)
Example doc_digit_to_int_c_2 :
  bind (digit_to_int (VChar 51)) as_int = Some 3.
Proof. vm_compute; reflexivity. Qed.

(** it should convert a character to the corresponding integer value *)
Example doc_digit_to_int_c_3 :
  bind (digit_to_int (VChar 57)) as_int = Some 9.
Proof. vm_compute; reflexivity. Qed.


(** /repo/doc/digit_val.qbk *)

(** digit_val should accept a digit *)
Example doc_digit_val_1 : forall d,
  is_error (run d PDigitVal (Some [48]) (Some start)) = Some false.
Proof. intros []; vm_compute; reflexivity. Qed.

(** digit_val should reject a character *)
Example doc_digit_val_2 : forall d,
  is_error (run d PDigitVal (Some [120]) (Some start)) = Some true.
Proof. intros []; vm_compute; reflexivity. Qed.

(** the result of parsing should be the int value *)
Example doc_digit_val_3 : forall d,
  bind (get_result (run d PDigitVal (Some [48]) (Some start))) as_int = Some 0.
Proof. intros []; vm_compute; reflexivity. Qed.


(** /repo/doc/empty.qbk *)

(** empty accepts the empty input *)
Example doc_empty_1 : forall d,
  is_error (run d (PEmpty (VStr [114; 101; 115; 117; 108; 116])) (Some []) (Some start))
  = Some false.
Proof. intros []; vm_compute; reflexivity. Qed.

(** empty should reject non-empty input *)
Example doc_empty_2 : forall d,
  is_error (run d (PEmpty (VStr [114; 101; 115; 117; 108; 116])) (Some [120]) (Some
  start)) = Some true.
Proof. intros []; vm_compute; reflexivity. Qed.

(** the result of parsing should be the given value *)
Example doc_empty_3 : forall d,
  defined_same (get_result (run d (PEmpty (VStr [114; 101; 115; 117; 108; 116])) (Some
  []) (Some start))) (Some (VStr [114; 101; 115; 117; 108; 116])).
Proof. intros []; vm_compute; reflexivity. Qed.


(** /repo/doc/entire_input.qbk *)

(** it should parse the input if it contains only an integer *)
Example doc_entire_input_1 : forall d,
  bind (get_result (run d (PEntireInput PInt (UserMsg 200)) (Some [49; 49; 49; 51])
  (Some start))) as_int = Some 1113.
Proof. intros []; vm_compute; reflexivity. Qed.

(** it should return the specified error message when there are extra characters *)
Example doc_entire_input_2 : forall d,
  defined_same (get_message (run d (PEntireInput PInt (UserMsg 200)) (Some [49; 49; 49;
  51; 109; 109]) (Some start))) (Some (UserMsg 200)).
Proof. intros []; vm_compute; reflexivity. Qed.


(** /repo/doc/except.qbk *)

(** it should accept the input when it is not an integer *)
Example doc_except_1 : forall d,
  bind (get_result (run d (PExcept PInt (VInt 1) (UserMsg 200)) (Some [102; 111; 111])
  (Some start))) as_int = Some 1.
Proof. intros []; vm_compute; reflexivity. Qed.

(** it should reject the input when it is an integer *)
Example doc_except_2 : forall d,
  defined_same (Some (UserMsg 200)) (get_message (run d (PExcept PInt (VInt 1) (UserMsg
  200)) (Some [49; 51]) (Some start))).
Proof. intros []; vm_compute; reflexivity. Qed.


(** /repo/doc/fail.qbk *)

(** it should reject every input *)
Example doc_fail_1 : forall d,
  is_error (run d (PFail (UserMsg 200)) (Some [102; 111; 111]) (Some start)) = Some true.
Proof. intros []; vm_compute; reflexivity. Qed.

(** the error message should be the type specified *)
Example doc_fail_2 : forall d,
  defined_same (get_message (run d (PFail (UserMsg 200)) (Some [102; 111; 111]) (Some
  start))) (Some (UserMsg 200)).
Proof. intros []; vm_compute; reflexivity. Qed.


(** /repo/doc/fail_at_first_char_expected.qbk *)

(** it should accept the input when it is a list of '+' separated ints *)
Example doc_fail_at_first_char_expected_1 : forall d,
  bind (get_result (run d (PFirstOf [(PFoldlStartWithParser (PLastOf [(PLitC 43); PInt])
  PInt (fun a b => match as_int a, as_int b with Some x, Some y => Some (VInt (x + y)) |
  _, _ => None end)); (PFailAtFirstCharExpected (PLastOf [(PLitC 43); PInt]))]) (Some
  [49; 43; 50; 43; 51]) (Some start))) as_int = Some 6.
Proof. intros []; vm_compute; reflexivity. Qed.

(** it should reject the input when it has an extra + *)
Example doc_fail_at_first_char_expected_2 : forall d,
  is_error (run d (PFirstOf [(PFoldlStartWithParser (PLastOf [(PLitC 43); PInt]) PInt
  (fun a b => match as_int a, as_int b with Some x, Some y => Some (VInt (x + y)) | _, _
  => None end)); (PFailAtFirstCharExpected (PLastOf [(PLitC 43); PInt]))]) (Some [49;
  43; 50; 43; 51; 43]) (Some start)) = Some true.
Proof. intros []; vm_compute; reflexivity. Qed.


(** /repo/doc/first_of.qbk *)

(** int without semicolon is rejected *)
Example doc_first_of_1 : forall d,
  is_error (run d (PFirstOf [PInt; (PLitC 59)]) (Some [49; 51]) (Some start)) = Some
  true.
Proof. intros []; vm_compute; reflexivity. Qed.

(** the result is the result of the first parser *)
Example doc_first_of_2 : forall d,
  match bind (get_result (run d (PFirstOf [PInt; (PLitC 59)]) (Some [49; 51; 59]) (Some
  start))) as_int with Some n => Some (negb (n =? 0)) | None => None end = Some true.
Proof. intros []; vm_compute; reflexivity. Qed.


(** /repo/doc/foldl.qbk *)

(** ints should sum the numbers *)
Example doc_foldl_1 : forall d,
  bind (get_result (run d (PFoldl (PToken PInt) (Some (VInt 0)) (fun a b => match as_int
  a, as_int b with Some x, Some y => Some (VInt (x + y)) | _, _ => None end)) (Some [49;
  49; 32; 49; 51; 32; 51; 32; 50; 49]) (Some start))) as_int = Some 48.
Proof. intros []; vm_compute; reflexivity. Qed.

(** the sum of no elements is 0 *)
Example doc_foldl_2 : forall d,
  bind (get_result (run d (PFoldl (PToken PInt) (Some (VInt 0)) (fun a b => match as_int
  a, as_int b with Some x, Some y => Some (VInt (x + y)) | _, _ => None end)) (Some [])
  (Some start))) as_int = Some 0.
Proof. intros []; vm_compute; reflexivity. Qed.


(** /repo/doc/foldl1.qbk *)

(** ints should sum the numbers *)
Example doc_foldl1_1 : forall d,
  bind (get_result (run d (PFoldl1 (PToken PInt) (Some (VInt 0)) (fun a b => match
  as_int a, as_int b with Some x, Some y => Some (VInt (x + y)) | _, _ => None end))
  (Some [49; 49; 32; 49; 51; 32; 51; 32; 50; 49]) (Some start))) as_int = Some 48.
Proof. intros []; vm_compute; reflexivity. Qed.

(** when no numbers are provided, it should be an error *)
Example doc_foldl1_2 : forall d,
  is_error (run d (PFoldl1 (PToken PInt) (Some (VInt 0)) (fun a b => match as_int a,
  as_int b with Some x, Some y => Some (VInt (x + y)) | _, _ => None end)) (Some [])
  (Some start)) = Some true.
Proof. intros []; vm_compute; reflexivity. Qed.


(** /repo/doc/foldl_reject_incomplete.qbk *)

(** ints should sum the numbers *)
Example doc_foldl_reject_incomplete_1 : forall d,
  bind (get_result (run d (PFoldlRejectIncomplete (PLastOf [(PToken (PLitC 43)); (PToken
  PInt)]) (Some (VInt 11)) (fun a b => match as_int a, as_int b with Some x, Some y =>
  Some (VInt (x + y)) | _, _ => None end)) (Some [43; 32; 49; 51; 32; 43; 32; 51; 32;
  43; 32; 50; 49]) (Some start))) as_int = Some 48.
Proof. intros []; vm_compute; reflexivity. Qed.

(** when the last number is missing, it should be an error *)
Example doc_foldl_reject_incomplete_2 : forall d,
  is_error (run d (PFoldlRejectIncomplete (PLastOf [(PToken (PLitC 43)); (PToken PInt)])
  (Some (VInt 11)) (fun a b => match as_int a, as_int b with Some x, Some y => Some
  (VInt (x + y)) | _, _ => None end)) (Some [43; 32; 49; 51; 32; 43; 32; 51; 32; 43])
  (Some start)) = Some true.
Proof. intros []; vm_compute; reflexivity. Qed.


(** /repo/doc/foldl_reject_incomplete1.qbk *)

(** ints should sum the numbers *)
Example doc_foldl_reject_incomplete1_1 : forall d,
  bind (get_result (run d (PFoldlRejectIncomplete1 (PLastOf [(PToken (PLitC 43));
  (PToken PInt)]) (Some (VInt 11)) (fun a b => match as_int a, as_int b with Some x,
  Some y => Some (VInt (x + y)) | _, _ => None end)) (Some [43; 32; 49; 51; 32; 43; 32;
  51; 32; 43; 32; 50; 49]) (Some start))) as_int = Some 48.
Proof. intros []; vm_compute; reflexivity. Qed.

(** when the last number is missing, it should be an error *)
Example doc_foldl_reject_incomplete1_2 : forall d,
  is_error (run d (PFoldlRejectIncomplete1 (PLastOf [(PToken (PLitC 43)); (PToken
  PInt)]) (Some (VInt 11)) (fun a b => match as_int a, as_int b with Some x, Some y =>
  Some (VInt (x + y)) | _, _ => None end)) (Some [43; 32; 49; 51; 32; 43; 32; 51; 32;
  43]) (Some start)) = Some true.
Proof. intros []; vm_compute; reflexivity. Qed.

(** when no numbers are provided, it should be an error *)
Example doc_foldl_reject_incomplete1_3 : forall d,
  is_error (run d (PFoldlRejectIncomplete1 (PLastOf [(PToken (PLitC 43)); (PToken
  PInt)]) (Some (VInt 11)) (fun a b => match as_int a, as_int b with Some x, Some y =>
  Some (VInt (x + y)) | _, _ => None end)) (Some []) (Some start)) = Some true.
Proof. intros []; vm_compute; reflexivity. Qed.


(** /repo/doc/foldl_reject_incomplete_start_with_parser.qbk *)

(** ints should sum the numbers *)
Example doc_foldl_reject_incomplete_start_with_parser_1 : forall d,
  bind (get_result (run d (PFoldlRejectIncompleteStartWithParser (PLastOf [(PToken
  (PLitC 43)); (PToken PInt)]) (PToken PInt) (fun a b => match as_int a, as_int b with
  Some x, Some y => Some (VInt (x + y)) | _, _ => None end)) (Some [49; 49; 32; 43; 32;
  49; 51; 32; 43; 32; 51; 32; 43; 32; 50; 49]) (Some start))) as_int = Some 48.
Proof. intros []; vm_compute; reflexivity. Qed.

(** when the last number is missing, it should be an error *)
Example doc_foldl_reject_incomplete_start_with_parser_2 : forall d,
  is_error (run d (PFoldlRejectIncompleteStartWithParser (PLastOf [(PToken (PLitC 43));
  (PToken PInt)]) (PToken PInt) (fun a b => match as_int a, as_int b with Some x, Some y
  => Some (VInt (x + y)) | _, _ => None end)) (Some [49; 49; 32; 43; 32; 49; 51; 32; 43;
  32; 51; 32; 43]) (Some start)) = Some true.
Proof. intros []; vm_compute; reflexivity. Qed.


(** /repo/doc/foldl_start_with_parser.qbk *)

(** ints should sum the numbers *)
Example doc_foldl_start_with_parser_1 : forall d,
  bind (get_result (run d (PFoldlStartWithParser (PLastOf [(PToken (PLitC 43)); (PToken
  PInt)]) (PToken PInt) (fun a b => match as_int a, as_int b with Some x, Some y => Some
  (VInt (x + y)) | _, _ => None end)) (Some [49; 49; 32; 43; 32; 49; 51; 32; 43; 32; 51;
  32; 43; 32; 50; 49]) (Some start))) as_int = Some 48.
Proof. intros []; vm_compute; reflexivity. Qed.

(** when no numbers are provided, it should be an error *)
Example doc_foldl_start_with_parser_2 : forall d,
  is_error (run d (PFoldlStartWithParser (PLastOf [(PToken (PLitC 43)); (PToken PInt)])
  (PToken PInt) (fun a b => match as_int a, as_int b with Some x, Some y => Some (VInt
  (x + y)) | _, _ => None end)) (Some []) (Some start)) = Some true.
Proof. intros []; vm_compute; reflexivity. Qed.


(** /repo/doc/foldr.qbk *)

(** ints should sum the numbers *)
Example doc_foldr_1 : forall d,
  bind (get_result (run d (PFoldr (PToken PInt) (VInt 0) (fun a b => match as_int a,
  as_int b with Some x, Some y => Some (VInt (x + y)) | _, _ => None end)) (Some [49;
  49; 32; 49; 51; 32; 51; 32; 50; 49]) (Some start))) as_int = Some 48.
Proof. intros []; vm_compute; reflexivity. Qed.

(** the sum of no elements is 0 *)
Example doc_foldr_2 : forall d,
  bind (get_result (run d (PFoldr (PToken PInt) (VInt 0) (fun a b => match as_int a,
  as_int b with Some x, Some y => Some (VInt (x + y)) | _, _ => None end)) (Some [])
  (Some start))) as_int = Some 0.
Proof. intros []; vm_compute; reflexivity. Qed.


(** /repo/doc/foldr1.qbk *)

(** ints should sum the numbers *)
Example doc_foldr1_1 : forall d,
  bind (get_result (run d (PFoldr1 (PToken PInt) (VInt 0) (fun a b => match as_int a,
  as_int b with Some x, Some y => Some (VInt (x + y)) | _, _ => None end)) (Some [49;
  49; 32; 49; 51; 32; 51; 32; 50; 49]) (Some start))) as_int = Some 48.
Proof. intros []; vm_compute; reflexivity. Qed.

(** when no numbers are provided, it should be an error *)
Example doc_foldr1_2 : forall d,
  is_error (run d (PFoldr1 (PToken PInt) (VInt 0) (fun a b => match as_int a, as_int b
  with Some x, Some y => Some (VInt (x + y)) | _, _ => None end)) (Some []) (Some
  start)) = Some true.
Proof. intros []; vm_compute; reflexivity. Qed.


(** /repo/doc/foldr_reject_incomplete.qbk *)

(** ints should sum the numbers *)
Example doc_foldr_reject_incomplete_1 : forall d,
  bind (get_result (run d (PFoldrRejectIncomplete (PLastOf [(PToken (PLitC 43)); (PToken
  PInt)]) (VInt 11) (fun a b => match as_int a, as_int b with Some x, Some y => Some
  (VInt (x + y)) | _, _ => None end)) (Some [43; 32; 49; 51; 32; 43; 32; 51; 32; 43; 32;
  50; 49]) (Some start))) as_int = Some 48.
Proof. intros []; vm_compute; reflexivity. Qed.

(** when the last number is missing, it should be an error *)
Example doc_foldr_reject_incomplete_2 : forall d,
  is_error (run d (PFoldrRejectIncomplete (PLastOf [(PToken (PLitC 43)); (PToken PInt)])
  (VInt 11) (fun a b => match as_int a, as_int b with Some x, Some y => Some (VInt (x +
  y)) | _, _ => None end)) (Some [43; 32; 49; 51; 32; 43; 32; 51; 32; 43]) (Some start))
  = Some true.
Proof. intros []; vm_compute; reflexivity. Qed.


(** /repo/doc/foldr_reject_incomplete1.qbk *)

(** ints should sum the numbers *)
Example doc_foldr_reject_incomplete1_1 : forall d,
  bind (get_result (run d (PFoldrRejectIncomplete1 (PLastOf [(PToken (PLitC 43));
  (PToken PInt)]) (VInt 11) (fun a b => match as_int a, as_int b with Some x, Some y =>
  Some (VInt (x + y)) | _, _ => None end)) (Some [43; 32; 49; 51; 32; 43; 32; 51; 32;
  43; 32; 50; 49]) (Some start))) as_int = Some 48.
Proof. intros []; vm_compute; reflexivity. Qed.

(** when the last number is missing, it should be an error *)
Example doc_foldr_reject_incomplete1_2 : forall d,
  is_error (run d (PFoldrRejectIncomplete1 (PLastOf [(PToken (PLitC 43)); (PToken
  PInt)]) (VInt 11) (fun a b => match as_int a, as_int b with Some x, Some y => Some
  (VInt (x + y)) | _, _ => None end)) (Some [43; 32; 49; 51; 32; 43; 32; 51; 32; 43])
  (Some start)) = Some true.
Proof. intros []; vm_compute; reflexivity. Qed.

(** when no numbers are provided, it should be an error *)
Example doc_foldr_reject_incomplete1_3 : forall d,
  is_error (run d (PFoldrRejectIncomplete1 (PLastOf [(PToken (PLitC 43)); (PToken
  PInt)]) (VInt 11) (fun a b => match as_int a, as_int b with Some x, Some y => Some
  (VInt (x + y)) | _, _ => None end)) (Some []) (Some start)) = Some true.
Proof. intros []; vm_compute; reflexivity. Qed.


(** /repo/doc/foldr_start_with_parser.qbk *)

(** ints should sum the numbers *)
Example doc_foldr_start_with_parser_1 : forall d,
  bind (get_result (run d (PFoldrStartWithParser (PFirstOf [(PToken PInt); (PToken
  (PLitC 43))]) (PToken PInt) (fun a b => match as_int a, as_int b with Some x, Some y
  => Some (VInt (x + y)) | _, _ => None end)) (Some [49; 49; 32; 43; 32; 49; 51; 32; 43;
  32; 51; 32; 43; 32; 50; 49]) (Some start))) as_int = Some 48.
Proof. intros []; vm_compute; reflexivity. Qed.

(** when no numbers are provided, it should be an error *)
Example doc_foldr_start_with_parser_2 : forall d,
  is_error (run d (PFoldrStartWithParser (PFirstOf [(PToken PInt); (PToken (PLitC 43))])
  (PToken PInt) (fun a b => match as_int a, as_int b with Some x, Some y => Some (VInt
  (x + y)) | _, _ => None end)) (Some []) (Some start)) = Some true.
Proof. intros []; vm_compute; reflexivity. Qed.


(** /repo/doc/get_col.qbk *)

(** It should return the column of a source position *)
Example doc_get_col_1 :
  bind (option_map (fun p => VInt (col p)) (Some (mkpos 11 13 0))) as_int = Some 13.
Proof. vm_compute; reflexivity. Qed.

(** It should support lazy evaluation *)
Example doc_get_col_2 :
  bind (option_map (fun p => VInt (col p)) (Some (mkpos 11 13 0))) as_int = Some 13.
Proof. vm_compute; reflexivity. Qed.


(** /repo/doc/get_line.qbk *)

(** It should return the line of a source position *)
Example doc_get_line_1 :
  bind (option_map (fun p => VInt (line p)) (Some (mkpos 11 13 0))) as_int = Some 11.
Proof. vm_compute; reflexivity. Qed.

(** It should support lazy evaluation *)
Example doc_get_line_2 :
  bind (option_map (fun p => VInt (line p)) (Some (mkpos 11 13 0))) as_int = Some 11.
Proof. vm_compute; reflexivity. Qed.


(** /repo/doc/get_message.qbk *)

(** It should return the message *)
Example doc_get_message_1 :
  defined_same (Some (UserMsg 200)) (get_message (reject_at (UserMsg 200) (Some start))).
Proof. vm_compute; reflexivity. Qed.

(** It should support lazy evaluation *)
Example doc_get_message_2 :
  defined_same (Some (UserMsg 200)) (get_message (reject_at (UserMsg 200) (Some start))).
Proof. vm_compute; reflexivity. Qed.


(** /repo/doc/get_position.qbk *)

(** It should return the position of a reject *)
Example doc_get_position_1 :
  defined_same (Some start) (get_position (reject_at (UserMsg 200) (Some start))).
Proof. vm_compute; reflexivity. Qed.

(** It should return the position of an accept *)
Example doc_get_position_2 :
  defined_same (Some start) (get_position (accept_at (VErr (UserMsg 200)) (Some [102;
  111; 111]) (Some start))).
Proof. vm_compute; reflexivity. Qed.

(** It should support lazy evaluation *)
Example doc_get_position_3 :
  defined_same (Some start) (get_position (reject_at (UserMsg 200) (Some start))).
Proof. vm_compute; reflexivity. Qed.


(** /repo/doc/get_prev_char.qbk *)

(** It should return the prev. char of a source position *)
Example doc_get_prev_char_1 :
  bind (option_map (fun p => VInt (prev p)) (Some (mkpos 11 13 120))) as_int = Some 120.
Proof. vm_compute; reflexivity. Qed.

(** It should support lazy evaluation *)
Example doc_get_prev_char_2 :
  bind (option_map (fun p => VInt (prev p)) (Some (mkpos 11 13 120))) as_int = Some 120.
Proof. vm_compute; reflexivity. Qed.


(** /repo/doc/get_remaining.qbk *)

(** It should return the remaining input *)
Example doc_get_remaining_1 :
  defined_same (Some [102; 111; 111]) (get_remaining (accept_at (VInt 13) (Some [102;
  111; 111]) (Some start))).
Proof. vm_compute; reflexivity. Qed.

(** It should support lazy evaluation *)
Example doc_get_remaining_2 :
  defined_same (Some [102; 111; 111]) (get_remaining (accept_at (VInt 13) (Some [102;
  111; 111]) (Some start))).
Proof. vm_compute; reflexivity. Qed.


(** /repo/doc/get_result.qbk *)

(** It should return the result of parsing *)
Example doc_get_result_1 :
  bind (get_result (accept_at (VInt 13) (Some [102; 111; 111]) (Some start))) as_int =
  Some 13.
Proof. vm_compute; reflexivity. Qed.

(** It should support lazy evaluation *)
Example doc_get_result_2 :
  bind (get_result (accept_at (VInt 13) (Some [102; 111; 111]) (Some start))) as_int =
  Some 13.
Proof. vm_compute; reflexivity. Qed.


(** /repo/doc/if_.qbk *)

(** When the int_ parser succeeds, the result of parsing should be 11 *)
Example doc_if__1 : forall d,
  bind (get_result (run d (PIf PInt (VInt 11) (VInt 13)) (Some [49; 50; 51; 52]) (Some
  start))) as_int = Some 11.
Proof. intros []; vm_compute; reflexivity. Qed.

(** When the int_ parser fails, the result of parsing should be 13 *)
Example doc_if__2 : forall d,
  bind (get_result (run d (PIf PInt (VInt 11) (VInt 13)) (Some [102; 111; 111]) (Some
  start))) as_int = Some 13.
Proof. intros []; vm_compute; reflexivity. Qed.


(** /repo/doc/in_range.qbk *)

(** A value below the lower bound should not be in the range *)
Example doc_in_range_1 :
  in_range_c 11 13 (VInt 10) = Some false.
Proof. vm_compute; reflexivity. Qed.

(** A value above the upper bound should not be in the range *)
Example doc_in_range_2 :
  in_range_c 11 13 (VInt 14) = Some false.
Proof. vm_compute; reflexivity. Qed.

(** The lower bound should be in the range *)
Example doc_in_range_3 :
  in_range_c 11 13 (VInt 11) = Some true.
Proof. vm_compute; reflexivity. Qed.

(** The upper bound should be in the range *)
Example doc_in_range_4 :
  in_range_c 11 13 (VInt 13) = Some true.
Proof. vm_compute; reflexivity. Qed.

(** A value between the bounds should be in the range *)
Example doc_in_range_5 :
  in_range_c 11 13 (VInt 12) = Some true.
Proof. vm_compute; reflexivity. Qed.

(** It should support currying *)
Example doc_in_range_6 :
  in_range_c 11 13 (VInt 12) = Some true.
Proof. vm_compute; reflexivity. Qed.


(** /repo/doc/in_range_c.qbk *)

(** A value below the lower bound should not be in the range *)
Example doc_in_range_c_1 :
  in_range_c 11 13 (VInt 10) = Some false.
Proof. vm_compute; reflexivity. Qed.

(** A value above the upper bound should not be in the range *)
Example doc_in_range_c_2 :
  in_range_c 11 13 (VInt 14) = Some false.
Proof. vm_compute; reflexivity. Qed.

(** The lower bound should be in the range *)
Example doc_in_range_c_3 :
  in_range_c 11 13 (VInt 11) = Some true.
Proof. vm_compute; reflexivity. Qed.

(** The upper bound should be in the range *)
Example doc_in_range_c_4 :
  in_range_c 11 13 (VInt 13) = Some true.
Proof. vm_compute; reflexivity. Qed.

(** A value between the bounds should be in the range *)
Example doc_in_range_c_5 :
  in_range_c 11 13 (VInt 12) = Some true.
Proof. vm_compute; reflexivity. Qed.


(** /repo/doc/int_.qbk *)

(** It should parse an integer value *)
Example doc_int__1 : forall d,
  bind (get_result (run d PInt (Some [49; 51]) (Some start))) as_int = Some 13.
Proof. intros []; vm_compute; reflexivity. Qed.

(** It should reject the input if it is not a number *)
Example doc_int__2 : forall d,
  is_error (run d PInt (Some [115; 105; 120]) (Some start)) = Some true.
Proof. intros []; vm_compute; reflexivity. Qed.


(** /repo/doc/int_to_digit.qbk *)

(** it should convert an integer value to the corresponding character *)
Example doc_int_to_digit_1 :
  bind (int_to_digit (VInt 0)) as_int = Some 48.
Proof. vm_compute; reflexivity. Qed.

(** it should support currying *)
Example doc_int_to_digit_2 :
  bind (int_to_digit (VInt 7)) as_int = Some 55.
Proof. vm_compute; reflexivity. Qed.

(** it should support lazy evaluation *)
Example doc_int_to_digit_3 :
  bind (int_to_digit (VInt 4)) as_int = Some 52.
Proof. vm_compute; reflexivity. Qed.


(** /repo/doc/int_to_digit_c.qbk *)

(** it should convert an integer value to the corresponding character *)
Example doc_int_to_digit_c_1 :
  bind (int_to_digit (VInt 0)) as_int = Some 48.
Proof. vm_compute; reflexivity. Qed.

(** it should convert an integer to the corresponding character *)
Example doc_int_to_digit_c_2 :
  bind (int_to_digit (VInt 3)) as_int = Some 51.
Proof. vm_compute; reflexivity. Qed.

(** it should convert an integer value to the corresponding character *)
Example doc_int_to_digit_c_3 :
  bind (int_to_digit (VInt 9)) as_int = Some 57.
Proof. vm_compute; reflexivity. Qed.


(** /repo/doc/is_digit.qbk *)

(** digit character should be a digit *)
Example doc_is_digit_1 :
  is_digit (VChar 48) = Some true.
Proof. vm_compute; reflexivity. Qed.

(** letter should not be a digit *)
Example doc_is_digit_2 :
  is_digit (VChar 120) = Some false.
Proof. vm_compute; reflexivity. Qed.

(** it should support currying *)
Example doc_is_digit_3 :
  is_digit (VChar 48) = Some true.
Proof. vm_compute; reflexivity. Qed.

(** it should support lazy evaluation *)
Example doc_is_digit_4 :
  is_digit (VChar 48) = Some true.
Proof. vm_compute; reflexivity. Qed.


(** /repo/doc/is_error.qbk *)

(** an accept should not be an error *)
Example doc_is_error_1 :
  is_error (accept_at (VInt 13) (Some [102; 111; 111]) (Some start)) = Some false.
Proof. vm_compute; reflexivity. Qed.

(** an reject should be an error *)
Example doc_is_error_2 :
  is_error (reject_at (UserMsg 200) (Some start)) = Some true.
Proof. vm_compute; reflexivity. Qed.

(** it should support currying *)
Example doc_is_error_3 :
  is_error (reject_at (UserMsg 200) (Some start)) = Some true.
Proof. vm_compute; reflexivity. Qed.

(** it should support lazy evaluation *)
Example doc_is_error_4 :
  is_error (reject_at (UserMsg 200) (Some start)) = Some true.
Proof. vm_compute; reflexivity. Qed.


(** /repo/doc/is_lcase_letter.qbk *)

(** a should be a lower case letter *)
Example doc_is_lcase_letter_1 :
  is_lcase_letter (VChar 97) = Some true.
Proof. vm_compute; reflexivity. Qed.

(** A should not be a lower case letter *)
Example doc_is_lcase_letter_2 :
  is_lcase_letter (VChar 65) = Some false.
Proof. vm_compute; reflexivity. Qed.

(** it should support currying *)
Example doc_is_lcase_letter_3 :
  is_lcase_letter (VChar 97) = Some true.
Proof. vm_compute; reflexivity. Qed.

(** it should support lazy evaluation *)
Example doc_is_lcase_letter_4 :
  is_lcase_letter (VChar 97) = Some true.
Proof. vm_compute; reflexivity. Qed.


(** /repo/doc/is_letter.qbk *)

(** A should be a letter *)
Example doc_is_letter_1 :
  is_letter (VChar 65) = Some true.
Proof. vm_compute; reflexivity. Qed.

(** a number should not be a letter *)
Example doc_is_letter_2 :
  is_letter (VChar 48) = Some false.
Proof. vm_compute; reflexivity. Qed.

(** it should support currying *)
Example doc_is_letter_3 :
  is_letter (VChar 65) = Some true.
Proof. vm_compute; reflexivity. Qed.

(** it should support lazy evaluation *)
Example doc_is_letter_4 :
  is_letter (VChar 65) = Some true.
Proof. vm_compute; reflexivity. Qed.


(** /repo/doc/is_ucase_letter.qbk *)

(** A should be an upper case letter *)
Example doc_is_ucase_letter_1 :
  is_ucase_letter (VChar 65) = Some true.
Proof. vm_compute; reflexivity. Qed.

(** a should not be an upper case letter *)
Example doc_is_ucase_letter_2 :
  is_ucase_letter (VChar 97) = Some false.
Proof. vm_compute; reflexivity. Qed.

(** it should support currying *)
Example doc_is_ucase_letter_3 :
  is_ucase_letter (VChar 65) = Some true.
Proof. vm_compute; reflexivity. Qed.

(** it should support lazy evaluation *)
Example doc_is_ucase_letter_4 :
  is_ucase_letter (VChar 65) = Some true.
Proof. vm_compute; reflexivity. Qed.


(** /repo/doc/is_whitespace.qbk *)

(** a space should be a whitespace character *)
Example doc_is_whitespace_1 :
  is_whitespace (VChar 32) = Some true.
Proof. vm_compute; reflexivity. Qed.

(** a number should not be a whitespace character *)
Example doc_is_whitespace_2 :
  is_whitespace (VChar 48) = Some false.
Proof. vm_compute; reflexivity. Qed.

(** it should support currying *)
Example doc_is_whitespace_3 :
  is_whitespace (VChar 9) = Some true.
Proof. vm_compute; reflexivity. Qed.

(** it should support lazy evaluation *)
Example doc_is_whitespace_4 :
  is_whitespace (VChar 32) = Some true.
Proof. vm_compute; reflexivity. Qed.


(** /repo/doc/is_whitespace_c.qbk *)

(** a space should be a whitespace character *)
Example doc_is_whitespace_c_1 :
  is_whitespace (VChar 32) = Some true.
Proof. vm_compute; reflexivity. Qed.

(** a number should not be a whitespace character *)
Example doc_is_whitespace_c_2 :
  is_whitespace (VChar 48) = Some false.
Proof. vm_compute; reflexivity. Qed.


(** /repo/doc/iterate.qbk *)

(** the result should be the sequence of the individual applications of digit *)
Example doc_iterate_1 : forall d,
  defined_same (Some (VSeq [(VChar 49); (VChar 50); (VChar 51)])) (get_result (run d
  (PIterate PDigit 3) (Some [49; 50; 51]) (Some start))).
Proof. intros []; vm_compute; reflexivity. Qed.

(** only three iterations should be made *)
Example doc_iterate_2 : forall d,
  defined_same (Some (VSeq [(VChar 49); (VChar 50); (VChar 51)])) (get_result (run d
  (PIterate PDigit 3) (Some [49; 50; 51; 52]) (Some start))).
Proof. intros []; vm_compute; reflexivity. Qed.

(** it should fail when digit can not be applied three times *)
Example doc_iterate_3 : forall d,
  is_error (run d (PIterate PDigit 3) (Some [49; 50]) (Some start)) = Some true.
Proof. intros []; vm_compute; reflexivity. Qed.


(** /repo/doc/iterate_c.qbk *)

(** the result should be the sequence of the individual applications of digit *)
Example doc_iterate_c_1 : forall d,
  defined_same (Some (VSeq [(VChar 49); (VChar 50); (VChar 51)])) (get_result (run d
  (PIterate PDigit 3) (Some [49; 50; 51]) (Some start))).
Proof. intros []; vm_compute; reflexivity. Qed.

(** only three iterations should be made *)
Example doc_iterate_c_2 : forall d,
  defined_same (Some (VSeq [(VChar 49); (VChar 50); (VChar 51)])) (get_result (run d
  (PIterate PDigit 3) (Some [49; 50; 51; 52]) (Some start))).
Proof. intros []; vm_compute; reflexivity. Qed.

(** it should fail when digit can not be applied three times *)
Example doc_iterate_c_3 : forall d,
  is_error (run d (PIterate PDigit 3) (Some [49; 50]) (Some start)) = Some true.
Proof. intros []; vm_compute; reflexivity. Qed.


(** /repo/doc/keyword.qbk *)

(** the result of parsing the keyword is keyword's second argument *)
Example doc_keyword_1 : forall d,
  bind (get_result (run d (PKeyword [102; 111; 114] (VInt 13)) (Some [102; 111; 114])
  (Some start))) as_int = Some 13.
Proof. intros []; vm_compute; reflexivity. Qed.

(** a word other than the keyword is an error *)
Example doc_keyword_2 : forall d,
  is_error (run d (PKeyword [102; 111; 114] (VInt 13)) (Some [105; 102]) (Some start)) =
  Some true.
Proof. intros []; vm_compute; reflexivity. Qed.


(** /repo/doc/last_of.qbk *)

(** int without comma is rejected *)
Example doc_last_of_1 : forall d,
  is_error (run d (PLastOf [(PLitC 44); PInt]) (Some [49; 51]) (Some start)) = Some true.
Proof. intros []; vm_compute; reflexivity. Qed.

(** the result is the result of the last parser *)
Example doc_last_of_2 : forall d,
  match bind (get_result (run d (PLastOf [(PLitC 44); PInt]) (Some [44; 49; 51]) (Some
  start))) as_int with Some n => Some (negb (n =? 0)) | None => None end = Some true.
Proof. intros []; vm_compute; reflexivity. Qed.


(** /repo/doc/letter.qbk *)

(** letter should accept a letter *)
Example doc_letter_1 : forall d,
  is_error (run d PLetter (Some [97]) (Some start)) = Some false.
Proof. intros []; vm_compute; reflexivity. Qed.

(** letter should reject a digit *)
Example doc_letter_2 : forall d,
  is_error (run d PLetter (Some [48]) (Some start)) = Some true.
Proof. intros []; vm_compute; reflexivity. Qed.

(** the result of parsing should be the character value *)
Example doc_letter_3 : forall d,
  bind (get_result (run d PLetter (Some [122]) (Some start))) as_int = Some 122.
Proof. intros []; vm_compute; reflexivity. Qed.


(** /repo/doc/lit.qbk *)

(** a different character should be an error *)
Example doc_lit_1 : forall d,
  is_error (run d (PLitC 120) (Some [97]) (Some start)) = Some true.
Proof. intros []; vm_compute; reflexivity. Qed.

(** empty input should be an error *)
Example doc_lit_2 : forall d,
  is_error (run d (PLitC 120) (Some []) (Some start)) = Some true.
Proof. intros []; vm_compute; reflexivity. Qed.

(** result of parsing should be the accepted character *)
Example doc_lit_3 : forall d,
  bind (get_result (run d (PLitC 120) (Some [120]) (Some start))) as_int = Some 120.
Proof. intros []; vm_compute; reflexivity. Qed.


(** /repo/doc/lit_c.qbk *)

(** a different character should be an error *)
Example doc_lit_c_1 : forall d,
  is_error (run d (PLitC 120) (Some [97]) (Some start)) = Some true.
Proof. intros []; vm_compute; reflexivity. Qed.

(** empty input should be an error *)
Example doc_lit_c_2 : forall d,
  is_error (run d (PLitC 120) (Some []) (Some start)) = Some true.
Proof. intros []; vm_compute; reflexivity. Qed.

(** result of parsing should be the accepted character *)
Example doc_lit_c_3 : forall d,
  bind (get_result (run d (PLitC 120) (Some [120]) (Some start))) as_int = Some 120.
Proof. intros []; vm_compute; reflexivity. Qed.


(** /repo/doc/look_ahead.qbk *)

(** it should return the same result as the wrapped parser *)
Example doc_look_ahead_1 : forall d,
  bind (get_result (run d (PLookAhead PInt) (Some [49; 51]) (Some start))) as_int = Some
  13.
Proof. intros []; vm_compute; reflexivity. Qed.

(** it should not consume any input *)
Example doc_look_ahead_2 : forall d,
  defined_same (Some [49; 51]) (get_remaining (run d (PLookAhead PInt) (Some [49; 51])
  (Some start))).
Proof. intros []; vm_compute; reflexivity. Qed.

(** it should fail when the wrapped parser fails *)
Example doc_look_ahead_3 : forall d,
  is_error (run d (PLookAhead PInt) (Some [115; 105; 120]) (Some start)) = Some true.
Proof. intros []; vm_compute; reflexivity. Qed.


(** /repo/doc/middle_of.qbk *)

(** it should return the result of the middle parser *)
Example doc_middle_of_1 : forall d,
  bind (get_result (run d (PMiddleOf (PToken (PLitC 40)) (PToken PInt) (PToken (PLitC
  41))) (Some [40; 49; 51; 41]) (Some start))) as_int = Some 13.
Proof. intros []; vm_compute; reflexivity. Qed.

(** it should reject the input when there are no parens *)
Example doc_middle_of_2 : forall d,
  is_error (run d (PMiddleOf (PToken (PLitC 40)) (PToken PInt) (PToken (PLitC 41)))
  (Some [49; 51]) (Some start)) = Some true.
Proof. intros []; vm_compute; reflexivity. Qed.

(** it should reject the input when there is no closing paren *)
Example doc_middle_of_3 : forall d,
  is_error (run d (PMiddleOf (PToken (PLitC 40)) (PToken PInt) (PToken (PLitC 41)))
  (Some [40; 49; 51]) (Some start)) = Some true.
Proof. intros []; vm_compute; reflexivity. Qed.


(** /repo/doc/next_char.qbk *)

(** it should increase the column component of the source position *)
Example doc_next_char_1 :
  bind (option_map (fun p => VInt (col p)) (option_map (fun p => next_char p 120) (Some
  (mkpos 11 13 97)))) as_int = Some 14.
Proof. vm_compute; reflexivity. Qed.

(** it should not increase the line component of the source position *)
Example doc_next_char_2 :
  bind (option_map (fun p => VInt (line p)) (option_map (fun p => next_char p 120) (Some
  (mkpos 11 13 97)))) as_int = Some 11.
Proof. vm_compute; reflexivity. Qed.

(** it should update the prev char component of the source position *)
Example doc_next_char_3 :
  bind (option_map (fun p => VInt (prev p)) (option_map (fun p => next_char p 120) (Some
  (mkpos 11 13 97)))) as_int = Some 120.
Proof. vm_compute; reflexivity. Qed.

(** it should support lazy evaluation *)
Example doc_next_char_4 :
  bind (option_map (fun p => VInt (col p)) (option_map (fun p => next_char p 120) (Some
  (mkpos 11 13 97)))) as_int = Some 14.
Proof. vm_compute; reflexivity. Qed.


(** /repo/doc/next_line.qbk *)

(** it should set the column to 1 *)
Example doc_next_line_1 :
  bind (option_map (fun p => VInt (col p)) (option_map (fun p => next_line p 10) (Some
  (mkpos 11 13 97)))) as_int = Some 1.
Proof. vm_compute; reflexivity. Qed.

(** it should increase the line component of the source position *)
Example doc_next_line_2 :
  bind (option_map (fun p => VInt (line p)) (option_map (fun p => next_line p 10) (Some
  (mkpos 11 13 97)))) as_int = Some 12.
Proof. vm_compute; reflexivity. Qed.

(** it should update the prev char component of the source position *)
Example doc_next_line_3 :
  bind (option_map (fun p => VInt (prev p)) (option_map (fun p => next_line p 10) (Some
  (mkpos 11 13 97)))) as_int = Some 10.
Proof. vm_compute; reflexivity. Qed.

(** it should support lazy evaluation *)
Example doc_next_line_4 :
  bind (option_map (fun p => VInt (col p)) (option_map (fun p => next_line p 10) (Some
  (mkpos 11 13 97)))) as_int = Some 1.
Proof. vm_compute; reflexivity. Qed.


(** /repo/doc/nth_of.qbk *)

(** it should return the result of the second parser *)
Example doc_nth_of_1 : forall d,
  bind (get_result (run d (PNthOf 1 [(PToken (PLitC 40)); (PToken PInt); (PToken (PLitC
  41))]) (Some [40; 49; 51; 41]) (Some start))) as_int = Some 13.
Proof. intros []; vm_compute; reflexivity. Qed.

(** it should reject the input when there are no parens *)
Example doc_nth_of_2 : forall d,
  is_error (run d (PNthOf 1 [(PToken (PLitC 40)); (PToken PInt); (PToken (PLitC 41))])
  (Some [49; 51]) (Some start)) = Some true.
Proof. intros []; vm_compute; reflexivity. Qed.

(** it should reject the input when there is no closing paren *)
Example doc_nth_of_3 : forall d,
  is_error (run d (PNthOf 1 [(PToken (PLitC 40)); (PToken PInt); (PToken (PLitC 41))])
  (Some [40; 49; 51]) (Some start)) = Some true.
Proof. intros []; vm_compute; reflexivity. Qed.


(** /repo/doc/nth_of_c.qbk *)

(** it should return the result of the second parser *)
Example doc_nth_of_c_1 : forall d,
  bind (get_result (run d (PNthOf 1 [(PToken (PLitC 40)); (PToken PInt); (PToken (PLitC
  41))]) (Some [40; 49; 51; 41]) (Some start))) as_int = Some 13.
Proof. intros []; vm_compute; reflexivity. Qed.

(** it should reject the input when there are no parens *)
Example doc_nth_of_c_2 : forall d,
  is_error (run d (PNthOf 1 [(PToken (PLitC 40)); (PToken PInt); (PToken (PLitC 41))])
  (Some [49; 51]) (Some start)) = Some true.
Proof. intros []; vm_compute; reflexivity. Qed.

(** it should reject the input when there is no closing paren *)
Example doc_nth_of_c_3 : forall d,
  is_error (run d (PNthOf 1 [(PToken (PLitC 40)); (PToken PInt); (PToken (PLitC 41))])
  (Some [40; 49; 51]) (Some start)) = Some true.
Proof. intros []; vm_compute; reflexivity. Qed.


(** /repo/doc/one_char.qbk *)

(** the result of parsing should be the first character of the input *)
Example doc_one_char_1 : forall d,
  bind (get_result (run d POneChar (Some [102; 111; 111]) (Some start))) as_int = Some
  102.
Proof. intros []; vm_compute; reflexivity. Qed.

(** one_char should consume the first character of the input *)
Example doc_one_char_2 : forall d,
  defined_same (Some [111; 111]) (get_remaining (run d POneChar (Some [102; 111; 111])
  (Some start))).
Proof. intros []; vm_compute; reflexivity. Qed.

(** it should return an error for empty input *)
Example doc_one_char_3 : forall d,
  is_error (run d POneChar (Some []) (Some start)) = Some true.
Proof. intros []; vm_compute; reflexivity. Qed.


(** /repo/doc/one_char_except.qbk *)

(** it should return the content of the string literal *)
Example doc_one_char_except_1 : forall d,
  defined_same (Some (VSeq [(VChar 104); (VChar 101); (VChar 108); (VChar 108); (VChar
  111)])) (get_result (run d (PMiddleOf (PLitC 34) (PRepeated (POneCharExceptC [34]))
  (PLitC 34)) (Some [34; 104; 101; 108; 108; 111; 34]) (Some start))).
Proof. intros []; vm_compute; reflexivity. Qed.


(** /repo/doc/one_char_except_c.qbk *)

(** it should return the content of the string literal *)
Example doc_one_char_except_c_1 : forall d,
  defined_same (Some (VSeq [(VChar 104); (VChar 101); (VChar 108); (VChar 108); (VChar
  111)])) (get_result (run d (PMiddleOf (PLitC 34) (PRepeated (POneCharExceptC [34]))
  (PLitC 34)) (Some [34; 104; 101; 108; 108; 111; 34]) (Some start))).
Proof. intros []; vm_compute; reflexivity. Qed.


(** /repo/doc/one_of.qbk *)

(** the result of parsing should be the first character of the input *)
Example doc_one_of_1 : forall d,
  bind (get_result (run d (POneOf [(PLitC 32); (PLitC 10); (PLitC 13); (PLitC 9); (PLitC
  11)]) (Some [32]) (Some start))) as_int = Some 32.
Proof. intros []; vm_compute; reflexivity. Qed.

(** it should return an error when the input does not begin with a whitespace *)
Example doc_one_of_2 : forall d,
  is_error (run d (POneOf [(PLitC 32); (PLitC 10); (PLitC 13); (PLitC 9); (PLitC 11)])
  (Some [120]) (Some start)) = Some true.
Proof. intros []; vm_compute; reflexivity. Qed.


(** /repo/doc/one_of_c.qbk *)

(** the result of parsing should be the first character of the input *)
Example doc_one_of_c_1 : forall d,
  bind (get_result (run d (POneOfC [32; 10; 13; 9; 11]) (Some [32]) (Some start)))
  as_int = Some 32.
Proof. intros []; vm_compute; reflexivity. Qed.

(** it should return an error when the input does not begin with a whitespace *)
Example doc_one_of_c_2 : forall d,
  is_error (run d (POneOfC [32; 10; 13; 9; 11]) (Some [120]) (Some start)) = Some true.
Proof. intros []; vm_compute; reflexivity. Qed.


(** /repo/doc/optional.qbk *)

(** No imaginary *)
Example doc_optional_1 : forall d,
  defined_same (Some (VSeq [VInt 1; VInt 0])) (get_result (run d (PSequence [PInt;
  (POptional (PMiddleOf (PLitC 43) PInt (PLitC 105)) (VInt 0))]) (Some [49]) (Some
  start))).
Proof. intros []; vm_compute; reflexivity. Qed.

(** 0 as imaginary *)
Example doc_optional_2 : forall d,
  defined_same (Some (VSeq [VInt 1; VInt 0])) (get_result (run d (PSequence [PInt;
  (POptional (PMiddleOf (PLitC 43) PInt (PLitC 105)) (VInt 0))]) (Some [49; 43; 48;
  105]) (Some start))).
Proof. intros []; vm_compute; reflexivity. Qed.

(** Non-null imaginary *)
Example doc_optional_3 : forall d,
  defined_same (Some (VSeq [VInt 0; VInt 1])) (get_result (run d (PSequence [PInt;
  (POptional (PMiddleOf (PLitC 43) PInt (PLitC 105)) (VInt 0))]) (Some [48; 43; 49;
  105]) (Some start))).
Proof. intros []; vm_compute; reflexivity. Qed.


(** /repo/doc/range.qbk *)

(** one_digit should accept a digit *)
Example doc_range_1 : forall d,
  is_error (run d (PRangeC 48 57) (Some [48]) (Some start)) = Some false.
Proof. intros []; vm_compute; reflexivity. Qed.

(** one_digit should reject a value outside of ['0'..'9'] *)
Example doc_range_2 : forall d,
  is_error (run d (PRangeC 48 57) (Some [120]) (Some start)) = Some true.
Proof. intros []; vm_compute; reflexivity. Qed.

(** the result of parsing should be the character value *)
Example doc_range_3 : forall d,
  bind (get_result (run d (PRangeC 48 57) (Some [48]) (Some start))) as_int = Some 48.
Proof. intros []; vm_compute; reflexivity. Qed.


(** /repo/doc/range_c.qbk *)

(** one_digit should accept a digit *)
Example doc_range_c_1 : forall d,
  is_error (run d (PRangeC 48 57) (Some [48]) (Some start)) = Some false.
Proof. intros []; vm_compute; reflexivity. Qed.

(** one_digit should reject a value outside of ['0'..'9'] *)
Example doc_range_c_2 : forall d,
  is_error (run d (PRangeC 48 57) (Some [120]) (Some start)) = Some true.
Proof. intros []; vm_compute; reflexivity. Qed.

(** the result of parsing should be the character value *)
Example doc_range_c_3 : forall d,
  bind (get_result (run d (PRangeC 48 57) (Some [48]) (Some start))) as_int = Some 48.
Proof. intros []; vm_compute; reflexivity. Qed.


(** /repo/doc/repeated.qbk *)

(** the result of parsing should be the list of digit values *)
Example doc_repeated_1 : forall d,
  defined_same (get_result (run d (PRepeated PDigitVal) (Some [49; 50; 51; 52]) (Some
  start))) (Some (VSeq [(VInt 1); (VInt 2); (VInt 3); (VInt 4)])).
Proof. intros []; vm_compute; reflexivity. Qed.

(** repeated should accept the input when it can't parse anything with digit_val *)
Example doc_repeated_2 : forall d,
  defined_same (get_result (run d (PRepeated PDigitVal) (Some [120]) (Some start)))
  (Some (VSeq [])).
Proof. intros []; vm_compute; reflexivity. Qed.


(** /repo/doc/repeated1.qbk *)

(** the result of parsing should be the list of digit values *)
Example doc_repeated1_1 : forall d,
  defined_same (get_result (run d (PRepeated1 PDigitVal) (Some [49; 50; 51; 52]) (Some
  start))) (Some (VSeq [(VInt 1); (VInt 2); (VInt 3); (VInt 4)])).
Proof. intros []; vm_compute; reflexivity. Qed.

(** repeated1 should reject the input when it can't parse anything with digit_val *)
Example doc_repeated1_2 : forall d,
  is_error (run d (PRepeated1 PDigitVal) (Some [120]) (Some start)) = Some true.
Proof. intros []; vm_compute; reflexivity. Qed.


(** /repo/doc/repeated_one_of.qbk *)

(** the result of parsing should be the list of results *)
Example doc_repeated_one_of_1 : forall d,
  defined_same (get_result (run d (PRepeatedOneOf [(PLitC 97); (PLitC 98)]) (Some [97;
  98; 97; 97; 98]) (Some start))) (Some (VSeq [(VChar 97); (VChar 98); (VChar 97);
  (VChar 97); (VChar 98)])).
Proof. intros []; vm_compute; reflexivity. Qed.

(**  can't parse anything with digit_val *)
Example doc_repeated_one_of_2 : forall d,
  defined_same (get_result (run d (PRepeatedOneOf [(PLitC 97); (PLitC 98)]) (Some [120])
  (Some start))) (Some (VSeq [])).
Proof. intros []; vm_compute; reflexivity. Qed.


(** /repo/doc/repeated_one_of1.qbk *)

(** the result of parsing should be the list of results *)
Example doc_repeated_one_of1_1 : forall d,
  defined_same (get_result (run d (PRepeatedOneOf1 [(PLitC 97); (PLitC 98)]) (Some [97;
  98; 97; 97; 98]) (Some start))) (Some (VSeq [(VChar 97); (VChar 98); (VChar 97);
  (VChar 97); (VChar 98)])).
Proof. intros []; vm_compute; reflexivity. Qed.

(**  can't parse anything with digit_val *)
Example doc_repeated_one_of1_2 : forall d,
  is_error (run d (PRepeatedOneOf1 [(PLitC 97); (PLitC 98)]) (Some [120]) (Some start))
  = Some true.
Proof. intros []; vm_compute; reflexivity. Qed.


(** /repo/doc/repeated_reject_incomplete.qbk *)

(** ints should parse the numbers *)
Example doc_repeated_reject_incomplete_1 : forall d,
  defined_same (Some (VSeq [VInt 13; VInt 3; VInt 21])) (get_result (run d
  (PRepeatedRejectIncomplete (PLastOf [(PToken (PLitC 43)); (PToken PInt)])) (Some [43;
  32; 49; 51; 32; 43; 32; 51; 32; 43; 32; 50; 49]) (Some start))).
Proof. intros []; vm_compute; reflexivity. Qed.

(** when the last number is missing, it should be an error *)
Example doc_repeated_reject_incomplete_2 : forall d,
  is_error (run d (PRepeatedRejectIncomplete (PLastOf [(PToken (PLitC 43)); (PToken
  PInt)])) (Some [43; 32; 49; 51; 32; 43; 32; 51; 32; 43]) (Some start)) = Some true.
Proof. intros []; vm_compute; reflexivity. Qed.


(** /repo/doc/repeated_reject_incomplete1.qbk *)

(** ints should parse the numbers *)
Example doc_repeated_reject_incomplete1_1 : forall d,
  defined_same (Some (VSeq [VInt 13; VInt 3; VInt 21])) (get_result (run d
  (PRepeatedRejectIncomplete1 (PLastOf [(PToken (PLitC 43)); (PToken PInt)])) (Some [43;
  32; 49; 51; 32; 43; 32; 51; 32; 43; 32; 50; 49]) (Some start))).
Proof. intros []; vm_compute; reflexivity. Qed.

(** when the last number is missing, it should be an error *)
Example doc_repeated_reject_incomplete1_2 : forall d,
  is_error (run d (PRepeatedRejectIncomplete1 (PLastOf [(PToken (PLitC 43)); (PToken
  PInt)])) (Some [43; 32; 49; 51; 32; 43; 32; 51; 32; 43]) (Some start)) = Some true.
Proof. intros []; vm_compute; reflexivity. Qed.

(** when no numbers are provided, it should be an error *)
Example doc_repeated_reject_incomplete1_3 : forall d,
  is_error (run d (PRepeatedRejectIncomplete1 (PLastOf [(PToken (PLitC 43)); (PToken
  PInt)])) (Some []) (Some start)) = Some true.
Proof. intros []; vm_compute; reflexivity. Qed.


(** /repo/doc/return_.qbk *)

(** when a number is provided, it is the result of parsing *)
Example doc_return__1 : forall d,
  bind (get_result (run d (POneOf [PInt; (PReturn (VInt 13))]) (Some [49; 49]) (Some
  start))) as_int = Some 11.
Proof. intros []; vm_compute; reflexivity. Qed.

(** when no number is provided, the default value is the result of parsing *)
Example doc_return__2 : forall d,
  bind (get_result (run d (POneOf [PInt; (PReturn (VInt 13))]) (Some []) (Some start)))
  as_int = Some 13.
Proof. intros []; vm_compute; reflexivity. Qed.


(** /repo/doc/sequence.qbk *)

(** the first element of the sequence should be the first number *)
Example doc_sequence_1 : forall d,
  bind (match get_result (run d (PSequence [(PToken PInt); (PToken (PLitC 43)); (PToken
  PInt)]) (Some [49; 32; 43; 32; 50]) (Some start)) with Some l => at_c l 0 | None =>
  None end) as_int = Some 1.
Proof. intros []; vm_compute; reflexivity. Qed.

(** the second element of the sequence should be the plus *)
Example doc_sequence_2 : forall d,
  bind (match get_result (run d (PSequence [(PToken PInt); (PToken (PLitC 43)); (PToken
  PInt)]) (Some [49; 32; 43; 32; 50]) (Some start)) with Some l => at_c l 1 | None =>
  None end) as_int = Some 43.
Proof. intros []; vm_compute; reflexivity. Qed.

(** the third element of the sequence should be the second number *)
Example doc_sequence_3 : forall d,
  bind (match get_result (run d (PSequence [(PToken PInt); (PToken (PLitC 43)); (PToken
  PInt)]) (Some [49; 32; 43; 32; 50]) (Some start)) with Some l => at_c l 2 | None =>
  None end) as_int = Some 2.
Proof. intros []; vm_compute; reflexivity. Qed.

(** when not all of the parsers accept the input, sequence should fail *)
Example doc_sequence_4 : forall d,
  is_error (run d (PSequence [(PToken PInt); (PToken (PLitC 43)); (PToken PInt)]) (Some
  [49; 32; 43]) (Some start)) = Some true.
Proof. intros []; vm_compute; reflexivity. Qed.


(** /repo/doc/sequence_apply.qbk *)

(** the result of parsing should be the list of digit values *)
Example doc_sequence_apply_1 : forall d,
  defined_same (Some (VTmpl 2 [VInt 1; VInt 2])) (get_result (run d (PSequenceApply
  (VTmpl 2) [PInt; (PMiddleOf (PLitC 43) PInt (PLitC 105))]) (Some [49; 43; 50; 105])
  (Some start))).
Proof. intros []; vm_compute; reflexivity. Qed.


(** /repo/doc/space.qbk *)

(** it should consume the first space of the input *)
Example doc_space_1 : forall d,
  defined_same (Some [32; 102; 111; 111]) (get_remaining (run d PSpace (Some [32; 32;
  102; 111; 111]) (Some start))).
Proof. intros []; vm_compute; reflexivity. Qed.

(** it should return an error when the input does not begin with a whitespace *)
Example doc_space_2 : forall d,
  is_error (run d PSpace (Some [120]) (Some start)) = Some true.
Proof. intros []; vm_compute; reflexivity. Qed.


(** /repo/doc/spaces.qbk *)

(** it should consume all whitespaces at the beginning of the input *)
Example doc_spaces_1 : forall d,
  defined_same (Some [102; 111; 111]) (get_remaining (run d PSpaces (Some [32; 32; 102;
  111; 111]) (Some start))).
Proof. intros []; vm_compute; reflexivity. Qed.

(** it should return an error when the input does not begin with a whitespace *)
Example doc_spaces_2 : forall d,
  is_error (run d PSpaces (Some [120]) (Some start)) = Some true.
Proof. intros []; vm_compute; reflexivity. Qed.


(** /repo/doc/string.qbk *)

(** The type generated by the macro should be identical to the hand-crafted one. *)
Example doc_string_1 :
  defined_same (Some (VStr [72; 101; 108; 108; 111])) (Some (VStr [72; 101; 108; 108;
  111])).
Proof. vm_compute; reflexivity. Qed.


(** /repo/doc/token.qbk *)

(** the result of int_token is the number *)
Example doc_token_1 : forall d,
  match bind (get_result (run d (PToken PInt) (Some [49; 51; 32]) (Some start))) as_int
  with Some n => Some (negb (n =? 0)) | None => None end = Some true.
Proof. intros []; vm_compute; reflexivity. Qed.

(** token consumes whitespaces after the number *)
Example doc_token_2 : forall d,
  defined_same (Some []) (get_remaining (run d (PToken PInt) (Some [49; 51; 32]) (Some
  start))).
Proof. intros []; vm_compute; reflexivity. Qed.

(** whitespaces after the number are optional *)
Example doc_token_3 : forall d,
  match bind (get_result (run d (PToken PInt) (Some [49; 51]) (Some start))) as_int with
  Some n => Some (negb (n =? 0)) | None => None end = Some true.
Proof. intros []; vm_compute; reflexivity. Qed.

(** when there is no number, token fails *)
Example doc_token_4 : forall d,
  is_error (run d (PToken PInt) (Some [102; 111; 111]) (Some start)) = Some true.
Proof. intros []; vm_compute; reflexivity. Qed.


(** /repo/doc/transform.qbk *)

(** digit_val should accept a digit *)
Example doc_transform_1 : forall d,
  is_error (run d (PTransform PDigit digit_to_int) (Some [48]) (Some start)) = Some
  false.
Proof. intros []; vm_compute; reflexivity. Qed.

(** digit_val should reject a character *)
Example doc_transform_2 : forall d,
  is_error (run d (PTransform PDigit digit_to_int) (Some [120]) (Some start)) = Some
  true.
Proof. intros []; vm_compute; reflexivity. Qed.

(** the result of parsing should be the int value *)
Example doc_transform_3 : forall d,
  bind (get_result (run d (PTransform PDigit digit_to_int) (Some [48]) (Some start)))
  as_int = Some 0.
Proof. intros []; vm_compute; reflexivity. Qed.


(** /repo/doc/transform_error.qbk *)

(** name_parser should accept 'name <a name>' *)
Example doc_transform_error_1 : forall d,
  is_error (run d (PLastOf [(PToken (PKeyword [110; 97; 109; 101] VVoid_));
  (PTransformError (PToken (PRepeated1 PLetter)) (fun _ p => Reject (UserMsg 200) p))])
  (Some [110; 97; 109; 101; 32; 66; 101; 108; 97]) (Some start)) = Some false.
Proof. intros []; vm_compute; reflexivity. Qed.

(** name_parser should reject input when name is a question mark *)
Example doc_transform_error_2 : forall d,
  is_error (run d (PLastOf [(PToken (PKeyword [110; 97; 109; 101] VVoid_));
  (PTransformError (PToken (PRepeated1 PLetter)) (fun _ p => Reject (UserMsg 200) p))])
  (Some [110; 97; 109; 101; 32; 63]) (Some start)) = Some true.
Proof. intros []; vm_compute; reflexivity. Qed.

(** the error message should be the one specified by change_error_message *)
Example doc_transform_error_3 : forall d,
  defined_same (get_message (run d (PLastOf [(PToken (PKeyword [110; 97; 109; 101]
  VVoid_)); (PTransformError (PToken (PRepeated1 PLetter)) (fun _ p => Reject (UserMsg
  200) p))]) (Some [110; 97; 109; 101; 32; 63]) (Some start))) (Some (UserMsg 200)).
Proof. intros []; vm_compute; reflexivity. Qed.


(** /repo/doc/transform_error_message.qbk *)

(** name_parser should accept 'name <a name>' *)
Example doc_transform_error_message_1 : forall d,
  is_error (run d (PLastOf [(PToken (PKeyword [110; 97; 109; 101] VVoid_));
  (PTransformErrorMessage (PToken (PRepeated1 PLetter)) (fun _ => Some (UserMsg 200)))])
  (Some [110; 97; 109; 101; 32; 66; 101; 108; 97]) (Some start)) = Some false.
Proof. intros []; vm_compute; reflexivity. Qed.

(** name_parser should reject input when name is a question mark *)
Example doc_transform_error_message_2 : forall d,
  is_error (run d (PLastOf [(PToken (PKeyword [110; 97; 109; 101] VVoid_));
  (PTransformErrorMessage (PToken (PRepeated1 PLetter)) (fun _ => Some (UserMsg 200)))])
  (Some [110; 97; 109; 101; 32; 63]) (Some start)) = Some true.
Proof. intros []; vm_compute; reflexivity. Qed.

(** the error message should be the one specified by change_error_message *)
Example doc_transform_error_message_3 : forall d,
  defined_same (get_message (run d (PLastOf [(PToken (PKeyword [110; 97; 109; 101]
  VVoid_)); (PTransformErrorMessage (PToken (PRepeated1 PLetter)) (fun _ => Some
  (UserMsg 200)))]) (Some [110; 97; 109; 101; 32; 63]) (Some start))) (Some (UserMsg
  200)).
Proof. intros []; vm_compute; reflexivity. Qed.
