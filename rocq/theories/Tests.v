(** The assertions of the library's own tests (/repo/test/*.cpp), about the
    model.  This file tests the model against the expectations the authors of
    the library wrote down; it proves nothing for all inputs.

    The translation is mechanical: one example for every assertion about a
    result, in the order of the test file, for every language standard ([d]), or
    for both implementations of [string] (suffix _11 and _98).  The assertions
    left out are about things the model does not have: that evaluation is lazy,
    tags, [is_sequence], [has_type], and macros. *)

From Coq Require Import ZArith List Bool.
From Verif Require Import Base Util Combinators Variadic Parsers Deep Strings Grammar.
Import ListNotations.
Open Scope Z_scope.

Definition bind {A B : Type} (a : option A) (f : A -> option B) : option B :=
  match a with Some x => f x | None => None end.

(** A relation between two results that both have to exist. *)
Definition holds2 {A B : Type} (r : A -> B -> bool) (a : option A) (b : option B)
  : option bool :=
  match a, b with Some x, Some y => Some (r x y) | _, _ => None end.

(** [mpl::equal_to] on integral constants. *)
Definition same_number (a b : option value) : option bool :=
  holds2 Z.eqb (bind a as_int) (bind b as_int).

(** [mpl::equal] and [is_same]: both sides exist and are the same. *)
Definition defined_same {A : Type} (a b : option A) : Prop :=
  match a, b with Some x, Some y => x = y | _, _ => False end.

(** [apply_wrap2<p, s, ps>] *)
Definition run (d : std) (p : pexpr) (s : option str) (ps : option pos) : outcome :=
  match s, ps with
  | Some s, Some ps => eval (default_config d) (fun _ => PFail (UserMsg 99)) 20 p s ps
  | _, _ => Illformed
  end.

(** [apply_wrap2<grammar<>::...::type, s, ps>] *)
Definition run_grammar (d : std) (ds : list decl) (s : option str) (ps : option pos)
  : outcome :=
  match add_decls (default_config d) 40 (empty_grammar default_start) ds, s, ps with
  | Ok g, Some s, Some ps =>
      grammar_parser (default_config d) (fun _ => PFail (UserMsg 99)) 20 g s ps
  | _, _, _ => Illformed
  end.

Definition reject_at (m : msg) (p : option pos) : outcome :=
  match p with Some p => Reject m p | None => Illformed end.

Definition accept_at (v : value) (s : option str) (p : option pos) : outcome :=
  match s, p with Some s, Some p => Accept v s p | _, _ => Illformed end.


(** /repo/test/accept.cpp *)

Example test_accept_1_test_accept_is_metaprogramming_value :
  accept_at (VTmpl 101 []) (Some [72; 101; 108; 108; 111]) (Some start) = accept_at
  (VTmpl 101 []) (Some [72; 101; 108; 108; 111]) (Some start).
Proof. vm_compute; reflexivity. Qed.

Example test_accept_3_test_get_result_of_accept :
  defined_same (Some (VTmpl 101 [])) (get_result (accept_at (VTmpl 101 []) (Some [72;
  101; 108; 108; 111]) (Some start))).
Proof. vm_compute; reflexivity. Qed.

Example test_accept_4_test_get_remaining_of_accept :
  defined_same (Some [72; 101; 108; 108; 111]) (get_remaining (accept_at (VTmpl 101 [])
  (Some [72; 101; 108; 108; 111]) (Some start))).
Proof. vm_compute; reflexivity. Qed.

Example test_accept_5_test_get_position_of_accept :
  defined_same (Some start) (get_position (accept_at (VTmpl 101 []) (Some [72; 101; 108;
  108; 111]) (Some start))).
Proof. vm_compute; reflexivity. Qed.


(** /repo/test/accept_when.cpp *)

Example test_accept_when_1_test_with_text : forall d,
  is_error (run d (PAcceptWhen POneChar is_digit (UserMsg 0)) (Some [104; 101; 108; 108;
  111]) (Some start)) = Some true.
Proof. intros []; vm_compute; reflexivity. Qed.

Example test_accept_when_2_test_with_number : forall d,
  same_number (get_result (run d (PAcceptWhen POneChar is_digit (UserMsg 0)) (Some [49;
  57; 56; 51]) (Some start))) (Some (VChar 49)) = Some true.
Proof. intros []; vm_compute; reflexivity. Qed.

Example test_accept_when_3_test_with_empty_string : forall d,
  is_error (run d (PAcceptWhen POneChar is_digit (UserMsg 0)) (Some []) (Some start)) =
  Some true.
Proof. intros []; vm_compute; reflexivity. Qed.


(** /repo/test/alphanum.cpp *)

Example test_alphanum_1_test_with_text : forall d,
  same_number (get_result (run d PAlphanum (Some [104; 101; 108; 108; 111]) (Some
  start))) (Some (VChar 104)) = Some true.
Proof. intros []; vm_compute; reflexivity. Qed.

Example test_alphanum_2_test_with_number : forall d,
  same_number (get_result (run d PDigit (Some [49; 57; 56; 51]) (Some start))) (Some
  (VChar 49)) = Some true.
Proof. intros []; vm_compute; reflexivity. Qed.

Example test_alphanum_3_test_with_non_alphanum : forall d,
  is_error (run d PDigit (Some [46; 46; 44]) (Some start)) = Some true.
Proof. intros []; vm_compute; reflexivity. Qed.

Example test_alphanum_4_test_with_empty_string : forall d,
  is_error (run d PDigit (Some []) (Some start)) = Some true.
Proof. intros []; vm_compute; reflexivity. Qed.


(** /repo/test/always.cpp *)

Example test_always_1_test_result : forall d,
  same_number (get_result (run d (PAlways PDigit (VInt 13)) (Some [49]) (Some start)))
  (Some (VInt 13)) = Some true.
Proof. intros []; vm_compute; reflexivity. Qed.

Example test_always_2_test_fail : forall d,
  is_error (run d (PAlways PDigit (VInt 13)) (Some [97]) (Some start)) = Some true.
Proof. intros []; vm_compute; reflexivity. Qed.


(** /repo/test/always_c.cpp *)

Example test_always_c_1_test_result : forall d,
  same_number (get_result (run d (PAlways (PLitC 49) (VInt 13)) (Some [49]) (Some
  start))) (Some (VInt 13)) = Some true.
Proof. intros []; vm_compute; reflexivity. Qed.

Example test_always_c_2_test_fail : forall d,
  is_error (run d (PAlways (PLitC 49) (VInt 13)) (Some [97]) (Some start)) = Some true.
Proof. intros []; vm_compute; reflexivity. Qed.


(** /repo/test/at_c.cpp *)

Example test_at_c_1_test_first_char_11 :
  holds2 Z.eqb (Some 104) (bind (Some [104; 101; 108; 108; 111]) (fun s => at_c_11 s 0))
  = Some true.
Proof. vm_compute; reflexivity. Qed.

Example test_at_c_1_test_first_char_98 :
  holds2 Z.eqb (Some 104) (bind (Some (string_98 32 [104; 101; 108; 108; 111])) (fun s
  => at_c_98 s 0)) = Some true.
Proof. vm_compute; reflexivity. Qed.

Example test_at_c_2_test_middle_char_11 :
  holds2 Z.eqb (Some 108) (bind (Some [104; 101; 108; 108; 111]) (fun s => at_c_11 s 2))
  = Some true.
Proof. vm_compute; reflexivity. Qed.

Example test_at_c_2_test_middle_char_98 :
  holds2 Z.eqb (Some 108) (bind (Some (string_98 32 [104; 101; 108; 108; 111])) (fun s
  => at_c_98 s 2)) = Some true.
Proof. vm_compute; reflexivity. Qed.

Example test_at_c_3_test_last_char_11 :
  holds2 Z.eqb (Some 111) (bind (Some [104; 101; 108; 108; 111]) (fun s => at_c_11 s 4))
  = Some true.
Proof. vm_compute; reflexivity. Qed.

Example test_at_c_3_test_last_char_98 :
  holds2 Z.eqb (Some 111) (bind (Some (string_98 32 [104; 101; 108; 108; 111])) (fun s
  => at_c_98 s 4)) = Some true.
Proof. vm_compute; reflexivity. Qed.


(** /repo/test/back_inserter.cpp *)

Example test_back_inserter_1_test_inserts_at_the_back :
  defined_same (Some (VSeq [(VTmpl 101 []); (VTmpl 102 [])])) (back_inserter (VSeq
  [(VTmpl 101 [])]) (VTmpl 102 [])).
Proof. vm_compute; reflexivity. Qed.


(** /repo/test/concat.cpp *)

Example test_concat_1_test_empty_empty_11 :
  holds2 equal_to_11 (Some []) (bind (Some []) (fun a => bind (Some []) (fun b => Some
  (concat_11 a b)))) = Some true.
Proof. vm_compute; reflexivity. Qed.

Example test_concat_2_test_empty_hello_11 :
  holds2 equal_to_11 (Some [104; 101; 108; 108; 111]) (bind (Some []) (fun a => bind
  (Some [104; 101; 108; 108; 111]) (fun b => Some (concat_11 a b)))) = Some true.
Proof. vm_compute; reflexivity. Qed.

Example test_concat_3_test_hello_empty_11 :
  holds2 equal_to_11 (Some [104; 101; 108; 108; 111]) (bind (Some [104; 101; 108; 108;
  111]) (fun a => bind (Some []) (fun b => Some (concat_11 a b)))) = Some true.
Proof. vm_compute; reflexivity. Qed.

Example test_concat_4_test_hello_hello_11 :
  holds2 equal_to_11 (Some [104; 101; 108; 108; 111; 104; 101; 108; 108; 111]) (bind
  (Some [104; 101; 108; 108; 111]) (fun a => bind (Some [104; 101; 108; 108; 111]) (fun
  b => Some (concat_11 a b)))) = Some true.
Proof. vm_compute; reflexivity. Qed.


(** /repo/test/digit.cpp *)

Example test_digit_1_test_with_text : forall d,
  is_error (run d PDigit (Some [104; 101; 108; 108; 111]) (Some start)) = Some true.
Proof. intros []; vm_compute; reflexivity. Qed.

Example test_digit_2_test_with_number : forall d,
  same_number (get_result (run d PDigit (Some [49; 57; 56; 51]) (Some start))) (Some
  (VChar 49)) = Some true.
Proof. intros []; vm_compute; reflexivity. Qed.

Example test_digit_3_test_with_empty_string : forall d,
  is_error (run d PDigit (Some []) (Some start)) = Some true.
Proof. intros []; vm_compute; reflexivity. Qed.

Example test_digit_4_test_error_message_with_empty_string : forall d,
  defined_same (Some digit_expected) (get_message (run d PDigit (Some []) (Some start))).
Proof. intros []; vm_compute; reflexivity. Qed.


(** /repo/test/digit_to_int.cpp *)

Example test_digit_to_int_1_test0 :
  same_number (digit_to_int (VChar 48)) (Some (VInt 0)) = Some true.
Proof. vm_compute; reflexivity. Qed.

Example test_digit_to_int_2_test9 :
  same_number (digit_to_int (VChar 57)) (Some (VInt 9)) = Some true.
Proof. vm_compute; reflexivity. Qed.

Example test_digit_to_int_3_test_error :
  defined_same (Some (VErr digit_expected)) (digit_to_int (VChar 120)).
Proof. vm_compute; reflexivity. Qed.


(** /repo/test/digit_val.cpp *)

Example test_digit_val_1_test_with_text : forall d,
  is_error (run d PDigitVal (Some [104; 101; 108; 108; 111]) (Some start)) = Some true.
Proof. intros []; vm_compute; reflexivity. Qed.

Example test_digit_val_2_test_with_number : forall d,
  same_number (get_result (run d PDigitVal (Some [49; 57; 56; 51]) (Some start))) (Some
  (VInt 1)) = Some true.
Proof. intros []; vm_compute; reflexivity. Qed.

Example test_digit_val_3_test_with_empty_string : forall d,
  is_error (run d PDigitVal (Some []) (Some start)) = Some true.
Proof. intros []; vm_compute; reflexivity. Qed.


(** /repo/test/empty.cpp *)

Example test_empty_1_test_accept_empty : forall d,
  same_number (get_result (run d (PEmpty (VInt 13)) (Some []) (Some start))) (Some (VInt
  13)) = Some true.
Proof. intros []; vm_compute; reflexivity. Qed.

Example test_empty_2_test_reject_non_empty : forall d,
  is_error (run d (PEmpty (VInt 13)) (Some [97]) (Some start)) = Some true.
Proof. intros []; vm_compute; reflexivity. Qed.


(** /repo/test/entire_input.cpp *)

Example test_entire_input_1_test_accept_entire_input : forall d,
  same_number (get_result (run d (PEntireInput POneChar end_of_input_expected) (Some
  [104]) (Some start))) (Some (VChar 104)) = Some true.
Proof. intros []; vm_compute; reflexivity. Qed.

Example test_entire_input_2_test_reject_non_entire_input : forall d,
  is_error (run d (PEntireInput POneChar end_of_input_expected) (Some [104; 101; 108;
  108; 111]) (Some start)) = Some true.
Proof. intros []; vm_compute; reflexivity. Qed.

Example test_entire_input_3_test_predefined_error_message : forall d,
  defined_same (Some (UserMsg 0)) (get_message (run d (PEntireInput POneChar (UserMsg
  0)) (Some [104; 101; 108; 108; 111]) (Some start))).
Proof. intros []; vm_compute; reflexivity. Qed.


(** /repo/test/except.cpp *)

Example test_except_1_test_with_good : forall d,
  is_error (run d (PExcept POneChar (VInt 13) (UserMsg 0)) (Some [104; 101; 108; 108;
  111]) (Some start)) = Some true.
Proof. intros []; vm_compute; reflexivity. Qed.

Example test_except_2_test_with_bad : forall d,
  same_number (get_result (run d (PExcept (PFail (UserMsg 0)) (VInt 13) (UserMsg 0))
  (Some [104; 101; 108; 108; 111]) (Some start))) (Some (VInt 13)) = Some true.
Proof. intros []; vm_compute; reflexivity. Qed.


(** /repo/test/fail.cpp *)

Example test_fail_1_test_fail_for_non_empty_string : forall d,
  is_error (run d (PFail (UserMsg 0)) (Some [104; 101; 108; 108; 111]) (Some start)) =
  Some true.
Proof. intros []; vm_compute; reflexivity. Qed.


(** /repo/test/fail_at_first_char_expected.cpp *)

Example test_fail_at_first_char_expected_1_test_failure_at_first_char_is_ignored : forall d,
  is_error (run d (PFailAtFirstCharExpected (PKeyword [104; 101; 108; 108; 111] VVoid_))
  (Some [97; 98]) (Some start)) = Some false.
Proof. intros []; vm_compute; reflexivity. Qed.

Example test_fail_at_first_char_expected_2_test_no_failure_is_error : forall d,
  is_error (run d (PFailAtFirstCharExpected (PKeyword [104; 101; 108; 108; 111] VVoid_))
  (Some [104; 101; 108; 108; 111]) (Some start)) = Some true.
Proof. intros []; vm_compute; reflexivity. Qed.

Example test_fail_at_first_char_expected_3_test_failure_at_second_char_is_not_ignored : forall d,
  is_error (run d (PFailAtFirstCharExpected (PKeyword [104; 101; 108; 108; 111] VVoid_))
  (Some [104]) (Some start)) = Some true.
Proof. intros []; vm_compute; reflexivity. Qed.


(** /repo/test/fail_tag.cpp *)

Example test_fail_tag_1_test_getting_message_back : forall d,
  defined_same (Some (UserMsg 0)) (get_message (run d (PFail (UserMsg 0)) (Some [104;
  101; 108; 108; 111]) (Some start))).
Proof. intros []; vm_compute; reflexivity. Qed.

Example test_fail_tag_2_test_getting_position : forall d,
  holds2 pos_equal_to (Some start) (get_position (run d (PFail (UserMsg 0)) (Some [104;
  101; 108; 108; 111]) (Some start))) = Some true.
Proof. intros []; vm_compute; reflexivity. Qed.


(** /repo/test/first_of.cpp *)

Example test_first_of_1_test_one_char : forall d,
  same_number (get_result (run d (PFirstOf [(PLitC 104)]) (Some [104; 101; 108; 108;
  111]) (Some start))) (Some (VChar 104)) = Some true.
Proof. intros []; vm_compute; reflexivity. Qed.

Example test_first_of_2_test_two_chars : forall d,
  same_number (get_result (run d (PFirstOf [(PLitC 104); (PLitC 101)]) (Some [104; 101;
  108; 108; 111]) (Some start))) (Some (VChar 104)) = Some true.
Proof. intros []; vm_compute; reflexivity. Qed.

Example test_first_of_3_test_first_fails : forall d,
  is_error (run d (PFirstOf [(PLitC 120); (PLitC 101)]) (Some [104; 101; 108; 108; 111])
  (Some start)) = Some true.
Proof. intros []; vm_compute; reflexivity. Qed.

Example test_first_of_4_test_second_fails : forall d,
  is_error (run d (PFirstOf [(PLitC 104); (PLitC 120)]) (Some [104; 101; 108; 108; 111])
  (Some start)) = Some true.
Proof. intros []; vm_compute; reflexivity. Qed.

Example test_first_of_5_test_empty_input : forall d,
  is_error (run d (PFirstOf [(PLitC 104); (PLitC 101)]) (Some []) (Some start)) = Some
  true.
Proof. intros []; vm_compute; reflexivity. Qed.

Example test_first_of_6_test_three_chars : forall d,
  same_number (get_result (run d (PFirstOf [(PLitC 104); (PLitC 101); (PLitC 108)])
  (Some [104; 101; 108; 108; 111]) (Some start))) (Some (VChar 104)) = Some true.
Proof. intros []; vm_compute; reflexivity. Qed.


(** /repo/test/foldl.cpp *)

Example test_foldl_1_test_empty_input : forall d,
  defined_same (get_result (run d (PFoldl PLetter (Some (VSeq [])) back_inserter) (Some
  []) (Some start))) (Some (VSeq [])).
Proof. intros []; vm_compute; reflexivity. Qed.

Example test_foldl_2_test0 : forall d,
  defined_same (get_result (run d (PFoldl PLetter (Some (VSeq [])) back_inserter) (Some
  [48; 101; 108; 108; 111]) (Some start))) (Some (VSeq [])).
Proof. intros []; vm_compute; reflexivity. Qed.

Example test_foldl_3_test1 : forall d,
  defined_same (get_result (run d (PFoldl PLetter (Some (VSeq [])) back_inserter) (Some
  [104; 48; 108; 108; 111]) (Some start))) (Some (VSeq [VChar 104])).
Proof. intros []; vm_compute; reflexivity. Qed.

Example test_foldl_4_test2 : forall d,
  defined_same (get_result (run d (PFoldl PLetter (Some (VSeq [])) back_inserter) (Some
  [104; 101; 48; 108; 111]) (Some start))) (Some (VSeq [VChar 104; VChar 101])).
Proof. intros []; vm_compute; reflexivity. Qed.

Example test_foldl_5_test3 : forall d,
  defined_same (get_result (run d (PFoldl PLetter (Some (VSeq [])) back_inserter) (Some
  [104; 101; 108; 48; 111]) (Some start))) (Some (VSeq [VChar 104; VChar 101; VChar
  108])).
Proof. intros []; vm_compute; reflexivity. Qed.

Example test_foldl_6_test4 : forall d,
  defined_same (get_result (run d (PFoldl PLetter (Some (VSeq [])) back_inserter) (Some
  [104; 101; 108; 108; 48]) (Some start))) (Some (VSeq [VChar 104; VChar 101; VChar 108;
  VChar 108])).
Proof. intros []; vm_compute; reflexivity. Qed.

Example test_foldl_7_test5 : forall d,
  defined_same (get_result (run d (PFoldl PLetter (Some (VSeq [])) back_inserter) (Some
  [104; 101; 108; 108; 111]) (Some start))) (Some (VSeq [VChar 104; VChar 101; VChar
  108; VChar 108; VChar 111])).
Proof. intros []; vm_compute; reflexivity. Qed.

Example test_foldl_8_test_length : forall d,
  same_number (bind (get_result (run d (PFoldl PLetter (Some (VSeq [])) back_inserter)
  (Some [104; 101; 108; 48; 111]) (Some start))) (fun l => match l with VSeq vs => Some
  (VInt (Z.of_nat (length vs))) | _ => None end)) (Some (VInt 3)) = Some true.
Proof. intros []; vm_compute; reflexivity. Qed.

Example test_foldl_9_test_no_extra_evaluation : forall d,
  defined_same (get_result (run d (PFoldl (PAlways POneChar (VTmpl 101 [])) (Some (VSeq
  [])) back_inserter) (Some [99; 97]) (Some start))) (Some (VSeq [(VTmpl 101 []); (VTmpl
  101 [])])).
Proof. intros []; vm_compute; reflexivity. Qed.


(** /repo/test/foldl1.cpp *)

Example test_foldl1_1_test_empty_input : forall d,
  is_error (run d (PFoldl1 PLetter (Some (VSeq [])) back_inserter) (Some []) (Some
  start)) = Some true.
Proof. intros []; vm_compute; reflexivity. Qed.

Example test_foldl1_2_test0 : forall d,
  is_error (run d (PFoldl1 PLetter (Some (VSeq [])) back_inserter) (Some [48; 101; 108;
  108; 111]) (Some start)) = Some true.
Proof. intros []; vm_compute; reflexivity. Qed.

Example test_foldl1_3_test1 : forall d,
  defined_same (get_result (run d (PFoldl1 PLetter (Some (VSeq [])) back_inserter) (Some
  [104; 48; 108; 108; 111]) (Some start))) (Some (VSeq [VChar 104])).
Proof. intros []; vm_compute; reflexivity. Qed.

Example test_foldl1_4_test2 : forall d,
  defined_same (get_result (run d (PFoldl1 PLetter (Some (VSeq [])) back_inserter) (Some
  [104; 101; 48; 108; 111]) (Some start))) (Some (VSeq [VChar 104; VChar 101])).
Proof. intros []; vm_compute; reflexivity. Qed.

Example test_foldl1_5_test3 : forall d,
  defined_same (get_result (run d (PFoldl1 PLetter (Some (VSeq [])) back_inserter) (Some
  [104; 101; 108; 48; 111]) (Some start))) (Some (VSeq [VChar 104; VChar 101; VChar
  108])).
Proof. intros []; vm_compute; reflexivity. Qed.

Example test_foldl1_6_test4 : forall d,
  defined_same (get_result (run d (PFoldl1 PLetter (Some (VSeq [])) back_inserter) (Some
  [104; 101; 108; 108; 48]) (Some start))) (Some (VSeq [VChar 104; VChar 101; VChar 108;
  VChar 108])).
Proof. intros []; vm_compute; reflexivity. Qed.

Example test_foldl1_7_test5 : forall d,
  defined_same (get_result (run d (PFoldl1 PLetter (Some (VSeq [])) back_inserter) (Some
  [104; 101; 108; 108; 111]) (Some start))) (Some (VSeq [VChar 104; VChar 101; VChar
  108; VChar 108; VChar 111])).
Proof. intros []; vm_compute; reflexivity. Qed.

Example test_foldl1_8_test_no_extra_evaluation : forall d,
  defined_same (get_result (run d (PFoldl1 (PAlways POneChar (VTmpl 101 [])) (Some (VSeq
  [])) back_inserter) (Some [99; 97]) (Some start))) (Some (VSeq [(VTmpl 101 []); (VTmpl
  101 [])])).
Proof. intros []; vm_compute; reflexivity. Qed.


(** /repo/test/foldl_reject_incomplete.cpp *)

Example test_foldl_reject_incomplete_1_test_empty_input : forall d,
  defined_same (get_result (run d (PFoldlRejectIncomplete (PSequence [PLetter; PLetter])
  (Some (VSeq [])) back_inserter) (Some []) (Some start))) (Some (VSeq [])).
Proof. intros []; vm_compute; reflexivity. Qed.

Example test_foldl_reject_incomplete_2_test0 : forall d,
  is_error (run d (PFoldlRejectIncomplete (PSequence [PLetter; PLetter]) (Some (VSeq
  [])) back_inserter) (Some [48; 101; 108; 108; 111]) (Some start)) = Some false.
Proof. intros []; vm_compute; reflexivity. Qed.

Example test_foldl_reject_incomplete_3_test_with_a_failing_item : forall d,
  is_error (run d (PFoldlRejectIncomplete (PSequence [PLetter; PLetter]) (Some (VSeq
  [])) back_inserter) (Some [104; 48; 108; 108; 111]) (Some start)) = Some true.
Proof. intros []; vm_compute; reflexivity. Qed.

Example test_foldl_reject_incomplete_4_test1_pair : forall d,
  defined_same (get_result (run d (PFoldlRejectIncomplete (PSequence [PLetter; PLetter])
  (Some (VSeq [])) back_inserter) (Some [104; 101; 48; 108; 111]) (Some start))) (Some
  (VSeq [(VSeq [VChar 104; VChar 101])])).
Proof. intros []; vm_compute; reflexivity. Qed.

Example test_foldl_reject_incomplete_5_test2_pairs : forall d,
  defined_same (get_result (run d (PFoldlRejectIncomplete (PSequence [PLetter; PLetter])
  (Some (VSeq [])) back_inserter) (Some [104; 101; 108; 108; 48]) (Some start))) (Some
  (VSeq [(VSeq [VChar 104; VChar 101]); (VSeq [VChar 108; VChar 108])])).
Proof. intros []; vm_compute; reflexivity. Qed.

Example test_foldl_reject_incomplete_6_test3_pairs : forall d,
  defined_same (get_result (run d (PFoldlRejectIncomplete (PSequence [PLetter; PLetter])
  (Some (VSeq [])) back_inserter) (Some [104; 101; 108; 108; 111; 119; 48]) (Some
  start))) (Some (VSeq [(VSeq [VChar 104; VChar 101]); (VSeq [VChar 108; VChar 108]);
  (VSeq [VChar 111; VChar 119])])).
Proof. intros []; vm_compute; reflexivity. Qed.

Example test_foldl_reject_incomplete_7_test4_pairs : forall d,
  defined_same (get_result (run d (PFoldlRejectIncomplete (PSequence [PLetter; PLetter])
  (Some (VSeq [])) back_inserter) (Some [104; 101; 108; 108; 111; 119; 111; 114; 48])
  (Some start))) (Some (VSeq [(VSeq [VChar 104; VChar 101]); (VSeq [VChar 108; VChar
  108]); (VSeq [VChar 111; VChar 119]); (VSeq [VChar 111; VChar 114])])).
Proof. intros []; vm_compute; reflexivity. Qed.

Example test_foldl_reject_incomplete_8_test5 : forall d,
  defined_same (get_result (run d (PFoldlRejectIncomplete (PSequence [PLetter; PLetter])
  (Some (VSeq [])) back_inserter) (Some [104; 101; 108; 108; 111; 119; 111; 114; 108;
  100; 48]) (Some start))) (Some (VSeq [(VSeq [VChar 104; VChar 101]); (VSeq [VChar 108;
  VChar 108]); (VSeq [VChar 111; VChar 119]); (VSeq [VChar 111; VChar 114]); (VSeq
  [VChar 108; VChar 100])])).
Proof. intros []; vm_compute; reflexivity. Qed.

Example test_foldl_reject_incomplete_9_test_length : forall d,
  same_number (bind (get_result (run d (PFoldlRejectIncomplete (PSequence [PLetter;
  PLetter]) (Some (VSeq [])) back_inserter) (Some [104; 101; 108; 108; 111; 119; 48])
  (Some start))) (fun l => match l with VSeq vs => Some (VInt (Z.of_nat (length vs))) |
  _ => None end)) (Some (VInt 3)) = Some true.
Proof. intros []; vm_compute; reflexivity. Qed.

Example test_foldl_reject_incomplete_10_test_no_extra_evaluation : forall d,
  defined_same (get_result (run d (PFoldlRejectIncomplete (PAlways POneChar (VTmpl 101
  [])) (Some (VSeq [])) back_inserter) (Some [99; 97]) (Some start))) (Some (VSeq
  [(VTmpl 101 []); (VTmpl 101 [])])).
Proof. intros []; vm_compute; reflexivity. Qed.


(** /repo/test/foldl_reject_incomplete1.cpp *)

Example test_foldl_reject_incomplete1_1_test_empty_input : forall d,
  is_error (run d (PFoldlRejectIncomplete1 (PSequence [PLetter; PLetter]) (Some (VSeq
  [])) back_inserter) (Some []) (Some start)) = Some true.
Proof. intros []; vm_compute; reflexivity. Qed.

Example test_foldl_reject_incomplete1_2_test0 : forall d,
  is_error (run d (PFoldlRejectIncomplete1 (PSequence [PLetter; PLetter]) (Some (VSeq
  [])) back_inserter) (Some [48; 101; 108; 108; 111]) (Some start)) = Some true.
Proof. intros []; vm_compute; reflexivity. Qed.

Example test_foldl_reject_incomplete1_3_test1_pair : forall d,
  defined_same (get_result (run d (PFoldlRejectIncomplete1 (PSequence [PLetter;
  PLetter]) (Some (VSeq [])) back_inserter) (Some [104; 101; 48; 108; 111]) (Some
  start))) (Some (VSeq [(VSeq [VChar 104; VChar 101])])).
Proof. intros []; vm_compute; reflexivity. Qed.

Example test_foldl_reject_incomplete1_4_test_with_a_failing_item : forall d,
  is_error (run d (PFoldlRejectIncomplete1 (PSequence [PLetter; PLetter]) (Some (VSeq
  [])) back_inserter) (Some [104; 101; 108; 48; 111]) (Some start)) = Some true.
Proof. intros []; vm_compute; reflexivity. Qed.

Example test_foldl_reject_incomplete1_5_test2_pairs : forall d,
  defined_same (get_result (run d (PFoldlRejectIncomplete1 (PSequence [PLetter;
  PLetter]) (Some (VSeq [])) back_inserter) (Some [104; 101; 108; 108; 48]) (Some
  start))) (Some (VSeq [(VSeq [VChar 104; VChar 101]); (VSeq [VChar 108; VChar 108])])).
Proof. intros []; vm_compute; reflexivity. Qed.

Example test_foldl_reject_incomplete1_6_test3_pairs : forall d,
  defined_same (get_result (run d (PFoldlRejectIncomplete1 (PSequence [PLetter;
  PLetter]) (Some (VSeq [])) back_inserter) (Some [104; 101; 108; 108; 111; 119; 48])
  (Some start))) (Some (VSeq [(VSeq [VChar 104; VChar 101]); (VSeq [VChar 108; VChar
  108]); (VSeq [VChar 111; VChar 119])])).
Proof. intros []; vm_compute; reflexivity. Qed.

Example test_foldl_reject_incomplete1_7_test4_pairs : forall d,
  defined_same (get_result (run d (PFoldlRejectIncomplete1 (PSequence [PLetter;
  PLetter]) (Some (VSeq [])) back_inserter) (Some [104; 101; 108; 108; 111; 119; 111;
  114; 48]) (Some start))) (Some (VSeq [(VSeq [VChar 104; VChar 101]); (VSeq [VChar 108;
  VChar 108]); (VSeq [VChar 111; VChar 119]); (VSeq [VChar 111; VChar 114])])).
Proof. intros []; vm_compute; reflexivity. Qed.

Example test_foldl_reject_incomplete1_8_test5 : forall d,
  defined_same (get_result (run d (PFoldlRejectIncomplete1 (PSequence [PLetter;
  PLetter]) (Some (VSeq [])) back_inserter) (Some [104; 101; 108; 108; 111; 119; 111;
  114; 108; 100; 48]) (Some start))) (Some (VSeq [(VSeq [VChar 104; VChar 101]); (VSeq
  [VChar 108; VChar 108]); (VSeq [VChar 111; VChar 119]); (VSeq [VChar 111; VChar 114]);
  (VSeq [VChar 108; VChar 100])])).
Proof. intros []; vm_compute; reflexivity. Qed.

Example test_foldl_reject_incomplete1_9_test_length : forall d,
  same_number (bind (get_result (run d (PFoldlRejectIncomplete1 (PSequence [PLetter;
  PLetter]) (Some (VSeq [])) back_inserter) (Some [104; 101; 108; 108; 111; 119; 48])
  (Some start))) (fun l => match l with VSeq vs => Some (VInt (Z.of_nat (length vs))) |
  _ => None end)) (Some (VInt 3)) = Some true.
Proof. intros []; vm_compute; reflexivity. Qed.

Example test_foldl_reject_incomplete1_10_test_no_extra_evaluation : forall d,
  defined_same (get_result (run d (PFoldlRejectIncomplete1 (PAlways POneChar (VTmpl 101
  [])) (Some (VSeq [])) back_inserter) (Some [99; 97]) (Some start))) (Some (VSeq
  [(VTmpl 101 []); (VTmpl 101 [])])).
Proof. intros []; vm_compute; reflexivity. Qed.


(** /repo/test/foldl_reject_incomplete_start_with_parser.cpp *)

Example test_foldl_reject_incomplete_start_with_parser_1_test_b : forall d,
  same_number (get_result (run d (PFoldlRejectIncompleteStartWithParser (PSequence
  [(PLitC 97); (PLitC 97)]) (PLitC 98) (fun s _ => Some s)) (Some [98]) (Some start)))
  (Some (VChar 98)) = Some true.
Proof. intros []; vm_compute; reflexivity. Qed.

Example test_foldl_reject_incomplete_start_with_parser_2_test_ba : forall d,
  is_error (run d (PFoldlRejectIncompleteStartWithParser (PSequence [(PLitC 97); (PLitC
  97)]) (PLitC 98) (fun s _ => Some s)) (Some [98; 97]) (Some start)) = Some true.
Proof. intros []; vm_compute; reflexivity. Qed.

Example test_foldl_reject_incomplete_start_with_parser_3_test_baaaa : forall d,
  same_number (get_result (run d (PFoldlRejectIncompleteStartWithParser (PSequence
  [(PLitC 97); (PLitC 97)]) (PLitC 98) (fun s _ => Some s)) (Some [98; 97; 97; 97; 97])
  (Some start))) (Some (VChar 98)) = Some true.
Proof. intros []; vm_compute; reflexivity. Qed.

Example test_foldl_reject_incomplete_start_with_parser_4_test_c : forall d,
  is_error (run d (PFoldlRejectIncompleteStartWithParser (PSequence [(PLitC 97); (PLitC
  97)]) (PLitC 98) (fun s _ => Some s)) (Some [99]) (Some start)) = Some true.
Proof. intros []; vm_compute; reflexivity. Qed.

Example test_foldl_reject_incomplete_start_with_parser_5_test_ca : forall d,
  is_error (run d (PFoldlRejectIncompleteStartWithParser (PSequence [(PLitC 97); (PLitC
  97)]) (PLitC 98) (fun s _ => Some s)) (Some [99; 97]) (Some start)) = Some true.
Proof. intros []; vm_compute; reflexivity. Qed.

Example test_foldl_reject_incomplete_start_with_parser_6_test_empty_input : forall d,
  defined_same (get_result (run d (PFoldlRejectIncompleteStartWithParser (PSequence
  [PLetter; PLetter]) (PReturn (VSeq [])) back_inserter) (Some []) (Some start))) (Some
  (VSeq [])).
Proof. intros []; vm_compute; reflexivity. Qed.

Example test_foldl_reject_incomplete_start_with_parser_7_test0 : forall d,
  is_error (run d (PFoldlRejectIncompleteStartWithParser (PSequence [PLetter; PLetter])
  (PReturn (VSeq [])) back_inserter) (Some [48; 101; 108; 108; 111]) (Some start)) =
  Some false.
Proof. intros []; vm_compute; reflexivity. Qed.

Example test_foldl_reject_incomplete_start_with_parser_8_test_with_a_failing_item : forall d,
  is_error (run d (PFoldlRejectIncompleteStartWithParser (PSequence [PLetter; PLetter])
  (PReturn (VSeq [])) back_inserter) (Some [104; 48; 108; 108; 111]) (Some start)) =
  Some true.
Proof. intros []; vm_compute; reflexivity. Qed.

Example test_foldl_reject_incomplete_start_with_parser_9_test1_pair : forall d,
  defined_same (get_result (run d (PFoldlRejectIncompleteStartWithParser (PSequence
  [PLetter; PLetter]) (PReturn (VSeq [])) back_inserter) (Some [104; 101; 48; 108; 111])
  (Some start))) (Some (VSeq [(VSeq [VChar 104; VChar 101])])).
Proof. intros []; vm_compute; reflexivity. Qed.

Example test_foldl_reject_incomplete_start_with_parser_10_test2_pairs : forall d,
  defined_same (get_result (run d (PFoldlRejectIncompleteStartWithParser (PSequence
  [PLetter; PLetter]) (PReturn (VSeq [])) back_inserter) (Some [104; 101; 108; 108; 48])
  (Some start))) (Some (VSeq [(VSeq [VChar 104; VChar 101]); (VSeq [VChar 108; VChar
  108])])).
Proof. intros []; vm_compute; reflexivity. Qed.

Example test_foldl_reject_incomplete_start_with_parser_11_test3_pairs : forall d,
  defined_same (get_result (run d (PFoldlRejectIncompleteStartWithParser (PSequence
  [PLetter; PLetter]) (PReturn (VSeq [])) back_inserter) (Some [104; 101; 108; 108; 111;
  119; 48]) (Some start))) (Some (VSeq [(VSeq [VChar 104; VChar 101]); (VSeq [VChar 108;
  VChar 108]); (VSeq [VChar 111; VChar 119])])).
Proof. intros []; vm_compute; reflexivity. Qed.

Example test_foldl_reject_incomplete_start_with_parser_12_test4_pairs : forall d,
  defined_same (get_result (run d (PFoldlRejectIncompleteStartWithParser (PSequence
  [PLetter; PLetter]) (PReturn (VSeq [])) back_inserter) (Some [104; 101; 108; 108; 111;
  119; 111; 114; 48]) (Some start))) (Some (VSeq [(VSeq [VChar 104; VChar 101]); (VSeq
  [VChar 108; VChar 108]); (VSeq [VChar 111; VChar 119]); (VSeq [VChar 111; VChar
  114])])).
Proof. intros []; vm_compute; reflexivity. Qed.

Example test_foldl_reject_incomplete_start_with_parser_13_test5 : forall d,
  defined_same (get_result (run d (PFoldlRejectIncompleteStartWithParser (PSequence
  [PLetter; PLetter]) (PReturn (VSeq [])) back_inserter) (Some [104; 101; 108; 108; 111;
  119; 111; 114; 108; 100; 48]) (Some start))) (Some (VSeq [(VSeq [VChar 104; VChar
  101]); (VSeq [VChar 108; VChar 108]); (VSeq [VChar 111; VChar 119]); (VSeq [VChar 111;
  VChar 114]); (VSeq [VChar 108; VChar 100])])).
Proof. intros []; vm_compute; reflexivity. Qed.

Example test_foldl_reject_incomplete_start_with_parser_14_test_length : forall d,
  same_number (bind (get_result (run d (PFoldlRejectIncompleteStartWithParser (PSequence
  [PLetter; PLetter]) (PReturn (VSeq [])) back_inserter) (Some [104; 101; 108; 108; 111;
  119; 48]) (Some start))) (fun l => match l with VSeq vs => Some (VInt (Z.of_nat
  (length vs))) | _ => None end)) (Some (VInt 3)) = Some true.
Proof. intros []; vm_compute; reflexivity. Qed.

Example test_foldl_reject_incomplete_start_with_parser_15_test_no_extra_evaluation : forall d,
  defined_same (get_result (run d (PFoldlRejectIncompleteStartWithParser (PAlways
  POneChar (VTmpl 101 [])) (PReturn (VSeq [])) back_inserter) (Some [99; 97]) (Some
  start))) (Some (VSeq [(VTmpl 101 []); (VTmpl 101 [])])).
Proof. intros []; vm_compute; reflexivity. Qed.


(** /repo/test/foldl_start_with_parser.cpp *)

Example test_foldl_start_with_parser_1_test_b : forall d,
  same_number (get_result (run d (PFoldlStartWithParser (PLitC 97) (PLitC 98) (fun s _
  => Some s)) (Some [98]) (Some start))) (Some (VChar 98)) = Some true.
Proof. intros []; vm_compute; reflexivity. Qed.

Example test_foldl_start_with_parser_2_test_ba : forall d,
  same_number (get_result (run d (PFoldlStartWithParser (PLitC 97) (PLitC 98) (fun s _
  => Some s)) (Some [98; 97]) (Some start))) (Some (VChar 98)) = Some true.
Proof. intros []; vm_compute; reflexivity. Qed.

Example test_foldl_start_with_parser_3_test_baaaa : forall d,
  same_number (get_result (run d (PFoldlStartWithParser (PLitC 97) (PLitC 98) (fun s _
  => Some s)) (Some [98; 97; 97; 97; 97]) (Some start))) (Some (VChar 98)) = Some true.
Proof. intros []; vm_compute; reflexivity. Qed.

Example test_foldl_start_with_parser_4_test_c : forall d,
  is_error (run d (PFoldlStartWithParser (PLitC 97) (PLitC 98) (fun s _ => Some s))
  (Some [99]) (Some start)) = Some true.
Proof. intros []; vm_compute; reflexivity. Qed.

Example test_foldl_start_with_parser_5_test_ca : forall d,
  is_error (run d (PFoldlStartWithParser (PLitC 97) (PLitC 98) (fun s _ => Some s))
  (Some [99; 97]) (Some start)) = Some true.
Proof. intros []; vm_compute; reflexivity. Qed.

Example test_foldl_start_with_parser_6_test_empty_input : forall d,
  defined_same (get_result (run d (PFoldlStartWithParser PLetter (PReturn (VSeq []))
  back_inserter) (Some []) (Some start))) (Some (VSeq [])).
Proof. intros []; vm_compute; reflexivity. Qed.

Example test_foldl_start_with_parser_7_test0 : forall d,
  defined_same (get_result (run d (PFoldlStartWithParser PLetter (PReturn (VSeq []))
  back_inserter) (Some [48; 101; 108; 108; 111]) (Some start))) (Some (VSeq [])).
Proof. intros []; vm_compute; reflexivity. Qed.

Example test_foldl_start_with_parser_8_test1 : forall d,
  defined_same (get_result (run d (PFoldlStartWithParser PLetter (PReturn (VSeq []))
  back_inserter) (Some [104; 48; 108; 108; 111]) (Some start))) (Some (VSeq [VChar
  104])).
Proof. intros []; vm_compute; reflexivity. Qed.

Example test_foldl_start_with_parser_9_test2 : forall d,
  defined_same (get_result (run d (PFoldlStartWithParser PLetter (PReturn (VSeq []))
  back_inserter) (Some [104; 101; 48; 108; 111]) (Some start))) (Some (VSeq [VChar 104;
  VChar 101])).
Proof. intros []; vm_compute; reflexivity. Qed.

Example test_foldl_start_with_parser_10_test3 : forall d,
  defined_same (get_result (run d (PFoldlStartWithParser PLetter (PReturn (VSeq []))
  back_inserter) (Some [104; 101; 108; 48; 111]) (Some start))) (Some (VSeq [VChar 104;
  VChar 101; VChar 108])).
Proof. intros []; vm_compute; reflexivity. Qed.

Example test_foldl_start_with_parser_11_test4 : forall d,
  defined_same (get_result (run d (PFoldlStartWithParser PLetter (PReturn (VSeq []))
  back_inserter) (Some [104; 101; 108; 108; 48]) (Some start))) (Some (VSeq [VChar 104;
  VChar 101; VChar 108; VChar 108])).
Proof. intros []; vm_compute; reflexivity. Qed.

Example test_foldl_start_with_parser_12_test5 : forall d,
  defined_same (get_result (run d (PFoldlStartWithParser PLetter (PReturn (VSeq []))
  back_inserter) (Some [104; 101; 108; 108; 111]) (Some start))) (Some (VSeq [VChar 104;
  VChar 101; VChar 108; VChar 108; VChar 111])).
Proof. intros []; vm_compute; reflexivity. Qed.

Example test_foldl_start_with_parser_13_test_length : forall d,
  same_number (bind (get_result (run d (PFoldlStartWithParser PLetter (PReturn (VSeq
  [])) back_inserter) (Some [104; 101; 108; 48; 111]) (Some start))) (fun l => match l
  with VSeq vs => Some (VInt (Z.of_nat (length vs))) | _ => None end)) (Some (VInt 3)) =
  Some true.
Proof. intros []; vm_compute; reflexivity. Qed.

Example test_foldl_start_with_parser_14_test_no_extra_evaluation : forall d,
  defined_same (get_result (run d (PFoldlStartWithParser (PAlways POneChar (VTmpl 101
  [])) (PReturn (VSeq [])) back_inserter) (Some [99; 97]) (Some start))) (Some (VSeq
  [(VTmpl 101 []); (VTmpl 101 [])])).
Proof. intros []; vm_compute; reflexivity. Qed.


(** /repo/test/foldr.cpp *)

Example test_foldr_1_test_empty_input : forall d,
  defined_same (get_result (run d (PFoldr PLetter (VSeq []) front_inserter) (Some [])
  (Some start))) (Some (VSeq [])).
Proof. intros []; vm_compute; reflexivity. Qed.

Example test_foldr_2_test0 : forall d,
  defined_same (get_result (run d (PFoldr PLetter (VSeq []) front_inserter) (Some [48;
  101; 108; 108; 111]) (Some start))) (Some (VSeq [])).
Proof. intros []; vm_compute; reflexivity. Qed.

Example test_foldr_3_test1 : forall d,
  defined_same (get_result (run d (PFoldr PLetter (VSeq []) front_inserter) (Some [104;
  48; 108; 108; 111]) (Some start))) (Some (VSeq [VChar 104])).
Proof. intros []; vm_compute; reflexivity. Qed.

Example test_foldr_4_test2 : forall d,
  defined_same (get_result (run d (PFoldr PLetter (VSeq []) front_inserter) (Some [104;
  101; 48; 108; 111]) (Some start))) (Some (VSeq [VChar 104; VChar 101])).
Proof. intros []; vm_compute; reflexivity. Qed.

Example test_foldr_5_test3 : forall d,
  defined_same (get_result (run d (PFoldr PLetter (VSeq []) front_inserter) (Some [104;
  101; 108; 48; 111]) (Some start))) (Some (VSeq [VChar 104; VChar 101; VChar 108])).
Proof. intros []; vm_compute; reflexivity. Qed.

Example test_foldr_6_test4 : forall d,
  defined_same (get_result (run d (PFoldr PLetter (VSeq []) front_inserter) (Some [104;
  101; 108; 108; 48]) (Some start))) (Some (VSeq [VChar 104; VChar 101; VChar 108; VChar
  108])).
Proof. intros []; vm_compute; reflexivity. Qed.

Example test_foldr_7_test5 : forall d,
  defined_same (get_result (run d (PFoldr PLetter (VSeq []) front_inserter) (Some [104;
  101; 108; 108; 111]) (Some start))) (Some (VSeq [VChar 104; VChar 101; VChar 108;
  VChar 108; VChar 111])).
Proof. intros []; vm_compute; reflexivity. Qed.

Example test_foldr_8_test_length : forall d,
  same_number (bind (get_result (run d (PFoldr PLetter (VSeq []) front_inserter) (Some
  [104; 101; 108; 48; 111]) (Some start))) (fun l => match l with VSeq vs => Some (VInt
  (Z.of_nat (length vs))) | _ => None end)) (Some (VInt 3)) = Some true.
Proof. intros []; vm_compute; reflexivity. Qed.

Example test_foldr_9_test_no_extra_evaluation : forall d,
  defined_same (get_result (run d (PFoldr (PAlways POneChar (VTmpl 101 [])) (VSeq [])
  front_inserter) (Some [99; 97]) (Some start))) (Some (VSeq [(VTmpl 101 []); (VTmpl 101
  [])])).
Proof. intros []; vm_compute; reflexivity. Qed.


(** /repo/test/foldr1.cpp *)

Example test_foldr1_1_test_empty_input : forall d,
  is_error (run d (PFoldr1 PLetter (VSeq []) front_inserter) (Some []) (Some start)) =
  Some true.
Proof. intros []; vm_compute; reflexivity. Qed.

Example test_foldr1_2_test0 : forall d,
  is_error (run d (PFoldr1 PLetter (VSeq []) front_inserter) (Some [48; 101; 108; 108;
  111]) (Some start)) = Some true.
Proof. intros []; vm_compute; reflexivity. Qed.

Example test_foldr1_3_test1 : forall d,
  defined_same (get_result (run d (PFoldr1 PLetter (VSeq []) front_inserter) (Some [104;
  48; 108; 108; 111]) (Some start))) (Some (VSeq [VChar 104])).
Proof. intros []; vm_compute; reflexivity. Qed.

Example test_foldr1_4_test2 : forall d,
  defined_same (get_result (run d (PFoldr1 PLetter (VSeq []) front_inserter) (Some [104;
  101; 48; 108; 111]) (Some start))) (Some (VSeq [VChar 104; VChar 101])).
Proof. intros []; vm_compute; reflexivity. Qed.

Example test_foldr1_5_test3 : forall d,
  defined_same (get_result (run d (PFoldr1 PLetter (VSeq []) front_inserter) (Some [104;
  101; 108; 48; 111]) (Some start))) (Some (VSeq [VChar 104; VChar 101; VChar 108])).
Proof. intros []; vm_compute; reflexivity. Qed.

Example test_foldr1_6_test4 : forall d,
  defined_same (get_result (run d (PFoldr1 PLetter (VSeq []) front_inserter) (Some [104;
  101; 108; 108; 48]) (Some start))) (Some (VSeq [VChar 104; VChar 101; VChar 108; VChar
  108])).
Proof. intros []; vm_compute; reflexivity. Qed.

Example test_foldr1_7_test5 : forall d,
  defined_same (get_result (run d (PFoldr1 PLetter (VSeq []) front_inserter) (Some [104;
  101; 108; 108; 111]) (Some start))) (Some (VSeq [VChar 104; VChar 101; VChar 108;
  VChar 108; VChar 111])).
Proof. intros []; vm_compute; reflexivity. Qed.

Example test_foldr1_8_test_no_extra_evaluation : forall d,
  defined_same (get_result (run d (PFoldr1 (PAlways POneChar (VTmpl 101 [])) (VSeq [])
  front_inserter) (Some [99; 97]) (Some start))) (Some (VSeq [(VTmpl 101 []); (VTmpl 101
  [])])).
Proof. intros []; vm_compute; reflexivity. Qed.


(** /repo/test/foldr_reject_incomplete.cpp *)

Example test_foldr_reject_incomplete_1_test_empty_input : forall d,
  defined_same (get_result (run d (PFoldrRejectIncomplete (PSequence [PLetter; PLetter])
  (VSeq []) front_inserter) (Some []) (Some start))) (Some (VSeq [])).
Proof. intros []; vm_compute; reflexivity. Qed.

Example test_foldr_reject_incomplete_2_test0 : forall d,
  is_error (run d (PFoldrRejectIncomplete (PSequence [PLetter; PLetter]) (VSeq [])
  front_inserter) (Some [48; 101; 108; 108; 111]) (Some start)) = Some false.
Proof. intros []; vm_compute; reflexivity. Qed.

Example test_foldr_reject_incomplete_3_test_with_a_failing_item : forall d,
  is_error (run d (PFoldrRejectIncomplete (PSequence [PLetter; PLetter]) (VSeq [])
  front_inserter) (Some [104; 48; 108; 108; 111]) (Some start)) = Some true.
Proof. intros []; vm_compute; reflexivity. Qed.

Example test_foldr_reject_incomplete_4_test1_pair : forall d,
  defined_same (get_result (run d (PFoldrRejectIncomplete (PSequence [PLetter; PLetter])
  (VSeq []) front_inserter) (Some [104; 101; 48; 108; 111]) (Some start))) (Some (VSeq
  [(VSeq [VChar 104; VChar 101])])).
Proof. intros []; vm_compute; reflexivity. Qed.

Example test_foldr_reject_incomplete_5_test2_pairs : forall d,
  defined_same (get_result (run d (PFoldrRejectIncomplete (PSequence [PLetter; PLetter])
  (VSeq []) front_inserter) (Some [104; 101; 108; 108; 48]) (Some start))) (Some (VSeq
  [(VSeq [VChar 104; VChar 101]); (VSeq [VChar 108; VChar 108])])).
Proof. intros []; vm_compute; reflexivity. Qed.

Example test_foldr_reject_incomplete_6_test3_pairs : forall d,
  defined_same (get_result (run d (PFoldrRejectIncomplete (PSequence [PLetter; PLetter])
  (VSeq []) front_inserter) (Some [104; 101; 108; 108; 111; 119; 48]) (Some start)))
  (Some (VSeq [(VSeq [VChar 104; VChar 101]); (VSeq [VChar 108; VChar 108]); (VSeq
  [VChar 111; VChar 119])])).
Proof. intros []; vm_compute; reflexivity. Qed.

Example test_foldr_reject_incomplete_7_test4_pairs : forall d,
  defined_same (get_result (run d (PFoldrRejectIncomplete (PSequence [PLetter; PLetter])
  (VSeq []) front_inserter) (Some [104; 101; 108; 108; 111; 119; 111; 114; 48]) (Some
  start))) (Some (VSeq [(VSeq [VChar 104; VChar 101]); (VSeq [VChar 108; VChar 108]);
  (VSeq [VChar 111; VChar 119]); (VSeq [VChar 111; VChar 114])])).
Proof. intros []; vm_compute; reflexivity. Qed.

Example test_foldr_reject_incomplete_8_test5 : forall d,
  defined_same (get_result (run d (PFoldrRejectIncomplete (PSequence [PLetter; PLetter])
  (VSeq []) front_inserter) (Some [104; 101; 108; 108; 111; 119; 111; 114; 108; 100;
  48]) (Some start))) (Some (VSeq [(VSeq [VChar 104; VChar 101]); (VSeq [VChar 108;
  VChar 108]); (VSeq [VChar 111; VChar 119]); (VSeq [VChar 111; VChar 114]); (VSeq
  [VChar 108; VChar 100])])).
Proof. intros []; vm_compute; reflexivity. Qed.

Example test_foldr_reject_incomplete_9_test_length : forall d,
  same_number (bind (get_result (run d (PFoldrRejectIncomplete (PSequence [PLetter;
  PLetter]) (VSeq []) front_inserter) (Some [104; 101; 108; 108; 111; 119; 48]) (Some
  start))) (fun l => match l with VSeq vs => Some (VInt (Z.of_nat (length vs))) | _ =>
  None end)) (Some (VInt 3)) = Some true.
Proof. intros []; vm_compute; reflexivity. Qed.

Example test_foldr_reject_incomplete_10_test_no_extra_evaluation : forall d,
  defined_same (get_result (run d (PFoldrRejectIncomplete (PAlways POneChar (VTmpl 101
  [])) (VSeq []) front_inserter) (Some [99; 97]) (Some start))) (Some (VSeq [(VTmpl 101
  []); (VTmpl 101 [])])).
Proof. intros []; vm_compute; reflexivity. Qed.


(** /repo/test/foldr_reject_incomplete1.cpp *)

Example test_foldr_reject_incomplete1_1_test_empty_input : forall d,
  is_error (run d (PFoldrRejectIncomplete1 (PSequence [PLetter; PLetter]) (VSeq [])
  front_inserter) (Some []) (Some start)) = Some true.
Proof. intros []; vm_compute; reflexivity. Qed.

Example test_foldr_reject_incomplete1_2_test0 : forall d,
  is_error (run d (PFoldrRejectIncomplete1 (PSequence [PLetter; PLetter]) (VSeq [])
  front_inserter) (Some [48; 101; 108; 108; 111]) (Some start)) = Some true.
Proof. intros []; vm_compute; reflexivity. Qed.

Example test_foldr_reject_incomplete1_3_test1_pair : forall d,
  defined_same (get_result (run d (PFoldrRejectIncomplete1 (PSequence [PLetter;
  PLetter]) (VSeq []) front_inserter) (Some [104; 101; 48; 108; 111]) (Some start)))
  (Some (VSeq [(VSeq [VChar 104; VChar 101])])).
Proof. intros []; vm_compute; reflexivity. Qed.

Example test_foldr_reject_incomplete1_4_test_with_a_failing_item : forall d,
  is_error (run d (PFoldrRejectIncomplete1 (PSequence [PLetter; PLetter]) (VSeq [])
  front_inserter) (Some [104; 101; 108; 48; 111]) (Some start)) = Some true.
Proof. intros []; vm_compute; reflexivity. Qed.

Example test_foldr_reject_incomplete1_5_test2_pairs : forall d,
  defined_same (get_result (run d (PFoldrRejectIncomplete1 (PSequence [PLetter;
  PLetter]) (VSeq []) front_inserter) (Some [104; 101; 108; 108; 48]) (Some start)))
  (Some (VSeq [(VSeq [VChar 104; VChar 101]); (VSeq [VChar 108; VChar 108])])).
Proof. intros []; vm_compute; reflexivity. Qed.

Example test_foldr_reject_incomplete1_6_test3_pairs : forall d,
  defined_same (get_result (run d (PFoldrRejectIncomplete1 (PSequence [PLetter;
  PLetter]) (VSeq []) front_inserter) (Some [104; 101; 108; 108; 111; 119; 48]) (Some
  start))) (Some (VSeq [(VSeq [VChar 104; VChar 101]); (VSeq [VChar 108; VChar 108]);
  (VSeq [VChar 111; VChar 119])])).
Proof. intros []; vm_compute; reflexivity. Qed.

Example test_foldr_reject_incomplete1_7_test4_pairs : forall d,
  defined_same (get_result (run d (PFoldrRejectIncomplete1 (PSequence [PLetter;
  PLetter]) (VSeq []) front_inserter) (Some [104; 101; 108; 108; 111; 119; 111; 114;
  48]) (Some start))) (Some (VSeq [(VSeq [VChar 104; VChar 101]); (VSeq [VChar 108;
  VChar 108]); (VSeq [VChar 111; VChar 119]); (VSeq [VChar 111; VChar 114])])).
Proof. intros []; vm_compute; reflexivity. Qed.

Example test_foldr_reject_incomplete1_8_test5 : forall d,
  defined_same (get_result (run d (PFoldrRejectIncomplete1 (PSequence [PLetter;
  PLetter]) (VSeq []) front_inserter) (Some [104; 101; 108; 108; 111; 119; 111; 114;
  108; 100; 48]) (Some start))) (Some (VSeq [(VSeq [VChar 104; VChar 101]); (VSeq [VChar
  108; VChar 108]); (VSeq [VChar 111; VChar 119]); (VSeq [VChar 111; VChar 114]); (VSeq
  [VChar 108; VChar 100])])).
Proof. intros []; vm_compute; reflexivity. Qed.

Example test_foldr_reject_incomplete1_9_test_length : forall d,
  same_number (bind (get_result (run d (PFoldrRejectIncomplete1 (PSequence [PLetter;
  PLetter]) (VSeq []) front_inserter) (Some [104; 101; 108; 108; 111; 119; 48]) (Some
  start))) (fun l => match l with VSeq vs => Some (VInt (Z.of_nat (length vs))) | _ =>
  None end)) (Some (VInt 3)) = Some true.
Proof. intros []; vm_compute; reflexivity. Qed.

Example test_foldr_reject_incomplete1_10_test_no_extra_evaluation : forall d,
  defined_same (get_result (run d (PFoldrRejectIncomplete1 (PAlways POneChar (VTmpl 101
  [])) (VSeq []) front_inserter) (Some [99; 97]) (Some start))) (Some (VSeq [(VTmpl 101
  []); (VTmpl 101 [])])).
Proof. intros []; vm_compute; reflexivity. Qed.


(** /repo/test/foldr_start_with_parser.cpp *)

Example test_foldr_start_with_parser_1_test_b : forall d,
  same_number (get_result (run d (PFoldrStartWithParser (PLitC 97) (PLitC 98) (fun s _
  => Some s)) (Some [98]) (Some start))) (Some (VChar 98)) = Some true.
Proof. intros []; vm_compute; reflexivity. Qed.

Example test_foldr_start_with_parser_2_test_ab : forall d,
  same_number (get_result (run d (PFoldrStartWithParser (PLitC 97) (PLitC 98) (fun s _
  => Some s)) (Some [97; 98]) (Some start))) (Some (VChar 98)) = Some true.
Proof. intros []; vm_compute; reflexivity. Qed.

Example test_foldr_start_with_parser_3_test_aaaab : forall d,
  same_number (get_result (run d (PFoldrStartWithParser (PLitC 97) (PLitC 98) (fun s _
  => Some s)) (Some [97; 97; 97; 97; 98]) (Some start))) (Some (VChar 98)) = Some true.
Proof. intros []; vm_compute; reflexivity. Qed.

Example test_foldr_start_with_parser_4_test_c : forall d,
  is_error (run d (PFoldrStartWithParser (PLitC 97) (PLitC 98) (fun s _ => Some s))
  (Some [99]) (Some start)) = Some true.
Proof. intros []; vm_compute; reflexivity. Qed.

Example test_foldr_start_with_parser_5_test_ac : forall d,
  is_error (run d (PFoldrStartWithParser (PLitC 97) (PLitC 98) (fun s _ => Some s))
  (Some [97; 99]) (Some start)) = Some true.
Proof. intros []; vm_compute; reflexivity. Qed.


(** /repo/test/front_inserter.cpp *)

Example test_front_inserter_1_test_inserts_at_the_front :
  defined_same (Some (VSeq [(VTmpl 101 []); (VTmpl 102 [])])) (front_inserter (VSeq
  [(VTmpl 102 [])]) (VTmpl 101 [])).
Proof. vm_compute; reflexivity. Qed.


(** /repo/test/grammar.cpp *)

Example test_grammar_1_import : forall d,
  same_number (Some (VChar 120)) (get_result (run_grammar d [Import [83] (PLitC 120)]
  (Some [120]) (Some start))) = Some true.
Proof. intros []; vm_compute; reflexivity. Qed.

Example test_grammar_2_rename_import : forall d,
  same_number (Some (VChar 120)) (get_result (run_grammar d [Import [73] (PLitC 120);
  Rule [83; 32; 58; 58; 61; 32; 73] None] (Some [120]) (Some start))) = Some true.
Proof. intros []; vm_compute; reflexivity. Qed.

Example test_grammar_3_char : forall d,
  same_number (Some (VChar 120)) (get_result (run_grammar d [Rule [83; 32; 58; 58; 61;
  32; 39; 120; 39] None] (Some [120]) (Some start))) = Some true.
Proof. intros []; vm_compute; reflexivity. Qed.

Example test_grammar_4_char_failure : forall d,
  is_error (run_grammar d [Rule [83; 32; 58; 58; 61; 32; 39; 120; 39] None] (Some [121])
  (Some start)) = Some true.
Proof. intros []; vm_compute; reflexivity. Qed.

Example test_grammar_5_char_n : forall d,
  same_number (Some (VChar 10)) (get_result (run_grammar d [Rule [83; 32; 58; 58; 61;
  32; 39; 92; 110; 39] None] (Some [10]) (Some start))) = Some true.
Proof. intros []; vm_compute; reflexivity. Qed.

Example test_grammar_6_char_r : forall d,
  same_number (Some (VChar 13)) (get_result (run_grammar d [Rule [83; 32; 58; 58; 61;
  32; 39; 92; 114; 39] None] (Some [13]) (Some start))) = Some true.
Proof. intros []; vm_compute; reflexivity. Qed.

Example test_grammar_7_char_t : forall d,
  same_number (Some (VChar 9)) (get_result (run_grammar d [Rule [83; 32; 58; 58; 61; 32;
  39; 92; 116; 39] None] (Some [9]) (Some start))) = Some true.
Proof. intros []; vm_compute; reflexivity. Qed.

Example test_grammar_8_backslash : forall d,
  same_number (Some (VChar 92)) (get_result (run_grammar d [Rule [83; 32; 58; 58; 61;
  32; 39; 92; 92; 39] None] (Some [92]) (Some start))) = Some true.
Proof. intros []; vm_compute; reflexivity. Qed.

Example test_grammar_9_char___ : forall d,
  same_number (Some (VChar 39)) (get_result (run_grammar d [Rule [83; 32; 58; 58; 61;
  32; 39; 92; 39; 39] None] (Some [39]) (Some start))) = Some true.
Proof. intros []; vm_compute; reflexivity. Qed.

Example test_grammar_10_rename_rule : forall d,
  same_number (Some (VChar 120)) (get_result (run_grammar d [Rule [82; 32; 58; 58; 61;
  32; 39; 120; 39] None; Rule [83; 32; 58; 58; 61; 32; 82] None] (Some [120]) (Some
  start))) = Some true.
Proof. intros []; vm_compute; reflexivity. Qed.

Example test_grammar_11_sequence : forall d,
  defined_same (Some (VSeq [(VChar 120); (VChar 120)])) (get_result (run_grammar d [Rule
  [82; 32; 58; 58; 61; 32; 39; 120; 39] None; Rule [83; 32; 58; 58; 61; 32; 82; 32; 82]
  None] (Some [120; 120]) (Some start))).
Proof. intros []; vm_compute; reflexivity. Qed.

Example test_grammar_12_sequence_first_fail : forall d,
  is_error (run_grammar d [Rule [82; 32; 58; 58; 61; 32; 39; 120; 39] None; Rule [83;
  32; 58; 58; 61; 32; 82; 32; 82] None] (Some [121; 120]) (Some start)) = Some true.
Proof. intros []; vm_compute; reflexivity. Qed.

Example test_grammar_13_sequence_second_fail : forall d,
  is_error (run_grammar d [Rule [82; 32; 58; 58; 61; 32; 39; 120; 39] None; Rule [83;
  32; 58; 58; 61; 32; 82; 32; 82] None] (Some [120; 121]) (Some start)) = Some true.
Proof. intros []; vm_compute; reflexivity. Qed.

Example test_grammar_14_selection_1 : forall d,
  same_number (Some (VChar 120)) (get_result (run_grammar d [Rule [89; 32; 58; 58; 61;
  32; 39; 121; 39] None; Rule [88; 32; 58; 58; 61; 32; 39; 120; 39] None; Rule [83; 32;
  58; 58; 61; 32; 88; 124; 89] None] (Some [120]) (Some start))) = Some true.
Proof. intros []; vm_compute; reflexivity. Qed.

Example test_grammar_15_selection_2 : forall d,
  same_number (Some (VChar 121)) (get_result (run_grammar d [Rule [89; 32; 58; 58; 61;
  32; 39; 121; 39] None; Rule [88; 32; 58; 58; 61; 32; 39; 120; 39] None; Rule [83; 32;
  58; 58; 61; 32; 88; 124; 89] None] (Some [121]) (Some start))) = Some true.
Proof. intros []; vm_compute; reflexivity. Qed.

Example test_grammar_16_selection_fail : forall d,
  is_error (run_grammar d [Rule [89; 32; 58; 58; 61; 32; 39; 121; 39] None; Rule [88;
  32; 58; 58; 61; 32; 39; 120; 39] None; Rule [83; 32; 58; 58; 61; 32; 88; 124; 89]
  None] (Some [122]) (Some start)) = Some true.
Proof. intros []; vm_compute; reflexivity. Qed.

Example test_grammar_17_repeated_0 : forall d,
  defined_same (Some (VSeq [])) (get_result (run_grammar d [Rule [88; 32; 58; 58; 61;
  32; 39; 120; 39] None; Rule [83; 32; 58; 58; 61; 32; 88; 42] None] (Some [121]) (Some
  start))).
Proof. intros []; vm_compute; reflexivity. Qed.

Example test_grammar_18_repeated_1 : forall d,
  defined_same (Some (VSeq [(VChar 120)])) (get_result (run_grammar d [Rule [88; 32; 58;
  58; 61; 32; 39; 120; 39] None; Rule [83; 32; 58; 58; 61; 32; 88; 42] None] (Some [120;
  121]) (Some start))).
Proof. intros []; vm_compute; reflexivity. Qed.

Example test_grammar_19_repeated_2 : forall d,
  defined_same (Some (VSeq [(VChar 120); (VChar 120)])) (get_result (run_grammar d [Rule
  [88; 32; 58; 58; 61; 32; 39; 120; 39] None; Rule [83; 32; 58; 58; 61; 32; 88; 42]
  None] (Some [120; 120; 121]) (Some start))).
Proof. intros []; vm_compute; reflexivity. Qed.

Example test_grammar_20_bracket : forall d,
  same_number (Some (VChar 120)) (get_result (run_grammar d [Rule [83; 32; 58; 58; 61;
  32; 40; 39; 120; 39; 41] None] (Some [120]) (Some start))) = Some true.
Proof. intros []; vm_compute; reflexivity. Qed.

Example test_grammar_21_semantic_action : forall d,
  same_number (Some (VChar 121)) (get_result (run_grammar d [Rule [83; 32; 58; 58; 61;
  32; 39; 120; 39] (Some (fun v => option_map (fun c => VChar (c + 1)) (as_int v)))]
  (Some [120]) (Some start))) = Some true.
Proof. intros []; vm_compute; reflexivity. Qed.

Example test_grammar_22_repeated__0 : forall d,
  is_error (run_grammar d [Rule [88; 32; 58; 58; 61; 32; 39; 120; 39] None; Rule [83;
  32; 58; 58; 61; 32; 88; 43] None] (Some [121]) (Some start)) = Some true.
Proof. intros []; vm_compute; reflexivity. Qed.

Example test_grammar_23_repeated__1 : forall d,
  defined_same (Some (VSeq [(VChar 120)])) (get_result (run_grammar d [Rule [88; 32; 58;
  58; 61; 32; 39; 120; 39] None; Rule [83; 32; 58; 58; 61; 32; 88; 43] None] (Some [120;
  121]) (Some start))).
Proof. intros []; vm_compute; reflexivity. Qed.

Example test_grammar_24_repeated__2 : forall d,
  defined_same (Some (VSeq [(VChar 120); (VChar 120)])) (get_result (run_grammar d [Rule
  [88; 32; 58; 58; 61; 32; 39; 120; 39] None; Rule [83; 32; 58; 58; 61; 32; 88; 43]
  None] (Some [120; 120; 121]) (Some start))).
Proof. intros []; vm_compute; reflexivity. Qed.


(** /repo/test/if_.cpp *)

Example test_if__1_test_true : forall d,
  same_number (get_result (run d (PIf PDigit (VInt 11) (VInt 13)) (Some [49]) (Some
  start))) (Some (VInt 11)) = Some true.
Proof. intros []; vm_compute; reflexivity. Qed.

Example test_if__2_test_false : forall d,
  same_number (get_result (run d (PIf PDigit (VInt 11) (VInt 13)) (Some [97]) (Some
  start))) (Some (VInt 13)) = Some true.
Proof. intros []; vm_compute; reflexivity. Qed.


(** /repo/test/in_range.cpp *)

Example test_in_range_1_test_int_in_range :
  (in_range_c 10 13) (VInt 12) = Some true.
Proof. vm_compute; reflexivity. Qed.

Example test_in_range_2_test_lower_bound :
  (in_range_c 10 13) (VInt 10) = Some true.
Proof. vm_compute; reflexivity. Qed.

Example test_in_range_3_test_upper_bound :
  (in_range_c 10 13) (VInt 13) = Some true.
Proof. vm_compute; reflexivity. Qed.

Example test_in_range_4_test_int_not_in_range :
  (in_range_c 10 13) (VInt 14) = Some false.
Proof. vm_compute; reflexivity. Qed.


(** /repo/test/in_range_c.cpp *)

Example test_in_range_c_1_test_int_in_range :
  (in_range_c 97 103) (VChar 101) = Some true.
Proof. vm_compute; reflexivity. Qed.

Example test_in_range_c_2_test_lower_bound :
  (in_range_c 97 103) (VChar 97) = Some true.
Proof. vm_compute; reflexivity. Qed.

Example test_in_range_c_3_test_upper_bound :
  (in_range_c 10 13) (VInt 13) = Some true.
Proof. vm_compute; reflexivity. Qed.

Example test_in_range_c_4_test_int_not_in_range :
  (in_range_c 10 13) (VInt 14) = Some false.
Proof. vm_compute; reflexivity. Qed.


(** /repo/test/int_.cpp *)

Example test_int__1_test_with_text : forall d,
  is_error (run d PInt (Some [104; 101; 108; 108; 111]) (Some start)) = Some true.
Proof. intros []; vm_compute; reflexivity. Qed.

Example test_int__2_test_with_zero : forall d,
  same_number (get_result (run d PInt (Some [48]) (Some start))) (Some (VInt 0)) = Some
  true.
Proof. intros []; vm_compute; reflexivity. Qed.

Example test_int__3_test_with_one_digit : forall d,
  same_number (get_result (run d PInt (Some [49]) (Some start))) (Some (VInt 1)) = Some
  true.
Proof. intros []; vm_compute; reflexivity. Qed.

Example test_int__4_test_with_big_number : forall d,
  same_number (get_result (run d PInt (Some [49; 57; 56; 51]) (Some start))) (Some (VInt
  1983)) = Some true.
Proof. intros []; vm_compute; reflexivity. Qed.

Example test_int__5_test_with_empty_string : forall d,
  is_error (run d PInt (Some []) (Some start)) = Some true.
Proof. intros []; vm_compute; reflexivity. Qed.


(** /repo/test/int_to_digit.cpp *)

Example test_int_to_digit_1_test0 :
  same_number (Some (VChar 48)) (int_to_digit (VInt 0)) = Some true.
Proof. vm_compute; reflexivity. Qed.

Example test_int_to_digit_2_test5 :
  same_number (Some (VChar 53)) (int_to_digit (VInt 5)) = Some true.
Proof. vm_compute; reflexivity. Qed.

Example test_int_to_digit_3_test9 :
  same_number (Some (VChar 57)) (int_to_digit (VInt 9)) = Some true.
Proof. vm_compute; reflexivity. Qed.


(** /repo/test/is_char_c.cpp *)

Example test_is_char_c_1_test_for_the_same_char :
  (is_char_c 120) (VChar 120) = Some true.
Proof. vm_compute; reflexivity. Qed.

Example test_is_char_c_2_test_for_another_char :
  (is_char_c 120) (VChar 121) = Some false.
Proof. vm_compute; reflexivity. Qed.


(** /repo/test/is_digit.cpp *)

Example test_is_digit_1_test_digit :
  is_digit (VChar 55) = Some true.
Proof. vm_compute; reflexivity. Qed.

Example test_is_digit_2_test_non_digit :
  is_digit (VChar 97) = Some false.
Proof. vm_compute; reflexivity. Qed.


(** /repo/test/is_lcase_letter.cpp *)

Example test_is_lcase_letter_1_test_letter :
  is_lcase_letter (VChar 107) = Some true.
Proof. vm_compute; reflexivity. Qed.

Example test_is_lcase_letter_2_test_non_letter :
  is_lcase_letter (VChar 75) = Some false.
Proof. vm_compute; reflexivity. Qed.


(** /repo/test/is_letter.cpp *)

Example test_is_letter_1_test_lcase_letter :
  is_letter (VChar 107) = Some true.
Proof. vm_compute; reflexivity. Qed.

Example test_is_letter_2_test_ucase_letter :
  is_letter (VChar 75) = Some true.
Proof. vm_compute; reflexivity. Qed.

Example test_is_letter_3_test_not_letter :
  is_letter (VChar 55) = Some false.
Proof. vm_compute; reflexivity. Qed.


(** /repo/test/is_ucase_letter.cpp *)

Example test_is_ucase_letter_1_test_letter :
  is_ucase_letter (VChar 75) = Some true.
Proof. vm_compute; reflexivity. Qed.

Example test_is_ucase_letter_2_test_non_letter :
  is_ucase_letter (VChar 107) = Some false.
Proof. vm_compute; reflexivity. Qed.


(** /repo/test/is_whitespace.cpp *)

Example test_is_whitespace_1_test_space :
  is_whitespace (VChar 32) = Some true.
Proof. vm_compute; reflexivity. Qed.

Example test_is_whitespace_2_test_tab :
  is_whitespace (VChar 9) = Some true.
Proof. vm_compute; reflexivity. Qed.

Example test_is_whitespace_3_test_non_whitespace :
  is_whitespace (VChar 97) = Some false.
Proof. vm_compute; reflexivity. Qed.


(** /repo/test/iterate.cpp *)

Example test_iterate_1_test_empty_input : forall d,
  is_error (run d (PIterate POneChar 13) (Some []) (Some start)) = Some true.
Proof. intros []; vm_compute; reflexivity. Qed.

Example test_iterate_2_test0 : forall d,
  defined_same (get_result (run d (PIterate POneChar 0) (Some [104; 101; 108; 108; 111])
  (Some start))) (Some (VSeq [])).
Proof. intros []; vm_compute; reflexivity. Qed.

Example test_iterate_3_test1 : forall d,
  defined_same (get_result (run d (PIterate POneChar 1) (Some [104; 101; 108; 108; 111])
  (Some start))) (Some (VSeq [VChar 104])).
Proof. intros []; vm_compute; reflexivity. Qed.

Example test_iterate_4_test2 : forall d,
  defined_same (get_result (run d (PIterate POneChar 2) (Some [104; 101; 108; 108; 111])
  (Some start))) (Some (VSeq [VChar 104; VChar 101])).
Proof. intros []; vm_compute; reflexivity. Qed.

Example test_iterate_5_test3 : forall d,
  defined_same (get_result (run d (PIterate POneChar 3) (Some [104; 101; 108; 108; 111])
  (Some start))) (Some (VSeq [VChar 104; VChar 101; VChar 108])).
Proof. intros []; vm_compute; reflexivity. Qed.


(** /repo/test/iterate_c.cpp *)

Example test_iterate_c_1_test_empty_input : forall d,
  is_error (run d (PIterate POneChar 13) (Some []) (Some start)) = Some true.
Proof. intros []; vm_compute; reflexivity. Qed.

Example test_iterate_c_2_test0 : forall d,
  defined_same (get_result (run d (PIterate POneChar 0) (Some [104; 101; 108; 108; 111])
  (Some start))) (Some (VSeq [])).
Proof. intros []; vm_compute; reflexivity. Qed.

Example test_iterate_c_3_test1 : forall d,
  defined_same (get_result (run d (PIterate POneChar 1) (Some [104; 101; 108; 108; 111])
  (Some start))) (Some (VSeq [VChar 104])).
Proof. intros []; vm_compute; reflexivity. Qed.

Example test_iterate_c_4_test2 : forall d,
  defined_same (get_result (run d (PIterate POneChar 2) (Some [104; 101; 108; 108; 111])
  (Some start))) (Some (VSeq [VChar 104; VChar 101])).
Proof. intros []; vm_compute; reflexivity. Qed.

Example test_iterate_c_5_test3 : forall d,
  defined_same (get_result (run d (PIterate POneChar 3) (Some [104; 101; 108; 108; 111])
  (Some start))) (Some (VSeq [VChar 104; VChar 101; VChar 108])).
Proof. intros []; vm_compute; reflexivity. Qed.


(** /repo/test/keyword.cpp *)

Example test_keyword_1_test_result_type : forall d,
  same_number (get_result (run d (PKeyword [104; 101; 108; 108; 111] (VChar 108)) (Some
  [104; 101; 108; 108; 111]) (Some start))) (Some (VChar 108)) = Some true.
Proof. intros []; vm_compute; reflexivity. Qed.

Example test_keyword_2_test_empty_keyword : forall d,
  same_number (get_result (run d (PKeyword [] (VChar 108)) (Some [104; 101; 108; 108;
  111]) (Some start))) (Some (VChar 108)) = Some true.
Proof. intros []; vm_compute; reflexivity. Qed.

Example test_keyword_3_test_empty_input : forall d,
  is_error (run d (PKeyword [104; 101; 108; 108; 111] VVoid_) (Some []) (Some start)) =
  Some true.
Proof. intros []; vm_compute; reflexivity. Qed.

Example test_keyword_4_test_itself : forall d,
  defined_same (get_remaining (run d (PKeyword [104; 101; 108; 108; 111] VVoid_) (Some
  [104; 101; 108; 108; 111]) (Some start))) (Some []).
Proof. intros []; vm_compute; reflexivity. Qed.

Example test_keyword_5_test_more_than_itself : forall d,
  defined_same (get_remaining (run d (PKeyword [104; 101; 108; 108; 111] VVoid_) (Some
  [104; 101; 108; 108; 111; 32; 119; 111; 114; 108; 100]) (Some start))) (Some [32; 119;
  111; 114; 108; 100]).
Proof. intros []; vm_compute; reflexivity. Qed.

Example test_keyword_6_test_no_match_at_end : forall d,
  is_error (run d (PKeyword [104; 101; 108; 108; 111] VVoid_) (Some [104; 101; 108; 108;
  120]) (Some start)) = Some true.
Proof. intros []; vm_compute; reflexivity. Qed.

Example test_keyword_7_test_no_match_in_the_middle : forall d,
  is_error (run d (PKeyword [104; 101; 108; 108; 111] VVoid_) (Some [104; 120; 108; 108;
  111]) (Some start)) = Some true.
Proof. intros []; vm_compute; reflexivity. Qed.


(** /repo/test/last_of.cpp *)

Example test_last_of_1_test_one_char : forall d,
  same_number (get_result (run d (PLastOf [(PLitC 104)]) (Some [104; 101; 108; 108;
  111]) (Some start))) (Some (VChar 104)) = Some true.
Proof. intros []; vm_compute; reflexivity. Qed.

Example test_last_of_2_test_two_chars : forall d,
  same_number (get_result (run d (PLastOf [(PLitC 104); (PLitC 101)]) (Some [104; 101;
  108; 108; 111]) (Some start))) (Some (VChar 101)) = Some true.
Proof. intros []; vm_compute; reflexivity. Qed.

Example test_last_of_3_test_first_fails : forall d,
  is_error (run d (PLastOf [(PLitC 120); (PLitC 101)]) (Some [104; 101; 108; 108; 111])
  (Some start)) = Some true.
Proof. intros []; vm_compute; reflexivity. Qed.

Example test_last_of_4_test_second_fails : forall d,
  is_error (run d (PLastOf [(PLitC 104); (PLitC 120)]) (Some [104; 101; 108; 108; 111])
  (Some start)) = Some true.
Proof. intros []; vm_compute; reflexivity. Qed.

Example test_last_of_5_test_empty_input : forall d,
  is_error (run d (PLastOf [(PLitC 104); (PLitC 101)]) (Some []) (Some start)) = Some
  true.
Proof. intros []; vm_compute; reflexivity. Qed.

Example test_last_of_6_test_three_chars : forall d,
  same_number (get_result (run d (PLastOf [(PLitC 104); (PLitC 101); (PLitC 108)]) (Some
  [104; 101; 108; 108; 111]) (Some start))) (Some (VChar 108)) = Some true.
Proof. intros []; vm_compute; reflexivity. Qed.


(** /repo/test/letter.cpp *)

Example test_letter_1_test_with_text : forall d,
  same_number (get_result (run d PLetter (Some [104; 101; 108; 108; 111]) (Some start)))
  (Some (VChar 104)) = Some true.
Proof. intros []; vm_compute; reflexivity. Qed.

Example test_letter_2_test_with_number : forall d,
  is_error (run d PLetter (Some [49; 57; 56; 51]) (Some start)) = Some true.
Proof. intros []; vm_compute; reflexivity. Qed.

Example test_letter_3_test_with_empty_string : forall d,
  is_error (run d PLetter (Some []) (Some start)) = Some true.
Proof. intros []; vm_compute; reflexivity. Qed.


(** /repo/test/lit.cpp *)

Example test_lit_1_test_accept : forall d,
  same_number (get_result (run d (PLitC 104) (Some [104; 101; 108; 108; 111]) (Some
  start))) (Some (VChar 104)) = Some true.
Proof. intros []; vm_compute; reflexivity. Qed.

Example test_lit_2_test_reject : forall d,
  is_error (run d (PLitC 104) (Some [98; 101; 108; 108; 111]) (Some start)) = Some true.
Proof. intros []; vm_compute; reflexivity. Qed.

Example test_lit_3_test_with_empty_string : forall d,
  is_error (run d (PLitC 104) (Some []) (Some start)) = Some true.
Proof. intros []; vm_compute; reflexivity. Qed.

Example test_lit_4_test_error_with_empty_string : forall d,
  defined_same (Some (literal_expected 104)) (get_message (run d (PLitC 104) (Some [])
  (Some start))).
Proof. intros []; vm_compute; reflexivity. Qed.

Example test_lit_5_test_remaining_string : forall d,
  same_number (get_result (run d (PLitC 101) (get_remaining (run d (PLitC 104) (Some
  [104; 101; 108; 108; 111]) (Some start))) (get_position (run d (PLitC 104) (Some [104;
  101; 108; 108; 111]) (Some start))))) (Some (VChar 101)) = Some true.
Proof. intros []; vm_compute; reflexivity. Qed.


(** /repo/test/lit_c.cpp *)

Example test_lit_c_1_test_accept : forall d,
  same_number (get_result (run d (PLitC 104) (Some [104; 101; 108; 108; 111]) (Some
  start))) (Some (VChar 104)) = Some true.
Proof. intros []; vm_compute; reflexivity. Qed.

Example test_lit_c_2_test_reject : forall d,
  is_error (run d (PLitC 104) (Some [98; 101; 108; 108; 111]) (Some start)) = Some true.
Proof. intros []; vm_compute; reflexivity. Qed.

Example test_lit_c_3_test_with_empty_string : forall d,
  is_error (run d (PLitC 104) (Some []) (Some start)) = Some true.
Proof. intros []; vm_compute; reflexivity. Qed.

Example test_lit_c_4_test_error_with_empty_string : forall d,
  defined_same (Some (literal_expected 104)) (get_message (run d (PLitC 104) (Some [])
  (Some start))).
Proof. intros []; vm_compute; reflexivity. Qed.

Example test_lit_c_5_test_remaining_string : forall d,
  same_number (get_result (run d (PLitC 101) (get_remaining (run d (PLitC 104) (Some
  [104; 101; 108; 108; 111]) (Some start))) (get_position (run d (PLitC 104) (Some [104;
  101; 108; 108; 111]) (Some start))))) (Some (VChar 101)) = Some true.
Proof. intros []; vm_compute; reflexivity. Qed.


(** /repo/test/look_ahead.cpp *)

Example test_look_ahead_1_test_returns_result : forall d,
  same_number (Some (VInt 1)) (get_result (run d (PLookAhead PDigitVal) (Some [49; 57;
  56; 51]) (Some start))) = Some true.
Proof. intros []; vm_compute; reflexivity. Qed.

Example test_look_ahead_2_test_returns_error : forall d,
  is_error (run d (PLookAhead (PFail (UserMsg 113))) (Some [49; 57; 56; 51]) (Some
  start)) = Some true.
Proof. intros []; vm_compute; reflexivity. Qed.

Example test_look_ahead_3_test_doesnt_process_input : forall d,
  defined_same (Some [49; 57; 56; 51]) (get_remaining (run d (PLookAhead PDigitVal)
  (Some [49; 57; 56; 51]) (Some start))).
Proof. intros []; vm_compute; reflexivity. Qed.


(** /repo/test/middle_of.cpp *)

Example test_middle_of_1_test_three_chars : forall d,
  same_number (get_result (run d (PMiddleOf (PLitC 104) (PLitC 101) (PLitC 108)) (Some
  [104; 101; 108; 108; 111]) (Some start))) (Some (VChar 101)) = Some true.
Proof. intros []; vm_compute; reflexivity. Qed.

Example test_middle_of_2_test_first_fails : forall d,
  is_error (run d (PMiddleOf (PLitC 120) (PLitC 101) (PLitC 108)) (Some [104; 101; 108;
  108; 111]) (Some start)) = Some true.
Proof. intros []; vm_compute; reflexivity. Qed.

Example test_middle_of_3_test_second_fails : forall d,
  is_error (run d (PMiddleOf (PLitC 104) (PLitC 120) (PLitC 108)) (Some [104; 101; 108;
  108; 111]) (Some start)) = Some true.
Proof. intros []; vm_compute; reflexivity. Qed.

Example test_middle_of_4_test_third_fails : forall d,
  is_error (run d (PMiddleOf (PLitC 104) (PLitC 101) (PLitC 120)) (Some [104; 101; 108;
  108; 111]) (Some start)) = Some true.
Proof. intros []; vm_compute; reflexivity. Qed.

Example test_middle_of_5_test_error_message_when_third_fails : forall d,
  defined_same (Some (unpaired 1 1 (literal_expected 120))) (get_message (run d
  (PMiddleOf (PLitC 104) (PLitC 101) (PLitC 120)) (Some [104; 101; 108; 108; 111]) (Some
  start))).
Proof. intros []; vm_compute; reflexivity. Qed.

Example test_middle_of_6_test_empty_input : forall d,
  is_error (run d (PMiddleOf (PLitC 104) (PLitC 101) (PLitC 108)) (Some []) (Some
  start)) = Some true.
Proof. intros []; vm_compute; reflexivity. Qed.


(** /repo/test/next_digit.cpp *)

Example test_next_digit_1_assert :
  same_number (Some (VInt 0)) (next_digit (VInt 0) (VInt 0)) = Some true.
Proof. vm_compute; reflexivity. Qed.

Example test_next_digit_2_assert :
  same_number (Some (VInt 10)) (next_digit (VInt 1) (VInt 0)) = Some true.
Proof. vm_compute; reflexivity. Qed.

Example test_next_digit_3_assert :
  same_number (Some (VInt 13)) (next_digit (VInt 1) (VInt 3)) = Some true.
Proof. vm_compute; reflexivity. Qed.


(** /repo/test/nth_of.cpp *)

Example test_nth_of_1_test_first_of_one : forall d,
  same_number (get_result (run d (PNthOf 0 [(PLitC 104)]) (Some [104; 101; 108; 108;
  111]) (Some start))) (Some (VChar 104)) = Some true.
Proof. intros []; vm_compute; reflexivity. Qed.

Example test_nth_of_2_test_first_of_two : forall d,
  same_number (get_result (run d (PNthOf 0 [(PLitC 104); (PLitC 101)]) (Some [104; 101;
  108; 108; 111]) (Some start))) (Some (VChar 104)) = Some true.
Proof. intros []; vm_compute; reflexivity. Qed.

Example test_nth_of_3_test_second_of_two : forall d,
  same_number (get_result (run d (PNthOf 1 [(PLitC 104); (PLitC 101)]) (Some [104; 101;
  108; 108; 111]) (Some start))) (Some (VChar 101)) = Some true.
Proof. intros []; vm_compute; reflexivity. Qed.

Example test_nth_of_4_test_nothing : forall d,
  is_error (run d (PNthOf 1 [(PLitC 120); (PLitC 101)]) (Some [104; 101; 108; 108; 111])
  (Some start)) = Some true.
Proof. intros []; vm_compute; reflexivity. Qed.

Example test_nth_of_5_test_first_of_none : forall d,
  is_error (run d (PNthOf 0 []) (Some [104; 101; 108; 108; 111]) (Some start)) = Some
  true.
Proof. intros []; vm_compute; reflexivity. Qed.

Example test_nth_of_6_test_n_is_less_than_zero : forall d,
  is_error (run d (PNthOf (-1) [(PLitC 104); (PLitC 101)]) (Some [104; 101; 108; 108;
  111]) (Some start)) = Some true.
Proof. intros []; vm_compute; reflexivity. Qed.

Example test_nth_of_7_test_n_is_greater_than_the_number_of_parsers : forall d,
  is_error (run d (PNthOf 2 [(PLitC 104); (PLitC 101)]) (Some [104; 101; 108; 108; 111])
  (Some start)) = Some true.
Proof. intros []; vm_compute; reflexivity. Qed.

Example test_nth_of_8_test_error_before_the_nth : forall d,
  is_error (run d (PNthOf 1 [(PLitC 120); (PLitC 101); (PLitC 108)]) (Some [104; 101;
  108; 108; 111]) (Some start)) = Some true.
Proof. intros []; vm_compute; reflexivity. Qed.

Example test_nth_of_9_test_error_at_the_nth : forall d,
  is_error (run d (PNthOf 1 [(PLitC 104); (PLitC 120); (PLitC 108)]) (Some [104; 101;
  108; 108; 111]) (Some start)) = Some true.
Proof. intros []; vm_compute; reflexivity. Qed.

Example test_nth_of_10_test_error_after_the_nth : forall d,
  is_error (run d (PNthOf 1 [(PLitC 104); (PLitC 101); (PLitC 120)]) (Some [104; 101;
  108; 108; 111]) (Some start)) = Some true.
Proof. intros []; vm_compute; reflexivity. Qed.


(** /repo/test/one_char.cpp *)

Example test_one_char_1_test_for_non_empty_string : forall d,
  same_number (get_result (run d POneChar (Some [104; 101; 108; 108; 111]) (Some
  start))) (Some (VChar 104)) = Some true.
Proof. intros []; vm_compute; reflexivity. Qed.

Example test_one_char_2_test_for_non_empty_string_second : forall d,
  same_number (get_result (run d POneChar (get_remaining (run d POneChar (Some [104;
  101; 108; 108; 111]) (Some start))) (get_position (run d POneChar (Some [104; 101;
  108; 108; 111]) (Some start))))) (Some (VChar 101)) = Some true.
Proof. intros []; vm_compute; reflexivity. Qed.

Example test_one_char_3_test_for_empty_string : forall d,
  is_error (run d POneChar (Some []) (Some start)) = Some true.
Proof. intros []; vm_compute; reflexivity. Qed.

Example test_one_char_4_test_unix_multi_line_text : forall d,
  same_number (Some (VInt 2)) (option_map (fun p => VInt (line p)) (get_position (run d
  (PIterate POneChar 2) (Some [97; 10; 98]) (Some start)))) = Some true.
Proof. intros []; vm_compute; reflexivity. Qed.

Example test_one_char_5_test_dos_multi_line_text : forall d,
  same_number (Some (VInt 2)) (option_map (fun p => VInt (line p)) (get_position (run d
  (PIterate POneChar 3) (Some [97; 13; 10; 98]) (Some start)))) = Some true.
Proof. intros []; vm_compute; reflexivity. Qed.

Example test_one_char_6_test_mac_multi_line_text : forall d,
  same_number (Some (VInt 2)) (option_map (fun p => VInt (line p)) (get_position (run d
  (PIterate POneChar 2) (Some [97; 13; 98]) (Some start)))) = Some true.
Proof. intros []; vm_compute; reflexivity. Qed.


(** /repo/test/one_char_except.cpp *)

Example test_one_char_except_1_rejects_except_char : forall d,
  is_error (run d (POneCharExceptC [48; 49]) (Some [48]) (Some start)) = Some true.
Proof. intros []; vm_compute; reflexivity. Qed.

Example test_one_char_except_2_rejects_other_except_char : forall d,
  is_error (run d (POneCharExceptC [48; 49]) (Some [49]) (Some start)) = Some true.
Proof. intros []; vm_compute; reflexivity. Qed.

Example test_one_char_except_3_test_for_non_empty_string : forall d,
  same_number (get_result (run d (POneCharExceptC [48; 49]) (Some [104; 101; 108; 108;
  111]) (Some start))) (Some (VChar 104)) = Some true.
Proof. intros []; vm_compute; reflexivity. Qed.

Example test_one_char_except_4_test_for_non_empty_string_second : forall d,
  same_number (get_result (run d (POneCharExceptC [48; 49]) (get_remaining (run d
  (POneCharExceptC [48; 49]) (Some [104; 101; 108; 108; 111]) (Some start)))
  (get_position (run d (POneCharExceptC [48; 49]) (Some [104; 101; 108; 108; 111]) (Some
  start))))) (Some (VChar 101)) = Some true.
Proof. intros []; vm_compute; reflexivity. Qed.

Example test_one_char_except_5_test_for_empty_string : forall d,
  is_error (run d (POneCharExceptC [48; 49]) (Some []) (Some start)) = Some true.
Proof. intros []; vm_compute; reflexivity. Qed.

Example test_one_char_except_6_test_unix_multi_line_text : forall d,
  same_number (Some (VInt 2)) (option_map (fun p => VInt (line p)) (get_position (run d
  (PIterate (POneCharExceptC [48; 49]) 2) (Some [97; 10; 98]) (Some start)))) = Some
  true.
Proof. intros []; vm_compute; reflexivity. Qed.

Example test_one_char_except_7_test_dos_multi_line_text : forall d,
  same_number (Some (VInt 2)) (option_map (fun p => VInt (line p)) (get_position (run d
  (PIterate (POneCharExceptC [48; 49]) 3) (Some [97; 13; 10; 98]) (Some start)))) = Some
  true.
Proof. intros []; vm_compute; reflexivity. Qed.

Example test_one_char_except_8_test_mac_multi_line_text : forall d,
  same_number (Some (VInt 2)) (option_map (fun p => VInt (line p)) (get_position (run d
  (PIterate (POneCharExceptC [48; 49]) 2) (Some [97; 13; 98]) (Some start)))) = Some
  true.
Proof. intros []; vm_compute; reflexivity. Qed.


(** /repo/test/one_char_except_c.cpp *)

Example test_one_char_except_c_1_rejects_except_char : forall d,
  is_error (run d (POneCharExceptC [48; 49]) (Some [48]) (Some start)) = Some true.
Proof. intros []; vm_compute; reflexivity. Qed.

Example test_one_char_except_c_2_rejects_other_except_char : forall d,
  is_error (run d (POneCharExceptC [48; 49]) (Some [49]) (Some start)) = Some true.
Proof. intros []; vm_compute; reflexivity. Qed.

Example test_one_char_except_c_3_test_for_non_empty_string : forall d,
  same_number (get_result (run d (POneCharExceptC [48; 49]) (Some [104; 101; 108; 108;
  111]) (Some start))) (Some (VChar 104)) = Some true.
Proof. intros []; vm_compute; reflexivity. Qed.

Example test_one_char_except_c_4_test_for_non_empty_string_second : forall d,
  same_number (get_result (run d (POneCharExceptC [48; 49]) (get_remaining (run d
  (POneCharExceptC [48; 49]) (Some [104; 101; 108; 108; 111]) (Some start)))
  (get_position (run d (POneCharExceptC [48; 49]) (Some [104; 101; 108; 108; 111]) (Some
  start))))) (Some (VChar 101)) = Some true.
Proof. intros []; vm_compute; reflexivity. Qed.

Example test_one_char_except_c_5_test_for_empty_string : forall d,
  is_error (run d (POneCharExceptC [48; 49]) (Some []) (Some start)) = Some true.
Proof. intros []; vm_compute; reflexivity. Qed.

Example test_one_char_except_c_6_test_unix_multi_line_text : forall d,
  same_number (Some (VInt 2)) (option_map (fun p => VInt (line p)) (get_position (run d
  (PIterate (POneCharExceptC [48; 49]) 2) (Some [97; 10; 98]) (Some start)))) = Some
  true.
Proof. intros []; vm_compute; reflexivity. Qed.

Example test_one_char_except_c_7_test_dos_multi_line_text : forall d,
  same_number (Some (VInt 2)) (option_map (fun p => VInt (line p)) (get_position (run d
  (PIterate (POneCharExceptC [48; 49]) 3) (Some [97; 13; 10; 98]) (Some start)))) = Some
  true.
Proof. intros []; vm_compute; reflexivity. Qed.

Example test_one_char_except_c_8_test_mac_multi_line_text : forall d,
  same_number (Some (VInt 2)) (option_map (fun p => VInt (line p)) (get_position (run d
  (PIterate (POneCharExceptC [48; 49]) 2) (Some [97; 13; 98]) (Some start)))) = Some
  true.
Proof. intros []; vm_compute; reflexivity. Qed.


(** /repo/test/one_of.cpp *)

Example test_one_of_1_test_1_with_good : forall d,
  same_number (get_result (run d (POneOf [POneChar]) (Some [104; 101; 108; 108; 111])
  (Some start))) (Some (VChar 104)) = Some true.
Proof. intros []; vm_compute; reflexivity. Qed.

Example test_one_of_2_test_1_with_bad : forall d,
  is_error (run d (POneOf [(PFail (UserMsg 0))]) (Some [104; 101; 108; 108; 111]) (Some
  start)) = Some true.
Proof. intros []; vm_compute; reflexivity. Qed.

Example test_one_of_3_test_2_with_two_good : forall d,
  same_number (get_result (run d (POneOf [POneChar; POneChar]) (Some [104; 101; 108;
  108; 111]) (Some start))) (Some (VChar 104)) = Some true.
Proof. intros []; vm_compute; reflexivity. Qed.

Example test_one_of_4_test_2_with_first_good : forall d,
  same_number (get_result (run d (POneOf [POneChar; (PFail (UserMsg 0))]) (Some [104;
  101; 108; 108; 111]) (Some start))) (Some (VChar 104)) = Some true.
Proof. intros []; vm_compute; reflexivity. Qed.

Example test_one_of_5_test_2_with_second_good : forall d,
  same_number (get_result (run d (POneOf [(PFail (UserMsg 0)); POneChar]) (Some [104;
  101; 108; 108; 111]) (Some start))) (Some (VChar 104)) = Some true.
Proof. intros []; vm_compute; reflexivity. Qed.

Example test_one_of_6_test_2_with_two_bad : forall d,
  is_error (run d (POneOf [(PFail (UserMsg 0)); (PFail (UserMsg 0))]) (Some [104; 101;
  108; 108; 111]) (Some start)) = Some true.
Proof. intros []; vm_compute; reflexivity. Qed.

Example test_one_of_7_test : forall d,
  is_error (run d (POneOf []) (Some [104; 101; 108; 108; 111]) (Some start)) = Some true.
Proof. intros []; vm_compute; reflexivity. Qed.

Example test_one_of_8_test_with_good : forall d,
  same_number (get_result (run d (POneOf [POneChar]) (Some [104; 101; 108; 108; 111])
  (Some start))) (Some (VChar 104)) = Some true.
Proof. intros []; vm_compute; reflexivity. Qed.

Example test_one_of_9_test_with_bad : forall d,
  is_error (run d (POneOf [(PFail (UserMsg 0))]) (Some [104; 101; 108; 108; 111]) (Some
  start)) = Some true.
Proof. intros []; vm_compute; reflexivity. Qed.

Example test_one_of_10_test_with_two_good : forall d,
  same_number (get_result (run d (POneOf [POneChar; POneChar]) (Some [104; 101; 108;
  108; 111]) (Some start))) (Some (VChar 104)) = Some true.
Proof. intros []; vm_compute; reflexivity. Qed.

Example test_one_of_11_test_with_first_good : forall d,
  same_number (get_result (run d (POneOf [POneChar; (PFail (UserMsg 0))]) (Some [104;
  101; 108; 108; 111]) (Some start))) (Some (VChar 104)) = Some true.
Proof. intros []; vm_compute; reflexivity. Qed.

Example test_one_of_12_test_with_second_good : forall d,
  same_number (get_result (run d (POneOf [(PFail (UserMsg 0)); POneChar]) (Some [104;
  101; 108; 108; 111]) (Some start))) (Some (VChar 104)) = Some true.
Proof. intros []; vm_compute; reflexivity. Qed.

Example test_one_of_13_test_with_two_bad : forall d,
  is_error (run d (POneOf [(PFail (UserMsg 0)); (PFail (UserMsg 0))]) (Some [104; 101;
  108; 108; 111]) (Some start)) = Some true.
Proof. intros []; vm_compute; reflexivity. Qed.

Example test_one_of_14_test_error_is_the_last_error : forall d,
  holds2 pos_equal_to (option_map (fun p => next_char p 104) (Some start)) (get_position
  (run d (POneOf [(PFail (UserMsg 0)); (PSequence [POneChar; (PFail (UserMsg 0))])])
  (Some [104; 101; 108; 108; 111]) (Some start))) = Some true.
Proof. intros []; vm_compute; reflexivity. Qed.


(** /repo/test/one_of_c.cpp *)

Example test_one_of_c_1_test0 : forall d,
  is_error (run d (POneOfC []) (Some [104; 101; 108; 108; 111]) (Some start)) = Some
  true.
Proof. intros []; vm_compute; reflexivity. Qed.

Example test_one_of_c_2_test_1_with_good : forall d,
  same_number (get_result (run d (POneOfC [104]) (Some [104; 101; 108; 108; 111]) (Some
  start))) (Some (VChar 104)) = Some true.
Proof. intros []; vm_compute; reflexivity. Qed.

Example test_one_of_c_3_test_1_with_bad : forall d,
  is_error (run d (POneOfC [120]) (Some [104; 101; 108; 108; 111]) (Some start)) = Some
  true.
Proof. intros []; vm_compute; reflexivity. Qed.

Example test_one_of_c_4_test_2_with_two_good : forall d,
  same_number (get_result (run d (POneOfC [104; 120]) (Some [104; 101; 108; 108; 111])
  (Some start))) (Some (VChar 104)) = Some true.
Proof. intros []; vm_compute; reflexivity. Qed.

Example test_one_of_c_5_test_2_with_first_good : forall d,
  same_number (get_result (run d (POneOfC [104; 120]) (Some [104; 101; 108; 108; 111])
  (Some start))) (Some (VChar 104)) = Some true.
Proof. intros []; vm_compute; reflexivity. Qed.

Example test_one_of_c_6_test_2_with_second_good : forall d,
  same_number (get_result (run d (POneOfC [120; 104]) (Some [104; 101; 108; 108; 111])
  (Some start))) (Some (VChar 104)) = Some true.
Proof. intros []; vm_compute; reflexivity. Qed.

Example test_one_of_c_7_test_2_with_two_bad : forall d,
  is_error (run d (POneOfC [120; 121]) (Some [104; 101; 108; 108; 111]) (Some start)) =
  Some true.
Proof. intros []; vm_compute; reflexivity. Qed.


(** /repo/test/optional.cpp *)

Example test_optional_1_test_optional_parser_succeeds : forall d,
  same_number (Some (VChar 120)) (get_result (run d (POptional (PLitC 120) (VTmpl 100
  [])) (Some [120]) (Some start))) = Some true.
Proof. intros []; vm_compute; reflexivity. Qed.

Example test_optional_2_test_optional_parser_fails : forall d,
  defined_same (Some (VTmpl 100 [])) (get_result (run d (POptional (PLitC 120) (VTmpl
  100 [])) (Some [121]) (Some start))).
Proof. intros []; vm_compute; reflexivity. Qed.

Example test_optional_3_test_optional_parser_default_value : forall d,
  defined_same (Some VVoid) (get_result (run d (POptional (PLitC 120) VVoid) (Some
  [121]) (Some start))).
Proof. intros []; vm_compute; reflexivity. Qed.


(** /repo/test/pop_back.cpp *)

Example test_pop_back_1_test_pop_back_11 :
  holds2 equal_to_11 (Some [104; 101; 108; 108]) (bind (Some [104; 101; 108; 108; 111])
  (fun s => pop_back_11 s)) = Some true.
Proof. vm_compute; reflexivity. Qed.

Example test_pop_back_1_test_pop_back_98 :
  holds2 equal_to_98 (Some (string_98 32 [104; 101; 108; 108])) (bind (Some (string_98
  32 [104; 101; 108; 108; 111])) (fun s => pop_back_98 32 s)) = Some true.
Proof. vm_compute; reflexivity. Qed.

Example test_pop_back_2_test_pop_back_one_element_11 :
  holds2 equal_to_11 (Some []) (bind (Some [120]) (fun s => pop_back_11 s)) = Some true.
Proof. vm_compute; reflexivity. Qed.

Example test_pop_back_2_test_pop_back_one_element_98 :
  holds2 equal_to_98 (Some (string_98 32 [])) (bind (Some (string_98 32 [120])) (fun s
  => pop_back_98 32 s)) = Some true.
Proof. vm_compute; reflexivity. Qed.


(** /repo/test/pop_front.cpp *)

Example test_pop_front_1_test_pop_front_11 :
  holds2 equal_to_11 (Some [101; 108; 108; 111]) (bind (Some [104; 101; 108; 108; 111])
  (fun s => pop_front_11 s)) = Some true.
Proof. vm_compute; reflexivity. Qed.

Example test_pop_front_1_test_pop_front_98 :
  holds2 equal_to_98 (Some (string_98 32 [101; 108; 108; 111])) (bind (Some (string_98
  32 [104; 101; 108; 108; 111])) (fun s => Some (pop_front_98 s))) = Some true.
Proof. vm_compute; reflexivity. Qed.

Example test_pop_front_2_test_pop_front_one_element_11 :
  holds2 equal_to_11 (Some []) (bind (Some [120]) (fun s => pop_front_11 s)) = Some true.
Proof. vm_compute; reflexivity. Qed.

Example test_pop_front_2_test_pop_front_one_element_98 :
  holds2 equal_to_98 (Some (string_98 32 [])) (bind (Some (string_98 32 [120])) (fun s
  => Some (pop_front_98 s))) = Some true.
Proof. vm_compute; reflexivity. Qed.


(** /repo/test/push_back_c.cpp *)

Example test_push_back_c_1_test_push_back_11 :
  holds2 equal_to_11 (Some [104; 101; 108; 108; 111]) (bind (Some [104; 101; 108; 108])
  (fun s => Some (push_back_c_11 s 111))) = Some true.
Proof. vm_compute; reflexivity. Qed.

Example test_push_back_c_1_test_push_back_98 :
  holds2 equal_to_98 (Some (string_98 32 [104; 101; 108; 108; 111])) (bind (Some
  (string_98 32 [104; 101; 108; 108])) (fun s => push_back_c_98 32 s 111)) = Some true.
Proof. vm_compute; reflexivity. Qed.

Example test_push_back_c_2_test_push_back_to_empty_11 :
  holds2 equal_to_11 (Some [120]) (bind (Some []) (fun s => Some (push_back_c_11 s
  120))) = Some true.
Proof. vm_compute; reflexivity. Qed.

Example test_push_back_c_2_test_push_back_to_empty_98 :
  holds2 equal_to_98 (Some (string_98 32 [120])) (bind (Some (string_98 32 [])) (fun s
  => push_back_c_98 32 s 120)) = Some true.
Proof. vm_compute; reflexivity. Qed.


(** /repo/test/push_front_c.cpp *)

Example test_push_front_c_1_test_push_front_11 :
  holds2 equal_to_11 (Some [104; 101; 108; 108; 111]) (bind (Some [101; 108; 108; 111])
  (fun s => Some (push_front_c_11 s 104))) = Some true.
Proof. vm_compute; reflexivity. Qed.

Example test_push_front_c_1_test_push_front_98 :
  holds2 equal_to_98 (Some (string_98 32 [104; 101; 108; 108; 111])) (bind (Some
  (string_98 32 [101; 108; 108; 111])) (fun s => Some (push_front_c_98 32 s 104))) =
  Some true.
Proof. vm_compute; reflexivity. Qed.

Example test_push_front_c_2_test_push_front_to_empty_11 :
  holds2 equal_to_11 (Some [120]) (bind (Some []) (fun s => Some (push_front_c_11 s
  120))) = Some true.
Proof. vm_compute; reflexivity. Qed.

Example test_push_front_c_2_test_push_front_to_empty_98 :
  holds2 equal_to_98 (Some (string_98 32 [120])) (bind (Some (string_98 32 [])) (fun s
  => Some (push_front_c_98 32 s 120))) = Some true.
Proof. vm_compute; reflexivity. Qed.


(** /repo/test/range.cpp *)

Example test_range_1_test_with_text : forall d,
  is_error (run d (PRangeC 48 57) (Some [104; 101; 108; 108; 111]) (Some start)) = Some
  true.
Proof. intros []; vm_compute; reflexivity. Qed.

Example test_range_2_test_with_number : forall d,
  same_number (get_result (run d (PRangeC 48 57) (Some [49; 57; 56; 51]) (Some start)))
  (Some (VChar 49)) = Some true.
Proof. intros []; vm_compute; reflexivity. Qed.

Example test_range_3_test_with_empty_string : forall d,
  is_error (run d (PRangeC 48 57) (Some []) (Some start)) = Some true.
Proof. intros []; vm_compute; reflexivity. Qed.


(** /repo/test/range_c.cpp *)

Example test_range_c_1_test_with_text : forall d,
  is_error (run d (PRangeC 48 57) (Some [104; 101; 108; 108; 111]) (Some start)) = Some
  true.
Proof. intros []; vm_compute; reflexivity. Qed.

Example test_range_c_2_test_with_number : forall d,
  same_number (get_result (run d (PRangeC 48 57) (Some [49; 57; 56; 51]) (Some start)))
  (Some (VChar 49)) = Some true.
Proof. intros []; vm_compute; reflexivity. Qed.

Example test_range_c_3_test_with_empty_string : forall d,
  is_error (run d (PRangeC 48 57) (Some []) (Some start)) = Some true.
Proof. intros []; vm_compute; reflexivity. Qed.


(** /repo/test/reject.cpp *)

Example test_reject_1_test_reject_is_metaprogramming_value :
  reject_at (UserMsg 4) (Some start) = reject_at (UserMsg 4) (Some start).
Proof. vm_compute; reflexivity. Qed.

Example test_reject_3_test_get_message_of_reject :
  defined_same (Some (UserMsg 4)) (get_message (reject_at (UserMsg 4) (Some start))).
Proof. vm_compute; reflexivity. Qed.

Example test_reject_4_test_get_position_of_reject :
  defined_same (Some start) (get_position (reject_at (UserMsg 4) (Some start))).
Proof. vm_compute; reflexivity. Qed.


(** /repo/test/repeated.cpp *)

Example test_repeated_1_test_empty_input : forall d,
  defined_same (get_result (run d (PRepeated PLetter) (Some []) (Some start))) (Some
  (VSeq [])).
Proof. intros []; vm_compute; reflexivity. Qed.

Example test_repeated_2_test0 : forall d,
  defined_same (get_result (run d (PRepeated PLetter) (Some [48; 101; 108; 108; 111])
  (Some start))) (Some (VSeq [])).
Proof. intros []; vm_compute; reflexivity. Qed.

Example test_repeated_3_test1 : forall d,
  defined_same (get_result (run d (PRepeated PLetter) (Some [104; 48; 108; 108; 111])
  (Some start))) (Some (VSeq [VChar 104])).
Proof. intros []; vm_compute; reflexivity. Qed.

Example test_repeated_4_test2 : forall d,
  defined_same (get_result (run d (PRepeated PLetter) (Some [104; 101; 48; 108; 111])
  (Some start))) (Some (VSeq [VChar 104; VChar 101])).
Proof. intros []; vm_compute; reflexivity. Qed.

Example test_repeated_5_test3 : forall d,
  defined_same (get_result (run d (PRepeated PLetter) (Some [104; 101; 108; 48; 111])
  (Some start))) (Some (VSeq [VChar 104; VChar 101; VChar 108])).
Proof. intros []; vm_compute; reflexivity. Qed.

Example test_repeated_6_test4 : forall d,
  defined_same (get_result (run d (PRepeated PLetter) (Some [104; 101; 108; 108; 48])
  (Some start))) (Some (VSeq [VChar 104; VChar 101; VChar 108; VChar 108])).
Proof. intros []; vm_compute; reflexivity. Qed.

Example test_repeated_7_test5 : forall d,
  defined_same (get_result (run d (PRepeated PLetter) (Some [104; 101; 108; 108; 111])
  (Some start))) (Some (VSeq [VChar 104; VChar 101; VChar 108; VChar 108; VChar 111])).
Proof. intros []; vm_compute; reflexivity. Qed.

Example test_repeated_8_test_length : forall d,
  same_number (bind (get_result (run d (PRepeated PLetter) (Some [104; 101; 108; 48;
  111]) (Some start))) (fun l => match l with VSeq vs => Some (VInt (Z.of_nat (length
  vs))) | _ => None end)) (Some (VInt 3)) = Some true.
Proof. intros []; vm_compute; reflexivity. Qed.

Example test_repeated_9_test_no_extra_evaluation : forall d,
  defined_same (get_result (run d (PRepeated (PAlways POneChar (VTmpl 101 []))) (Some
  [99; 97]) (Some start))) (Some (VSeq [(VTmpl 101 []); (VTmpl 101 [])])).
Proof. intros []; vm_compute; reflexivity. Qed.


(** /repo/test/repeated1.cpp *)

Example test_repeated1_1_test_empty_input : forall d,
  is_error (run d (PRepeated1 PLetter) (Some []) (Some start)) = Some true.
Proof. intros []; vm_compute; reflexivity. Qed.

Example test_repeated1_2_test0 : forall d,
  is_error (run d (PRepeated1 PLetter) (Some [48; 101; 108; 108; 111]) (Some start)) =
  Some true.
Proof. intros []; vm_compute; reflexivity. Qed.

Example test_repeated1_3_test1 : forall d,
  defined_same (get_result (run d (PRepeated1 PLetter) (Some [104; 48; 108; 108; 111])
  (Some start))) (Some (VSeq [VChar 104])).
Proof. intros []; vm_compute; reflexivity. Qed.

Example test_repeated1_4_test2 : forall d,
  defined_same (get_result (run d (PRepeated1 PLetter) (Some [104; 101; 48; 108; 111])
  (Some start))) (Some (VSeq [VChar 104; VChar 101])).
Proof. intros []; vm_compute; reflexivity. Qed.

Example test_repeated1_5_test3 : forall d,
  defined_same (get_result (run d (PRepeated1 PLetter) (Some [104; 101; 108; 48; 111])
  (Some start))) (Some (VSeq [VChar 104; VChar 101; VChar 108])).
Proof. intros []; vm_compute; reflexivity. Qed.

Example test_repeated1_6_test4 : forall d,
  defined_same (get_result (run d (PRepeated1 PLetter) (Some [104; 101; 108; 108; 48])
  (Some start))) (Some (VSeq [VChar 104; VChar 101; VChar 108; VChar 108])).
Proof. intros []; vm_compute; reflexivity. Qed.

Example test_repeated1_7_test5 : forall d,
  defined_same (get_result (run d (PRepeated1 PLetter) (Some [104; 101; 108; 108; 111])
  (Some start))) (Some (VSeq [VChar 104; VChar 101; VChar 108; VChar 108; VChar 111])).
Proof. intros []; vm_compute; reflexivity. Qed.

Example test_repeated1_8_test_no_extra_evaluation : forall d,
  defined_same (get_result (run d (PRepeated1 (PAlways POneChar (VTmpl 101 []))) (Some
  [99; 97]) (Some start))) (Some (VSeq [(VTmpl 101 []); (VTmpl 101 [])])).
Proof. intros []; vm_compute; reflexivity. Qed.


(** /repo/test/repeated_one_of.cpp *)

Example test_repeated_one_of_1_test0 : forall d,
  defined_same (get_result (run d (PRepeatedOneOf []) (Some [104; 101; 108; 108; 111])
  (Some start))) (Some (VSeq [])).
Proof. intros []; vm_compute; reflexivity. Qed.

Example test_repeated_one_of_2_test_good_sequence : forall d,
  defined_same (get_result (run d (PRepeatedOneOf [POneChar]) (Some [104; 101; 108; 108;
  111]) (Some start))) (Some (VSeq [VChar 104; VChar 101; VChar 108; VChar 108; VChar
  111])).
Proof. intros []; vm_compute; reflexivity. Qed.

Example test_repeated_one_of_3_test_1_with_bad : forall d,
  defined_same (get_result (run d (PRepeatedOneOf [(PFail (UserMsg 0))]) (Some [104;
  101; 108; 108; 111]) (Some start))) (Some (VSeq [])).
Proof. intros []; vm_compute; reflexivity. Qed.

Example test_repeated_one_of_4_test_2_with_first_good : forall d,
  defined_same (get_result (run d (PRepeatedOneOf [POneChar; (PFail (UserMsg 0))]) (Some
  [104; 101; 108; 108; 111]) (Some start))) (Some (VSeq [VChar 104; VChar 101; VChar
  108; VChar 108; VChar 111])).
Proof. intros []; vm_compute; reflexivity. Qed.

Example test_repeated_one_of_5_test_2_with_second_good : forall d,
  defined_same (get_result (run d (PRepeatedOneOf [(PFail (UserMsg 0)); POneChar]) (Some
  [104; 101; 108; 108; 111]) (Some start))) (Some (VSeq [VChar 104; VChar 101; VChar
  108; VChar 108; VChar 111])).
Proof. intros []; vm_compute; reflexivity. Qed.

Example test_repeated_one_of_6_test_accept_any_argument : forall d,
  defined_same (get_result (run d (PRepeatedOneOf [(PKeyword [104] (VChar 104));
  (PKeyword [101] (VChar 101)); (PKeyword [108] (VChar 108))]) (Some [104; 101; 108;
  108; 111]) (Some start))) (Some (VSeq [(VChar 104); (VChar 101); (VChar 108); (VChar
  108)])).
Proof. intros []; vm_compute; reflexivity. Qed.


(** /repo/test/repeated_one_of1.cpp *)

Example test_repeated_one_of1_1_test0 : forall d,
  is_error (run d (PRepeatedOneOf1 []) (Some [104; 101; 108; 108; 111]) (Some start)) =
  Some true.
Proof. intros []; vm_compute; reflexivity. Qed.

Example test_repeated_one_of1_2_test_good_sequence : forall d,
  defined_same (get_result (run d (PRepeatedOneOf1 [POneChar]) (Some [104; 101; 108;
  108; 111]) (Some start))) (Some (VSeq [VChar 104; VChar 101; VChar 108; VChar 108;
  VChar 111])).
Proof. intros []; vm_compute; reflexivity. Qed.

Example test_repeated_one_of1_3_test_1_with_bad : forall d,
  is_error (run d (PRepeatedOneOf1 [(PFail (UserMsg 0))]) (Some [104; 101; 108; 108;
  111]) (Some start)) = Some true.
Proof. intros []; vm_compute; reflexivity. Qed.

Example test_repeated_one_of1_4_test_2_with_first_good : forall d,
  defined_same (get_result (run d (PRepeatedOneOf1 [POneChar; (PFail (UserMsg 0))])
  (Some [104; 101; 108; 108; 111]) (Some start))) (Some (VSeq [VChar 104; VChar 101;
  VChar 108; VChar 108; VChar 111])).
Proof. intros []; vm_compute; reflexivity. Qed.

Example test_repeated_one_of1_5_test_2_with_second_good : forall d,
  defined_same (get_result (run d (PRepeatedOneOf1 [(PFail (UserMsg 0)); POneChar])
  (Some [104; 101; 108; 108; 111]) (Some start))) (Some (VSeq [VChar 104; VChar 101;
  VChar 108; VChar 108; VChar 111])).
Proof. intros []; vm_compute; reflexivity. Qed.

Example test_repeated_one_of1_6_test_accept_any_argument : forall d,
  defined_same (get_result (run d (PRepeatedOneOf1 [(PKeyword [104] (VChar 104));
  (PKeyword [101] (VChar 101)); (PKeyword [108] (VChar 108))]) (Some [104; 101; 108;
  108; 111]) (Some start))) (Some (VSeq [(VChar 104); (VChar 101); (VChar 108); (VChar
  108)])).
Proof. intros []; vm_compute; reflexivity. Qed.


(** /repo/test/repeated_reject_incomplete.cpp *)

Example test_repeated_reject_incomplete_1_test_empty_input : forall d,
  defined_same (get_result (run d (PRepeatedRejectIncomplete (PSequence [PLetter;
  PLetter])) (Some []) (Some start))) (Some (VSeq [])).
Proof. intros []; vm_compute; reflexivity. Qed.

Example test_repeated_reject_incomplete_2_test0 : forall d,
  is_error (run d (PRepeatedRejectIncomplete (PSequence [PLetter; PLetter])) (Some [48;
  101; 108; 108; 111]) (Some start)) = Some false.
Proof. intros []; vm_compute; reflexivity. Qed.

Example test_repeated_reject_incomplete_3_test_with_a_failing_item : forall d,
  is_error (run d (PRepeatedRejectIncomplete (PSequence [PLetter; PLetter])) (Some [104;
  48; 108; 108; 111]) (Some start)) = Some true.
Proof. intros []; vm_compute; reflexivity. Qed.

Example test_repeated_reject_incomplete_4_test1_pair : forall d,
  defined_same (get_result (run d (PRepeatedRejectIncomplete (PSequence [PLetter;
  PLetter])) (Some [104; 101; 48; 108; 111]) (Some start))) (Some (VSeq [(VSeq [VChar
  104; VChar 101])])).
Proof. intros []; vm_compute; reflexivity. Qed.

Example test_repeated_reject_incomplete_5_test2_pairs : forall d,
  defined_same (get_result (run d (PRepeatedRejectIncomplete (PSequence [PLetter;
  PLetter])) (Some [104; 101; 108; 108; 48]) (Some start))) (Some (VSeq [(VSeq [VChar
  104; VChar 101]); (VSeq [VChar 108; VChar 108])])).
Proof. intros []; vm_compute; reflexivity. Qed.

Example test_repeated_reject_incomplete_6_test3_pairs : forall d,
  defined_same (get_result (run d (PRepeatedRejectIncomplete (PSequence [PLetter;
  PLetter])) (Some [104; 101; 108; 108; 111; 119; 48]) (Some start))) (Some (VSeq [(VSeq
  [VChar 104; VChar 101]); (VSeq [VChar 108; VChar 108]); (VSeq [VChar 111; VChar
  119])])).
Proof. intros []; vm_compute; reflexivity. Qed.

Example test_repeated_reject_incomplete_7_test4_pairs : forall d,
  defined_same (get_result (run d (PRepeatedRejectIncomplete (PSequence [PLetter;
  PLetter])) (Some [104; 101; 108; 108; 111; 119; 111; 114; 48]) (Some start))) (Some
  (VSeq [(VSeq [VChar 104; VChar 101]); (VSeq [VChar 108; VChar 108]); (VSeq [VChar 111;
  VChar 119]); (VSeq [VChar 111; VChar 114])])).
Proof. intros []; vm_compute; reflexivity. Qed.

Example test_repeated_reject_incomplete_8_test5 : forall d,
  defined_same (get_result (run d (PRepeatedRejectIncomplete (PSequence [PLetter;
  PLetter])) (Some [104; 101; 108; 108; 111; 119; 111; 114; 108; 100; 48]) (Some
  start))) (Some (VSeq [(VSeq [VChar 104; VChar 101]); (VSeq [VChar 108; VChar 108]);
  (VSeq [VChar 111; VChar 119]); (VSeq [VChar 111; VChar 114]); (VSeq [VChar 108; VChar
  100])])).
Proof. intros []; vm_compute; reflexivity. Qed.

Example test_repeated_reject_incomplete_9_test_length : forall d,
  same_number (bind (get_result (run d (PRepeatedRejectIncomplete (PSequence [PLetter;
  PLetter])) (Some [104; 101; 108; 108; 111; 119; 48]) (Some start))) (fun l => match l
  with VSeq vs => Some (VInt (Z.of_nat (length vs))) | _ => None end)) (Some (VInt 3)) =
  Some true.
Proof. intros []; vm_compute; reflexivity. Qed.

Example test_repeated_reject_incomplete_10_test_no_extra_evaluation : forall d,
  defined_same (get_result (run d (PRepeatedRejectIncomplete (PAlways POneChar (VTmpl
  101 []))) (Some [99; 97]) (Some start))) (Some (VSeq [(VTmpl 101 []); (VTmpl 101
  [])])).
Proof. intros []; vm_compute; reflexivity. Qed.


(** /repo/test/repeated_reject_incomplete1.cpp *)

Example test_repeated_reject_incomplete1_1_test_empty_input : forall d,
  is_error (run d (PRepeatedRejectIncomplete1 (PSequence [PLetter; PLetter])) (Some [])
  (Some start)) = Some true.
Proof. intros []; vm_compute; reflexivity. Qed.

Example test_repeated_reject_incomplete1_2_test0 : forall d,
  is_error (run d (PRepeatedRejectIncomplete1 (PSequence [PLetter; PLetter])) (Some [48;
  101; 108; 108; 111]) (Some start)) = Some true.
Proof. intros []; vm_compute; reflexivity. Qed.

Example test_repeated_reject_incomplete1_3_test1_pair : forall d,
  defined_same (get_result (run d (PRepeatedRejectIncomplete1 (PSequence [PLetter;
  PLetter])) (Some [104; 101; 48; 108; 111]) (Some start))) (Some (VSeq [(VSeq [VChar
  104; VChar 101])])).
Proof. intros []; vm_compute; reflexivity. Qed.

Example test_repeated_reject_incomplete1_4_test_with_a_failing_item : forall d,
  is_error (run d (PRepeatedRejectIncomplete1 (PSequence [PLetter; PLetter])) (Some
  [104; 101; 108; 48; 111]) (Some start)) = Some true.
Proof. intros []; vm_compute; reflexivity. Qed.

Example test_repeated_reject_incomplete1_5_test2_pairs : forall d,
  defined_same (get_result (run d (PRepeatedRejectIncomplete1 (PSequence [PLetter;
  PLetter])) (Some [104; 101; 108; 108; 48]) (Some start))) (Some (VSeq [(VSeq [VChar
  104; VChar 101]); (VSeq [VChar 108; VChar 108])])).
Proof. intros []; vm_compute; reflexivity. Qed.

Example test_repeated_reject_incomplete1_6_test3_pairs : forall d,
  defined_same (get_result (run d (PRepeatedRejectIncomplete1 (PSequence [PLetter;
  PLetter])) (Some [104; 101; 108; 108; 111; 119; 48]) (Some start))) (Some (VSeq [(VSeq
  [VChar 104; VChar 101]); (VSeq [VChar 108; VChar 108]); (VSeq [VChar 111; VChar
  119])])).
Proof. intros []; vm_compute; reflexivity. Qed.

Example test_repeated_reject_incomplete1_7_test4_pairs : forall d,
  defined_same (get_result (run d (PRepeatedRejectIncomplete1 (PSequence [PLetter;
  PLetter])) (Some [104; 101; 108; 108; 111; 119; 111; 114; 48]) (Some start))) (Some
  (VSeq [(VSeq [VChar 104; VChar 101]); (VSeq [VChar 108; VChar 108]); (VSeq [VChar 111;
  VChar 119]); (VSeq [VChar 111; VChar 114])])).
Proof. intros []; vm_compute; reflexivity. Qed.

Example test_repeated_reject_incomplete1_8_test5 : forall d,
  defined_same (get_result (run d (PRepeatedRejectIncomplete1 (PSequence [PLetter;
  PLetter])) (Some [104; 101; 108; 108; 111; 119; 111; 114; 108; 100; 48]) (Some
  start))) (Some (VSeq [(VSeq [VChar 104; VChar 101]); (VSeq [VChar 108; VChar 108]);
  (VSeq [VChar 111; VChar 119]); (VSeq [VChar 111; VChar 114]); (VSeq [VChar 108; VChar
  100])])).
Proof. intros []; vm_compute; reflexivity. Qed.

Example test_repeated_reject_incomplete1_9_test_length : forall d,
  same_number (bind (get_result (run d (PRepeatedRejectIncomplete1 (PSequence [PLetter;
  PLetter])) (Some [104; 101; 108; 108; 111; 119; 48]) (Some start))) (fun l => match l
  with VSeq vs => Some (VInt (Z.of_nat (length vs))) | _ => None end)) (Some (VInt 3)) =
  Some true.
Proof. intros []; vm_compute; reflexivity. Qed.

Example test_repeated_reject_incomplete1_10_test_no_extra_evaluation : forall d,
  defined_same (get_result (run d (PRepeatedRejectIncomplete1 (PAlways POneChar (VTmpl
  101 []))) (Some [99; 97]) (Some start))) (Some (VSeq [(VTmpl 101 []); (VTmpl 101
  [])])).
Proof. intros []; vm_compute; reflexivity. Qed.


(** /repo/test/return_.cpp *)

Example test_return__1_test_for_non_empty_string : forall d,
  same_number (get_result (run d (PReturn (VChar 120)) (Some [104; 101; 108; 108; 111])
  (Some start))) (Some (VChar 120)) = Some true.
Proof. intros []; vm_compute; reflexivity. Qed.

Example test_return__2_test_for_empty_string : forall d,
  same_number (get_result (run d (PReturn (VChar 120)) (Some []) (Some start))) (Some
  (VChar 120)) = Some true.
Proof. intros []; vm_compute; reflexivity. Qed.


(** /repo/test/sequence.cpp *)

(** Only for C++11 and later: in C++98 the parser in this test is ill-formed, so the
    test itself does not compile. *)
Example test_sequence_1_test_no_parser : forall d, d <> Std98 ->
  defined_same (get_result (run d (PSequence []) (Some [104; 101; 108; 108; 111]) (Some
  start))) (Some (VSeq [])).
Proof. intros [] H; [exfalso; apply H; reflexivity | |]; vm_compute; reflexivity. Qed.

Example test_sequence_1_test_no_parser_98 :
  run Std98 (PSequence []) (Some [104; 101; 108; 108; 111]) (Some start) = Illformed.
Proof. vm_compute; reflexivity. Qed.

Example test_sequence_2_test_one_parser : forall d,
  defined_same (get_result (run d (PSequence [(PLitC 104)]) (Some [104; 101; 108; 108;
  111]) (Some start))) (Some (VSeq [VChar 104])).
Proof. intros []; vm_compute; reflexivity. Qed.

Example test_sequence_3_test_one_failing_parser : forall d,
  is_error (run d (PSequence [(PLitC 101)]) (Some [104; 101; 108; 108; 111]) (Some
  start)) = Some true.
Proof. intros []; vm_compute; reflexivity. Qed.

Example test_sequence_4_test_two_chars : forall d,
  defined_same (get_result (run d (PSequence [(PLitC 104); (PLitC 101)]) (Some [104;
  101; 108; 108; 111]) (Some start))) (Some (VSeq [VChar 104; VChar 101])).
Proof. intros []; vm_compute; reflexivity. Qed.

Example test_sequence_5_test_first_fails : forall d,
  is_error (run d (PSequence [(PLitC 120); (PLitC 101)]) (Some [104; 101; 108; 108;
  111]) (Some start)) = Some true.
Proof. intros []; vm_compute; reflexivity. Qed.

Example test_sequence_6_test_second_fails : forall d,
  is_error (run d (PSequence [(PLitC 104); (PLitC 120)]) (Some [104; 101; 108; 108;
  111]) (Some start)) = Some true.
Proof. intros []; vm_compute; reflexivity. Qed.

Example test_sequence_7_test_empty_input : forall d,
  is_error (run d (PSequence [(PLitC 104); (PLitC 101)]) (Some []) (Some start)) = Some
  true.
Proof. intros []; vm_compute; reflexivity. Qed.

Example test_sequence_8_test_three_chars : forall d,
  defined_same (get_result (run d (PSequence [(PLitC 104); (PLitC 101); (PLitC 108)])
  (Some [104; 101; 108; 108; 111]) (Some start))) (Some (VSeq [VChar 104; VChar 101;
  VChar 108])).
Proof. intros []; vm_compute; reflexivity. Qed.

Example test_sequence_9_test_indexing_in_result : forall d,
  same_number (match get_result (run d (PSequence [(PLitC 104); (PLitC 101); (PLitC
  108)]) (Some [104; 101; 108; 108; 111]) (Some start)) with Some l => at_c l 1 | None
  => None end) (Some (VChar 101)) = Some true.
Proof. intros []; vm_compute; reflexivity. Qed.

Example test_sequence_10_test_no_extra_evaluation : forall d,
  defined_same (get_result (run d (PSequence [(PAlways POneChar (VTmpl 101 []));
  (PAlways POneChar (VTmpl 101 []))]) (Some [99; 97]) (Some start))) (Some (VSeq [(VTmpl
  101 []); (VTmpl 101 [])])).
Proof. intros []; vm_compute; reflexivity. Qed.


(** /repo/test/sequence_apply.cpp *)

Example test_sequence_apply_1_test_one_parser : forall d,
  defined_same (Some (VTmpl 1 [VChar 104])) (get_result (run d (PSequenceApply (VTmpl 1)
  [(PLitC 104)]) (Some [104; 101; 108; 108; 111]) (Some start))).
Proof. intros []; vm_compute; reflexivity. Qed.

Example test_sequence_apply_2_test_one_failing_parser : forall d,
  is_error (run d (PSequenceApply (VTmpl 1) [(PLitC 101)]) (Some [104; 101; 108; 108;
  111]) (Some start)) = Some true.
Proof. intros []; vm_compute; reflexivity. Qed.

Example test_sequence_apply_3_test_two_chars : forall d,
  defined_same (Some (VTmpl 2 [VChar 104; VChar 101])) (get_result (run d
  (PSequenceApply (VTmpl 2) [(PLitC 104); (PLitC 101)]) (Some [104; 101; 108; 108; 111])
  (Some start))).
Proof. intros []; vm_compute; reflexivity. Qed.

Example test_sequence_apply_4_test_first_fails : forall d,
  is_error (run d (PSequenceApply (VTmpl 2) [(PLitC 120); (PLitC 101)]) (Some [104; 101;
  108; 108; 111]) (Some start)) = Some true.
Proof. intros []; vm_compute; reflexivity. Qed.

Example test_sequence_apply_5_test_second_fails : forall d,
  is_error (run d (PSequenceApply (VTmpl 2) [(PLitC 104); (PLitC 120)]) (Some [104; 101;
  108; 108; 111]) (Some start)) = Some true.
Proof. intros []; vm_compute; reflexivity. Qed.

Example test_sequence_apply_6_test_empty_input : forall d,
  is_error (run d (PSequenceApply (VTmpl 2) [(PLitC 104); (PLitC 101)]) (Some []) (Some
  start)) = Some true.
Proof. intros []; vm_compute; reflexivity. Qed.

Example test_sequence_apply_7_test_three_chars : forall d,
  defined_same (Some (VTmpl 3 [VChar 104; VChar 101; VChar 108])) (get_result (run d
  (PSequenceApply (VTmpl 3) [(PLitC 104); (PLitC 101); (PLitC 108)]) (Some [104; 101;
  108; 108; 111]) (Some start))).
Proof. intros []; vm_compute; reflexivity. Qed.

Example test_sequence_apply_8_test_no_extra_evaluation : forall d,
  defined_same (Some (VTmpl 1 [(VTmpl 101 [])])) (get_result (run d (PSequenceApply
  (VTmpl 1) [(PAlways POneChar (VTmpl 101 []))]) (Some [99; 97]) (Some start))).
Proof. intros []; vm_compute; reflexivity. Qed.


(** /repo/test/size.cpp *)

Example test_size_1_test_0_11 :
  holds2 Z.eqb (Some 0) (bind (Some []) (fun s => Some (size_11 s))) = Some true.
Proof. vm_compute; reflexivity. Qed.

Example test_size_1_test_0_98 :
  holds2 Z.eqb (Some 0) (bind (Some (string_98 32 [])) (fun s => size_98 s)) = Some true.
Proof. vm_compute; reflexivity. Qed.

Example test_size_2_test_1__11 :
  holds2 Z.eqb (Some 1) (bind (Some [120]) (fun s => Some (size_11 s))) = Some true.
Proof. vm_compute; reflexivity. Qed.

Example test_size_2_test_1__98 :
  holds2 Z.eqb (Some 1) (bind (Some (string_98 32 [120])) (fun s => size_98 s)) = Some
  true.
Proof. vm_compute; reflexivity. Qed.

Example test_size_3_test_5_11 :
  holds2 Z.eqb (Some 4) (bind (Some [49; 50; 51; 52]) (fun s => Some (size_11 s))) =
  Some true.
Proof. vm_compute; reflexivity. Qed.

Example test_size_3_test_5_98 :
  holds2 Z.eqb (Some 4) (bind (Some (string_98 32 [49; 50; 51; 52])) (fun s => size_98
  s)) = Some true.
Proof. vm_compute; reflexivity. Qed.


(** /repo/test/source_position.cpp *)

Example test_source_position_1_test_get_line :
  same_number (Some (VInt 11)) (option_map (fun p => VInt (line p)) (Some (mkpos 11 13
  1))) = Some true.
Proof. vm_compute; reflexivity. Qed.

Example test_source_position_2_test_get_col :
  same_number (Some (VInt 13)) (option_map (fun p => VInt (col p)) (Some (mkpos 11 13
  1))) = Some true.
Proof. vm_compute; reflexivity. Qed.

Example test_source_position_3_test_get_prev_char :
  same_number (Some (VInt 1)) (option_map (fun p => VInt (prev p)) (Some (mkpos 11 13
  1))) = Some true.
Proof. vm_compute; reflexivity. Qed.

Example test_source_position_4_test_line_of_start :
  same_number (Some (VInt 1)) (option_map (fun p => VInt (line p)) (Some start)) = Some
  true.
Proof. vm_compute; reflexivity. Qed.

Example test_source_position_5_test_col_of_start :
  same_number (Some (VInt 1)) (option_map (fun p => VInt (col p)) (Some start)) = Some
  true.
Proof. vm_compute; reflexivity. Qed.

Example test_source_position_6_test_next_chars_char :
  same_number (Some (VInt 2)) (option_map (fun p => VInt (col p)) (option_map (fun p =>
  next_char p 48) (Some start))) = Some true.
Proof. vm_compute; reflexivity. Qed.

Example test_source_position_7_test_next_chars_line :
  same_number (Some (VInt 1)) (option_map (fun p => VInt (line p)) (option_map (fun p =>
  next_char p 48) (Some start))) = Some true.
Proof. vm_compute; reflexivity. Qed.

Example test_source_position_8_test_next_lines_char :
  same_number (Some (VInt 1)) (option_map (fun p => VInt (col p)) (option_map (fun p =>
  next_line p 48) (option_map (fun p => next_char p 48) (Some start)))) = Some true.
Proof. vm_compute; reflexivity. Qed.

Example test_source_position_9_test_next_lines_line :
  same_number (Some (VInt 2)) (option_map (fun p => VInt (line p)) (option_map (fun p =>
  next_line p 48) (Some start))) = Some true.
Proof. vm_compute; reflexivity. Qed.

Example test_source_position_10_test_next_chars_prev_char :
  same_number (Some (VChar 49)) (option_map (fun p => VInt (prev p)) (option_map (fun p
  => next_char p 49) (Some start))) = Some true.
Proof. vm_compute; reflexivity. Qed.

Example test_source_position_11_test_next_lines_prev_char :
  same_number (Some (VChar 49)) (option_map (fun p => VInt (prev p)) (option_map (fun p
  => next_line p 49) (Some start))) = Some true.
Proof. vm_compute; reflexivity. Qed.

Example test_source_position_12_test_equal_source_positions :
  holds2 pos_equal_to (Some (mkpos 11 13 1)) (Some (mkpos 11 13 1)) = Some true.
Proof. vm_compute; reflexivity. Qed.

Example test_source_position_13_test_equal_source_positions_when_prev_char_is_different :
  holds2 pos_equal_to (Some (mkpos 11 13 97)) (Some (mkpos 11 13 98)) = Some false.
Proof. vm_compute; reflexivity. Qed.

Example test_source_position_14_test_not_equal_source_positions_when_line_is_different :
  holds2 pos_not_equal_to (Some (mkpos 11 13 97)) (Some (mkpos 13 13 97)) = Some true.
Proof. vm_compute; reflexivity. Qed.

Example test_source_position_15_test_not_equal_source_positions_when_col_is_different :
  holds2 pos_not_equal_to (Some (mkpos 11 11 97)) (Some (mkpos 11 13 97)) = Some true.
Proof. vm_compute; reflexivity. Qed.

Example test_source_position_16_test_source_position_is_not_less_than_itself :
  holds2 pos_less (Some (mkpos 11 13 97)) (Some (mkpos 11 13 97)) = Some false.
Proof. vm_compute; reflexivity. Qed.

Example test_source_position_17_test_source_position_earlier_in_the_same_line_is_less :
  holds2 pos_less (Some (mkpos 11 11 97)) (Some (mkpos 11 13 97)) = Some true.
Proof. vm_compute; reflexivity. Qed.

Example test_source_position_18_test_source_position_later_in_the_same_line_is_not_less :
  holds2 pos_less (Some (mkpos 11 13 97)) (Some (mkpos 11 11 97)) = Some false.
Proof. vm_compute; reflexivity. Qed.

Example test_source_position_19_test_source_position_in_the_same_pos_with_less_char_is_less :
  holds2 pos_less (Some (mkpos 11 13 97)) (Some (mkpos 11 13 98)) = Some true.
Proof. vm_compute; reflexivity. Qed.

Example test_source_position_20_test_source_position_earlier_line_is_less :
  holds2 pos_less (Some (mkpos 1 28 97)) (Some (mkpos 11 13 97)) = Some true.
Proof. vm_compute; reflexivity. Qed.

Example test_source_position_21_test_source_position_later_line_is_not_less :
  holds2 pos_less (Some (mkpos 28 2 97)) (Some (mkpos 11 13 97)) = Some false.
Proof. vm_compute; reflexivity. Qed.

Example test_source_position_22_test_source_position_is_greater_equal_to_itself :
  holds2 pos_greater_equal (Some (mkpos 11 13 97)) (Some (mkpos 11 13 97)) = Some true.
Proof. vm_compute; reflexivity. Qed.

Example test_source_position_23_test_source_position_earlier_in_the_same_line_is_not_greater_equal :
  holds2 pos_greater_equal (Some (mkpos 11 11 97)) (Some (mkpos 11 13 97)) = Some false.
Proof. vm_compute; reflexivity. Qed.

Example test_source_position_24_test_source_position_later_in_the_same_line_is_greater_equal :
  holds2 pos_greater_equal (Some (mkpos 11 13 97)) (Some (mkpos 11 11 97)) = Some true.
Proof. vm_compute; reflexivity. Qed.

Example test_source_position_25_test_source_position_in_the_same_pos_with_less_char_is_not_greater_equal :
  holds2 pos_greater_equal (Some (mkpos 11 13 97)) (Some (mkpos 11 13 98)) = Some false.
Proof. vm_compute; reflexivity. Qed.

Example test_source_position_26_test_source_position_earlier_line_is_not_greater_equal :
  holds2 pos_greater_equal (Some (mkpos 1 28 97)) (Some (mkpos 11 13 97)) = Some false.
Proof. vm_compute; reflexivity. Qed.

Example test_source_position_27_test_source_position_later_line_is_greater_equal :
  holds2 pos_greater_equal (Some (mkpos 28 2 97)) (Some (mkpos 11 13 97)) = Some true.
Proof. vm_compute; reflexivity. Qed.

Example test_source_position_28_test_source_position_is_not_greater_than_itself :
  holds2 pos_greater (Some (mkpos 11 13 97)) (Some (mkpos 11 13 97)) = Some false.
Proof. vm_compute; reflexivity. Qed.

Example test_source_position_29_test_source_position_earlier_in_the_same_line_is_not_greater :
  holds2 pos_greater (Some (mkpos 11 11 97)) (Some (mkpos 11 13 97)) = Some false.
Proof. vm_compute; reflexivity. Qed.

Example test_source_position_30_test_source_position_later_in_the_same_line_is_greater :
  holds2 pos_greater (Some (mkpos 11 13 97)) (Some (mkpos 11 11 97)) = Some true.
Proof. vm_compute; reflexivity. Qed.

Example test_source_position_31_test_source_position_in_the_same_pos_with_less_char_is_not_greater :
  holds2 pos_greater (Some (mkpos 11 13 97)) (Some (mkpos 11 13 98)) = Some false.
Proof. vm_compute; reflexivity. Qed.

Example test_source_position_32_test_source_position_earlier_line_is_not_greater :
  holds2 pos_greater (Some (mkpos 1 28 97)) (Some (mkpos 11 13 97)) = Some false.
Proof. vm_compute; reflexivity. Qed.

Example test_source_position_33_test_source_position_later_line_is_greater :
  holds2 pos_greater (Some (mkpos 28 2 97)) (Some (mkpos 11 13 97)) = Some true.
Proof. vm_compute; reflexivity. Qed.

Example test_source_position_34_test_source_position_is_less_equal_to_itself :
  holds2 pos_less_equal (Some (mkpos 11 13 97)) (Some (mkpos 11 13 97)) = Some true.
Proof. vm_compute; reflexivity. Qed.

Example test_source_position_35_test_source_position_earlier_in_the_same_line_is_less_equal :
  holds2 pos_less_equal (Some (mkpos 11 11 97)) (Some (mkpos 11 13 97)) = Some true.
Proof. vm_compute; reflexivity. Qed.

Example test_source_position_36_test_source_position_later_in_the_same_line_is_not_less_equal :
  holds2 pos_less_equal (Some (mkpos 11 13 97)) (Some (mkpos 11 11 97)) = Some false.
Proof. vm_compute; reflexivity. Qed.

Example test_source_position_37_test_source_position_in_the_same_pos_with_less_char_is_less_equal :
  holds2 pos_less_equal (Some (mkpos 11 13 97)) (Some (mkpos 11 13 98)) = Some true.
Proof. vm_compute; reflexivity. Qed.

Example test_source_position_38_test_source_position_earlier_line_is_less_equal :
  holds2 pos_less_equal (Some (mkpos 1 28 97)) (Some (mkpos 11 13 97)) = Some true.
Proof. vm_compute; reflexivity. Qed.

Example test_source_position_39_test_source_position_later_line_is_not_less_equal :
  holds2 pos_less_equal (Some (mkpos 28 2 97)) (Some (mkpos 11 13 97)) = Some false.
Proof. vm_compute; reflexivity. Qed.


(** /repo/test/space.cpp *)

Example test_space_1_test_with_text : forall d,
  is_error (run d PSpace (Some [104; 101; 108; 108; 111]) (Some start)) = Some true.
Proof. intros []; vm_compute; reflexivity. Qed.

Example test_space_2_test_with_space : forall d,
  same_number (get_result (run d PSpace (Some [32; 101; 108; 108; 111]) (Some start)))
  (Some (VChar 32)) = Some true.
Proof. intros []; vm_compute; reflexivity. Qed.

Example test_space_3_test_with_tab : forall d,
  same_number (get_result (run d PSpace (Some [9; 101; 108; 108; 111]) (Some start)))
  (Some (VChar 9)) = Some true.
Proof. intros []; vm_compute; reflexivity. Qed.

Example test_space_4_test_with_line_feed : forall d,
  same_number (get_result (run d PSpace (Some [10; 101; 108; 108; 111]) (Some start)))
  (Some (VChar 10)) = Some true.
Proof. intros []; vm_compute; reflexivity. Qed.

Example test_space_5_test_with_c_return : forall d,
  same_number (get_result (run d PSpace (Some [13; 101; 108; 108; 111]) (Some start)))
  (Some (VChar 13)) = Some true.
Proof. intros []; vm_compute; reflexivity. Qed.

Example test_space_6_test_with_empty_string : forall d,
  is_error (run d PSpace (Some []) (Some start)) = Some true.
Proof. intros []; vm_compute; reflexivity. Qed.


(** /repo/test/spaces.cpp *)

Example test_spaces_1_test_reject_no_space : forall d,
  is_error (run d PSpaces (Some [104; 101; 108; 108; 111]) (Some start)) = Some true.
Proof. intros []; vm_compute; reflexivity. Qed.

Example test_spaces_2_test_accept_one_space : forall d,
  is_error (run d PSpaces (Some [32; 101; 108; 108; 111]) (Some start)) = Some false.
Proof. intros []; vm_compute; reflexivity. Qed.

Example test_spaces_3_test_accept_only_space : forall d,
  defined_same (get_remaining (run d PSpaces (Some [32; 101; 108; 108; 111]) (Some
  start))) (Some [101; 108; 108; 111]).
Proof. intros []; vm_compute; reflexivity. Qed.

Example test_spaces_4_test_accept_all_spaces : forall d,
  is_error (run d PSpaces (Some [32; 9; 10; 13; 101; 108; 108; 111]) (Some start)) =
  Some false.
Proof. intros []; vm_compute; reflexivity. Qed.

Example test_spaces_5_test_consume_all_spaces : forall d,
  defined_same (get_remaining (run d PSpaces (Some [32; 9; 10; 13; 101; 108; 108; 111])
  (Some start))) (Some [101; 108; 108; 111]).
Proof. intros []; vm_compute; reflexivity. Qed.


(** /repo/test/string.cpp *)

Example test_string_1_equal_to_11 :
  holds2 equal_to_11 (Some [72; 101; 108; 108; 111]) (Some [72; 101; 108; 108; 111]) =
  Some true.
Proof. vm_compute; reflexivity. Qed.

Example test_string_1_equal_to_98 :
  holds2 equal_to_98 (Some (string_98 32 [72; 101; 108; 108; 111])) (Some (string_98 32
  [72; 101; 108; 108; 111])) = Some true.
Proof. vm_compute; reflexivity. Qed.

Example test_string_2_assert_11 :
  holds2 equal_to_11 (Some [72; 101; 108; 108; 111]) (Some []) = Some false.
Proof. vm_compute; reflexivity. Qed.

Example test_string_2_assert_98 :
  holds2 equal_to_98 (Some (string_98 32 [72; 101; 108; 108; 111])) (Some (string_98 32
  [])) = Some false.
Proof. vm_compute; reflexivity. Qed.

Example test_string_3_at_11 :
  holds2 Z.eqb (Some 101) (bind (Some [72; 101; 108; 108; 111]) (fun s => at_c_11 s 1))
  = Some true.
Proof. vm_compute; reflexivity. Qed.

Example test_string_3_at_98 :
  holds2 Z.eqb (Some 101) (bind (Some (string_98 32 [72; 101; 108; 108; 111])) (fun s =>
  at_c_98 s 1)) = Some true.
Proof. vm_compute; reflexivity. Qed.

Example test_string_4_assert_11 :
  holds2 Z.eqb (Some 101) (bind (Some [72; 101; 108; 108; 111]) (fun s => at_c_11 s 1))
  = Some true.
Proof. vm_compute; reflexivity. Qed.

Example test_string_4_assert_98 :
  holds2 Z.eqb (Some 101) (bind (Some (string_98 32 [72; 101; 108; 108; 111])) (fun s =>
  at_c_98 s 1)) = Some true.
Proof. vm_compute; reflexivity. Qed.

Example test_string_5_size_11 :
  holds2 Z.eqb (Some 5) (bind (Some [72; 101; 108; 108; 111]) (fun s => Some (size_11
  s))) = Some true.
Proof. vm_compute; reflexivity. Qed.

Example test_string_5_size_98 :
  holds2 Z.eqb (Some 5) (bind (Some (string_98 32 [72; 101; 108; 108; 111])) (fun s =>
  size_98 s)) = Some true.
Proof. vm_compute; reflexivity. Qed.

Example test_string_7_front_11 :
  holds2 Z.eqb (Some 72) (bind (Some [72; 101; 108; 108; 111]) (fun s => front_11 s)) =
  Some true.
Proof. vm_compute; reflexivity. Qed.

Example test_string_7_front_98 :
  holds2 Z.eqb (Some 72) (bind (Some (string_98 32 [72; 101; 108; 108; 111])) (fun s =>
  front_98 s)) = Some true.
Proof. vm_compute; reflexivity. Qed.

Example test_string_8_push_front_11 :
  holds2 equal_to_11 (Some [120; 72; 101; 108; 108; 111]) (bind (Some [72; 101; 108;
  108; 111]) (fun s => Some (push_front_c_11 s 120))) = Some true.
Proof. vm_compute; reflexivity. Qed.

Example test_string_8_push_front_98 :
  holds2 equal_to_98 (Some (string_98 32 [120; 72; 101; 108; 108; 111])) (bind (Some
  (string_98 32 [72; 101; 108; 108; 111])) (fun s => Some (push_front_c_98 32 s 120))) =
  Some true.
Proof. vm_compute; reflexivity. Qed.

Example test_string_10_push_back_11 :
  holds2 equal_to_11 (Some [72; 101; 108; 108; 111; 120]) (bind (Some [72; 101; 108;
  108; 111]) (fun s => Some (push_back_c_11 s 120))) = Some true.
Proof. vm_compute; reflexivity. Qed.

Example test_string_10_push_back_98 :
  holds2 equal_to_98 (Some (string_98 32 [72; 101; 108; 108; 111; 120])) (bind (Some
  (string_98 32 [72; 101; 108; 108; 111])) (fun s => push_back_c_98 32 s 120)) = Some
  true.
Proof. vm_compute; reflexivity. Qed.

Example test_string_11_clear_11 :
  holds2 equal_to_11 (Some []) (bind (Some [72; 101; 108; 108; 111]) (fun s => Some
  (clear_11 s))) = Some true.
Proof. vm_compute; reflexivity. Qed.

Example test_string_11_clear_98 :
  holds2 equal_to_98 (Some (string_98 32 [])) (bind (Some (string_98 32 [72; 101; 108;
  108; 111])) (fun s => Some (clear_98 32))) = Some true.
Proof. vm_compute; reflexivity. Qed.

Example test_string_12_empty_11 :
  bind (Some [72; 101; 108; 108; 111]) empty_11 = Some false.
Proof. vm_compute; reflexivity. Qed.

Example test_string_12_empty_98 :
  bind (Some (string_98 32 [72; 101; 108; 108; 111])) empty_98 = Some false.
Proof. vm_compute; reflexivity. Qed.

Example test_string_13_assert_11 :
  bind (Some []) empty_11 = Some true.
Proof. vm_compute; reflexivity. Qed.

Example test_string_13_assert_98 :
  bind (Some (string_98 32 [])) empty_98 = Some true.
Proof. vm_compute; reflexivity. Qed.

Example test_string_14_string_iterator_11 :
  holds2 (it_equal same_chars) (option_map begin_11 (Some [72; 101; 108; 108; 111]))
  (option_map begin_11 (Some [72; 101; 108; 108; 111])) = Some true.
Proof. vm_compute; reflexivity. Qed.

Example test_string_14_string_iterator_98 :
  holds2 (it_equal same_chars) (option_map begin_98 (Some (string_98 32 [72; 101; 108;
  108; 111]))) (option_map begin_98 (Some (string_98 32 [72; 101; 108; 108; 111]))) =
  Some true.
Proof. vm_compute; reflexivity. Qed.

Example test_string_15_assert_11 :
  holds2 (it_equal same_chars) (option_map begin_11 (Some [72; 101; 108; 108; 111]))
  (bind (Some [72; 101; 108; 108; 111]) (fun s => Some (end_11 s))) = Some false.
Proof. vm_compute; reflexivity. Qed.

Example test_string_15_assert_98 :
  holds2 (it_equal same_chars) (option_map begin_98 (Some (string_98 32 [72; 101; 108;
  108; 111]))) (bind (Some (string_98 32 [72; 101; 108; 108; 111])) (fun s => end_98 s))
  = Some false.
Proof. vm_compute; reflexivity. Qed.

Example test_string_16_assert_11 :
  holds2 (it_equal same_chars) (option_map begin_11 (Some [])) (bind (Some []) (fun s =>
  Some (end_11 s))) = Some true.
Proof. vm_compute; reflexivity. Qed.

Example test_string_16_assert_98 :
  holds2 (it_equal same_chars) (option_map begin_98 (Some (string_98 32 []))) (bind
  (Some (string_98 32 [])) (fun s => end_98 s)) = Some true.
Proof. vm_compute; reflexivity. Qed.

Example test_string_17_assert_11 :
  holds2 Z.eqb (Some 72) (bind (option_map begin_11 (Some [72; 101; 108; 108; 111]))
  (it_deref at_c_11)) = Some true.
Proof. vm_compute; reflexivity. Qed.

Example test_string_17_assert_98 :
  holds2 Z.eqb (Some 72) (bind (option_map begin_98 (Some (string_98 32 [72; 101; 108;
  108; 111]))) (it_deref at_c_98)) = Some true.
Proof. vm_compute; reflexivity. Qed.

Example test_string_18_assert_11 :
  holds2 (it_equal same_chars) (bind (Some [72; 101; 108; 108; 111]) (fun s => Some
  (end_11 s))) (option_map (fun i => it_advance i 5) (option_map begin_11 (Some [72;
  101; 108; 108; 111]))) = Some true.
Proof. vm_compute; reflexivity. Qed.

Example test_string_18_assert_98 :
  holds2 (it_equal same_chars) (bind (Some (string_98 32 [72; 101; 108; 108; 111])) (fun
  s => end_98 s)) (option_map (fun i => it_advance i 5) (option_map begin_98 (Some
  (string_98 32 [72; 101; 108; 108; 111])))) = Some true.
Proof. vm_compute; reflexivity. Qed.

Example test_string_19_assert_11 :
  holds2 Z.eqb (Some 101) (bind (option_map it_next (option_map begin_11 (Some [72; 101;
  108; 108; 111]))) (it_deref at_c_11)) = Some true.
Proof. vm_compute; reflexivity. Qed.

Example test_string_19_assert_98 :
  holds2 Z.eqb (Some 101) (bind (option_map it_next (option_map begin_98 (Some
  (string_98 32 [72; 101; 108; 108; 111])))) (it_deref at_c_98)) = Some true.
Proof. vm_compute; reflexivity. Qed.

Example test_string_20_assert_11 :
  holds2 Z.eqb (Some 111) (bind (option_map it_prior (bind (Some [72; 101; 108; 108;
  111]) (fun s => Some (end_11 s)))) (it_deref at_c_11)) = Some true.
Proof. vm_compute; reflexivity. Qed.

Example test_string_20_assert_98 :
  holds2 Z.eqb (Some 111) (bind (option_map it_prior (bind (Some (string_98 32 [72; 101;
  108; 108; 111])) (fun s => end_98 s))) (it_deref at_c_98)) = Some true.
Proof. vm_compute; reflexivity. Qed.

Example test_string_21_assert_11 :
  holds2 Z.eqb (Some 5) (bind (option_map begin_11 (Some [72; 101; 108; 108; 111])) (fun
  a => bind (bind (Some [72; 101; 108; 108; 111]) (fun s => Some (end_11 s)))
  (it_distance same_chars a))) = Some true.
Proof. vm_compute; reflexivity. Qed.

Example test_string_21_assert_98 :
  holds2 Z.eqb (Some 5) (bind (option_map begin_98 (Some (string_98 32 [72; 101; 108;
  108; 111]))) (fun a => bind (bind (Some (string_98 32 [72; 101; 108; 108; 111])) (fun
  s => end_98 s)) (it_distance same_chars a))) = Some true.
Proof. vm_compute; reflexivity. Qed.

Example test_string_22_pop_front_11 :
  holds2 equal_to_11 (Some [101; 108; 108; 111]) (bind (Some [72; 101; 108; 108; 111])
  (fun s => pop_front_11 s)) = Some true.
Proof. vm_compute; reflexivity. Qed.

Example test_string_22_pop_front_98 :
  holds2 equal_to_98 (Some (string_98 32 [101; 108; 108; 111])) (bind (Some (string_98
  32 [72; 101; 108; 108; 111])) (fun s => Some (pop_front_98 s))) = Some true.
Proof. vm_compute; reflexivity. Qed.

Example test_string_23_pop_back_11 :
  holds2 equal_to_11 (Some [72; 101; 108; 108]) (bind (Some [72; 101; 108; 108; 111])
  (fun s => pop_back_11 s)) = Some true.
Proof. vm_compute; reflexivity. Qed.

Example test_string_23_pop_back_98 :
  holds2 equal_to_98 (Some (string_98 32 [72; 101; 108; 108])) (bind (Some (string_98 32
  [72; 101; 108; 108; 111])) (fun s => pop_back_98 32 s)) = Some true.
Proof. vm_compute; reflexivity. Qed.


(** /repo/test/swap.cpp *)

Example test_swap_1_assert :
  defined_same (Some (VTmpl 100 [])) ((swap (fun a _ => Some a)) (VTmpl 101 []) (VTmpl
  100 [])).
Proof. vm_compute; reflexivity. Qed.

Example test_swap_2_assert :
  defined_same (Some (VTmpl 101 [])) ((swap (fun _ b => Some b)) (VTmpl 101 []) (VTmpl
  100 [])).
Proof. vm_compute; reflexivity. Qed.


(** /repo/test/token.cpp *)

Example test_token_1_test_no_space : forall d,
  same_number (get_result (run d (PToken (PKeyword [104; 101; 108; 108; 111] (VInt 13)))
  (Some [104; 101; 108; 108; 111]) (Some start))) (get_result (run d (PKeyword [104;
  101; 108; 108; 111] (VInt 13)) (Some [104; 101; 108; 108; 111]) (Some start))) = Some
  true.
Proof. intros []; vm_compute; reflexivity. Qed.

Example test_token_2_test_spaces : forall d,
  same_number (get_result (run d (PToken (PKeyword [104; 101; 108; 108; 111] (VInt 13)))
  (Some [104; 101; 108; 108; 111; 32; 9]) (Some start))) (get_result (run d (PKeyword
  [104; 101; 108; 108; 111] (VInt 13)) (Some [104; 101; 108; 108; 111]) (Some start))) =
  Some true.
Proof. intros []; vm_compute; reflexivity. Qed.

Example test_token_3_test_spaces_consumed : forall d,
  defined_same (get_remaining (run d (PToken (PKeyword [104; 101; 108; 108; 111] (VInt
  13))) (Some [104; 101; 108; 108; 111; 32; 9]) (Some start))) (Some []).
Proof. intros []; vm_compute; reflexivity. Qed.

Example test_token_4_test_fail : forall d,
  is_error (run d (PToken (PKeyword [104; 101; 108; 108; 111] (VInt 13))) (Some [])
  (Some start)) = Some true.
Proof. intros []; vm_compute; reflexivity. Qed.


(** /repo/test/transform.cpp *)

Example test_transform_1_test_normal_case : forall d,
  same_number (get_result (run d (PTransform (PLitC 104) (fun _ => Some (VChar 120)))
  (Some [104; 101; 108; 108; 111]) (Some start))) (Some (VChar 120)) = Some true.
Proof. intros []; vm_compute; reflexivity. Qed.

Example test_transform_2_test_parser_fails : forall d,
  is_error (run d (PTransform (PLitC 120) (fun _ => Some (VChar 120))) (Some [104; 101;
  108; 108; 111]) (Some start)) = Some true.
Proof. intros []; vm_compute; reflexivity. Qed.

Example test_transform_3_test_empty_input : forall d,
  is_error (run d (PTransform (PLitC 104) (fun _ => Some (VChar 120))) (Some []) (Some
  start)) = Some true.
Proof. intros []; vm_compute; reflexivity. Qed.

Example test_transform_4_test_tranformation_functions_arg : forall d,
  same_number (get_result (run d (PTransform (PRepeated POneChar) (fun l => at_c l 0))
  (Some [104; 101; 108; 108; 111]) (Some start))) (Some (VChar 104)) = Some true.
Proof. intros []; vm_compute; reflexivity. Qed.


(** /repo/test/transform_error.cpp *)

Example test_transform_error_1_test_transform_error_does_not_change_accept : forall d,
  run d (PLitC 72) (Some [72; 101; 108; 108; 111]) (Some start) = run d (PTransformError
  (PLitC 72) (fun _ p => Reject (UserMsg 1) p)) (Some [72; 101; 108; 108; 111]) (Some
  start).
Proof. intros []; vm_compute; reflexivity. Qed.

Example test_transform_error_2_test_transform_is_called : forall d,
  reject_at (UserMsg 1) (Some start) = run d (PTransformError (PLitC 120) (fun _ p =>
  Reject (UserMsg 1) p)) (Some [72; 101; 108; 108; 111]) (Some start).
Proof. intros []; vm_compute; reflexivity. Qed.


(** /repo/test/transform_error_message.cpp *)

Example test_transform_error_message_1_test_transform_error_message_does_not_change_accept : forall d,
  run d (PLitC 72) (Some [72; 101; 108; 108; 111]) (Some start) = run d
  (PTransformErrorMessage (PLitC 72) (fun m => Some (unpaired 0 0 m))) (Some [72; 101;
  108; 108; 111]) (Some start).
Proof. intros []; vm_compute; reflexivity. Qed.

Example test_transform_error_message_2_test_transform_is_called : forall d,
  reject_at (unpaired 0 0 (literal_expected 120)) (Some start) = run d
  (PTransformErrorMessage (PLitC 120) (fun m => Some (unpaired 0 0 m))) (Some [72; 101;
  108; 108; 111]) (Some start).
Proof. intros []; vm_compute; reflexivity. Qed.


(** /repo/test/update_c.cpp *)

Example test_update_c_1_test_update_first_char_98 :
  holds2 equal_to_98 (Some (string_98 32 [120; 101; 108; 108; 111])) (bind (Some
  (string_98 32 [104; 101; 108; 108; 111])) (fun s => update_c_98 32 s 0 120)) = Some
  true.
Proof. vm_compute; reflexivity. Qed.

Example test_update_c_2_test_update_middle_char_98 :
  holds2 equal_to_98 (Some (string_98 32 [104; 101; 120; 108; 111])) (bind (Some
  (string_98 32 [104; 101; 108; 108; 111])) (fun s => update_c_98 32 s 2 120)) = Some
  true.
Proof. vm_compute; reflexivity. Qed.

Example test_update_c_3_test_update_last_char_98 :
  holds2 equal_to_98 (Some (string_98 32 [104; 101; 108; 108; 120])) (bind (Some
  (string_98 32 [104; 101; 108; 108; 111])) (fun s => update_c_98 32 s 4 120)) = Some
  true.
Proof. vm_compute; reflexivity. Qed.


(** /repo/test/BOOST_METAPARSE_STRING.cpp, long_string.cpp, too_long_string.cpp:
    the macro BOOST_METAPARSE_STRING (C++11 and later). *)

Definition chars (n : nat) : str := map (fun i => 48 + Z.of_nat (i mod 10)) (seq 0 n).

Example test_string_macro :
  metaparse_string shipped_limits 4 [97; 98; 99; 100] = Some [97; 98; 99; 100].
Proof. vm_compute; reflexivity. Qed.

Example test_string_macro_redefined_length_limit :
  metaparse_string shipped_limits 8 [97; 98; 99; 100; 101; 102; 103; 104]
  = Some [97; 98; 99; 100; 101; 102; 103; 104].
Proof. vm_compute; reflexivity. Qed.

Example test_creating_long_string_with_macro :
  metaparse_string shipped_limits 127 (chars 127) = Some (chars 127).
Proof. vm_compute; reflexivity. Qed.

Example test_creating_very_long_string :
  metaparse_string shipped_limits 1024 (chars 512) = Some (chars 512).
Proof. vm_compute; reflexivity. Qed.

(** The test too_long_string.cpp is expected not to compile (test/Jamfile.v2). *)
Example test_too_long_string :
  metaparse_string shipped_limits 4 [97; 98; 99; 100; 101] = None.
Proof. vm_compute; reflexivity. Qed.
