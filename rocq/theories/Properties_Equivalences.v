(** C20, C21: the equivalences stated in the reference (/repo/doc/*.qbk). *)

From Coq Require Import ZArith List Bool.
From Verif Require Import Base Util Combinators Variadic Parsers Spec
  Proofs_Pos Proofs_Fold Proofs_Variadic Proofs_Parsers Proofs_Parsers2 Proofs_Final3 Proofs_Final4.
Import ListNotations.
Open Scope Z_scope.

Local Definition c98 := default_config Std98.
Local Definition c11 := default_config Std11.

(** ** C20 equivalences that hold *)

(** doc/always.qbk *)
Theorem C20_always : forall cfg p v, fits_sequence cfg 2 ->
  same_parser (always p v) (last_of cfg [p; return_ v]).
Proof. exact always_last_of. Qed.
Print Assumptions C20_always.

(** doc/optional.qbk *)
Theorem C20_optional : forall cfg p v, fits_one_of cfg 2 ->
  same_parser (optional p v) (one_of cfg [p; return_ v]).
Proof. exact optional_one_of. Qed.
Print Assumptions C20_optional.

(** doc/empty.qbk *)
Theorem C20_empty : forall r,
  same_parser (empty r) (except one_char r end_of_input_expected).
Proof. exact empty_except. Qed.
Print Assumptions C20_empty.

(** doc/foldl1.qbk *)
Theorem C20_foldl1 : forall cfg n p st f, fits_sequence cfg 2 ->
  same_parser (foldl1 n p st f) (last_of cfg [look_ahead p; foldl n p st f]).
Proof. exact foldl1_last_of. Qed.
Print Assumptions C20_foldl1.

(** doc/foldr1.qbk *)
Theorem C20_foldr1 : forall cfg n p st f, fits_sequence cfg 2 ->
  same_parser (foldr1 n p st f) (last_of cfg [look_ahead p; foldr n p st f]).
Proof. exact foldr1_last_of. Qed.
Print Assumptions C20_foldr1.

(** doc/repeated1.qbk *)
Theorem C20_repeated1 : forall cfg n p, fits_sequence cfg 2 ->
  same_parser (repeated1 n p) (last_of cfg [look_ahead p; repeated n p]).
Proof. exact repeated1_last_of. Qed.
Print Assumptions C20_repeated1.

(** doc/foldl_reject_incomplete.qbk and the variants of it.  The operation has
    to be defined for all arguments, see [C20_partial_operation_refuted]. *)
Theorem C20_foldl_reject_incomplete : forall cfg n p v f,
  fits_sequence cfg 2 -> total_op f ->
  same_parser (foldl_reject_incomplete n p (Some v) f)
    (first_of cfg [foldl n p (Some v) f; fail_at_first_char_expected p]).
Proof. exact foldl_ri_first_of. Qed.
Print Assumptions C20_foldl_reject_incomplete.

Theorem C20_foldl_reject_incomplete1 : forall cfg n p v f,
  fits_sequence cfg 2 -> total_op f ->
  same_parser (foldl_reject_incomplete1 n p (Some v) f)
    (first_of cfg [foldl1 n p (Some v) f; fail_at_first_char_expected p]).
Proof. exact foldl_ri1_first_of. Qed.
Print Assumptions C20_foldl_reject_incomplete1.

Theorem C20_foldl_reject_incomplete_start_with_parser : forall cfg n p sp f,
  fits_sequence cfg 2 -> total_op f -> never_void sp ->
  same_parser (foldl_reject_incomplete_start_with_parser n p sp f)
    (first_of cfg [foldl_start_with_parser n p sp f; fail_at_first_char_expected p]).
Proof. exact foldl_ri_swp_first_of. Qed.
Print Assumptions C20_foldl_reject_incomplete_start_with_parser.

Theorem C20_repeated_reject_incomplete : forall cfg n p, fits_sequence cfg 2 ->
  same_parser (repeated_reject_incomplete n p)
    (first_of cfg [repeated n p; fail_at_first_char_expected p]).
Proof. exact repeated_ri_first_of. Qed.
Print Assumptions C20_repeated_reject_incomplete.

Theorem C20_repeated_reject_incomplete1 : forall cfg n p, fits_sequence cfg 2 ->
  same_parser (repeated_reject_incomplete1 n p)
    (first_of cfg [repeated1 n p; fail_at_first_char_expected p]).
Proof. exact repeated_ri1_first_of. Qed.
Print Assumptions C20_repeated_reject_incomplete1.

Theorem C20_foldr_reject_incomplete : forall cfg n p v f,
  fits_sequence cfg 2 -> total_op f ->
  same_parser (foldr_reject_incomplete cfg n p v f)
    (first_of cfg [foldr n p v f; fail_at_first_char_expected p]).
Proof. exact foldr_ri_first_of. Qed.
Print Assumptions C20_foldr_reject_incomplete.

Theorem C20_foldr_reject_incomplete1 : forall cfg n p v f,
  fits_sequence cfg 2 -> total_op f ->
  same_parser (foldr_reject_incomplete1 cfg n p v f)
    (first_of cfg [foldr1 n p v f; fail_at_first_char_expected p]).
Proof. exact foldr_ri1_first_of. Qed.
Print Assumptions C20_foldr_reject_incomplete1.

(** With an operation that is undefined for the last result, foldl is
    ill-formed but foldl_reject_incomplete only rejects. *)
Theorem C20_partial_operation_refuted : exists p f s,
  foldl_reject_incomplete 5 p (Some VVoid) f s start
  <> first_of c11 [foldl 5 p (Some VVoid) f; fail_at_first_char_expected p] s start.
Proof.
  exists (keyword (text "ab") VVoid), (fun _ _ => None), (text "abax").
  vm_compute. discriminate.
Qed.
Print Assumptions C20_partial_operation_refuted.

(** For every operation they agree where the fold can be instantiated;
    elsewhere the right hand side can not be instantiated and the left hand side
    can not or rejects. *)
Theorem C20_reject_incomplete_defined : forall cfg n p st v f sp s ps, fits_sequence cfg 2 ->
  (foldl n p st f s ps <> Illformed ->
    foldl_reject_incomplete n p st f s ps
    = first_of cfg [foldl n p st f; fail_at_first_char_expected p] s ps)
  /\ (foldl1 n p st f s ps <> Illformed ->
    foldl_reject_incomplete1 n p st f s ps
    = first_of cfg [foldl1 n p st f; fail_at_first_char_expected p] s ps)
  /\ (foldl_start_with_parser n p sp f s ps <> Illformed ->
    foldl_reject_incomplete_start_with_parser n p sp f s ps
    = first_of cfg [foldl_start_with_parser n p sp f; fail_at_first_char_expected p] s ps)
  /\ (foldr n p v f s ps <> Illformed ->
    foldr_reject_incomplete cfg n p v f s ps
    = first_of cfg [foldr n p v f; fail_at_first_char_expected p] s ps)
  /\ (foldr1 n p v f s ps <> Illformed ->
    foldr_reject_incomplete1 cfg n p v f s ps
    = first_of cfg [foldr1 n p v f; fail_at_first_char_expected p] s ps).
Proof.
  intros cfg n p st v f sp s ps F. repeat split; intros D.
  - apply foldl_ri_defined; auto.
  - apply foldl_ri1_defined; auto.
  - apply foldl_ri_swp_defined; auto.
  - apply foldr_ri_defined; auto.
  - apply foldr_ri1_defined; auto.
Qed.
Print Assumptions C20_reject_incomplete_defined.

Theorem C20_reject_incomplete_undefined : forall cfg n p st f s ps, fits_sequence cfg 2 ->
  foldl n p st f s ps = Illformed ->
  first_of cfg [foldl n p st f; fail_at_first_char_expected p] s ps = Illformed
  /\ (foldl_reject_incomplete n p st f s ps = Illformed
      \/ exists m pe, foldl_reject_incomplete n p st f s ps = Reject m pe).
Proof.
  intros cfg n p st f s ps F D. split.
  - rewrite first_of_2, D by auto. auto.
  - apply foldl_ri_undefined; auto.
Qed.
Print Assumptions C20_reject_incomplete_undefined.

(** doc/keyword.qbk *)
Theorem C20_keyword : forall cfg kw r, fits_sequence cfg (length kw + 1) ->
  same_parser (keyword kw r) (last_of cfg (map lit_c kw ++ [return_ r])).
Proof. exact keyword_last_of. Qed.
Print Assumptions C20_keyword.

(** doc/entire_input.qbk *)
Theorem C20_entire_input : forall cfg p m v, fits_sequence cfg 2 ->
  same_parser (entire_input cfg p m)
    (first_of cfg [p; change_error_message (empty v) m]).
Proof. exact entire_input_first_of. Qed.
Print Assumptions C20_entire_input.

(** doc/iterate_c.qbk *)
Theorem C20_iterate_c : forall cfg n p k, (k < n)%nat -> (0 < k)%nat ->
  fits_sequence cfg k ->
  same_parser (iterate_c n p (Z.of_nat k)) (sequence cfg (repeat p k)).
Proof. exact iterate_c_sequence_cfg. Qed.
Print Assumptions C20_iterate_c.

(** doc/first_of.qbk *)
Theorem C20_first_of : forall cfg l, fits_sequence cfg (length l) ->
  same_parser (first_of cfg l) (nth_of_c cfg 0 l).
Proof. exact first_of_nth_of. Qed.
Print Assumptions C20_first_of.

(** doc/nth_of_c.qbk *)
Theorem C20_nth_of_c : forall cfg l k, fits_sequence cfg (length l) ->
  (k < length l)%nat ->
  same_parser (nth_of_c cfg (Z.of_nat k) l)
    (transform (sequence cfg l) (fun v => at_c v k)).
Proof. exact nth_of_transform_sequence. Qed.
Print Assumptions C20_nth_of_c.

Definition any_op : mf2 := fun a b => Some (VTmpl 0 [a; b]).
Example C20_case :
  fits_sequence c98 4 /\ fits_one_of c98 2 /\ total_op any_op
  /\ foldl_reject_incomplete 9 (keyword (text "ab") (VInt 1)) (Some VVoid) any_op (text "ababx") start
     = Accept (VTmpl 0 [VTmpl 0 [VVoid; VInt 1]; VInt 1]) (text "x") (mkpos 1 5 98)
  /\ foldl_reject_incomplete 9 (keyword (text "ab") (VInt 1)) (Some VVoid) any_op (text "abax") start
     = Reject (literal_expected 98) (mkpos 1 4 97)
  /\ iterate_c 9 digit 3 (text "1234") start
     = Accept (VSeq [VChar 49; VChar 50; VChar 51]) (text "4") (mkpos 1 4 51).
Proof.
  split; [intros _; cbv; repeat constructor|]. split; [intros _; cbv; repeat constructor|].
  split; [intros a b; eexists; reflexivity|]. vm_compute. auto.
Qed.

(** ** C21 equivalences that do not hold, and what holds instead *)

(** doc/if_.qbk: the documented parser consumes the input of [p]. *)
Theorem C21_if_refuted : exists p t f s,
  if_ p t f s start <> doc_if c11 p t f s start.
Proof. exists digit, (VInt 1), (VInt 2), (text "1"). vm_compute. discriminate. Qed.
Print Assumptions C21_if_refuted.

Theorem C21_if_exact : forall cfg p t f, fits_sequence cfg 2 -> fits_one_of cfg 2 ->
  same_parser (if_ p t f) (doc_if cfg (look_ahead p) t f)
  /\ forall s ps, get_result (if_ p t f s ps) = get_result (doc_if cfg p t f s ps).
Proof.
  intros cfg p t f F1 F2. split; [exact (if_exact cfg p t f F1 F2)|].
  intros s ps. exact (if_doc_verdict cfg p t f s ps F1 F2).
Qed.
Print Assumptions C21_if_exact.

(** doc/one_of_c.qbk: other message at the end of the input (C++11). *)
Theorem C21_one_of_c_refuted : exists cs s,
  one_of_c c11 cs s start <> doc_one_of_c c11 cs s start.
Proof. exists [97; 98], []. vm_compute. discriminate. Qed.
Print Assumptions C21_one_of_c_refuted.

Theorem C21_one_of_c_exact : forall cfg cs,
  (cfg_std cfg = Std98 -> (length cs < limit_one_of cfg)%nat ->
   same_parser (one_of_c cfg cs) (doc_one_of_c cfg cs))
  /\ (cfg_std cfg <> Std98 -> forall s ps,
      (s <> [] -> one_of_c cfg cs s ps = doc_one_of_c cfg cs s ps)
      /\ one_of_c cfg cs [] ps = Reject unexpected_end_of_input ps
      /\ doc_one_of_c cfg cs [] ps = Reject none_of_the_expected_cases_found ps).
Proof.
  intros cfg cs. split.
  - exact (one_of_c_doc_98 cfg cs).
  - intros E s ps. exact (one_of_c_doc_11 cfg cs s ps E).
Qed.
Print Assumptions C21_one_of_c_exact.

(** doc/middle_of.qbk: other message if the closing is missing; the message is
    given by C29. *)
Theorem C21_middle_of_refuted : exists p1 p2 p3 s,
  middle_of c11 p1 p2 p3 s start <> doc_middle_of c11 p1 p2 p3 s start.
Proof. exists (lit_c 40), digit, (lit_c 41), (text "(1"). vm_compute. discriminate. Qed.
Print Assumptions C21_middle_of_refuted.

Theorem C21_middle_of_exact : forall cfg p1 p2 p3, fits_sequence cfg 3 ->
  same_parser_but_message (middle_of cfg p1 p2 p3) (doc_middle_of cfg p1 p2 p3).
Proof. exact middle_of_doc. Qed.
Print Assumptions C21_middle_of_exact.

(** doc/token.qbk: white space is not required. *)
Theorem C21_token_refuted : exists p s,
  token c11 9 p s start <> doc_token c11 9 p s start.
Proof. exists digit, (text "1"). vm_compute. discriminate. Qed.
Print Assumptions C21_token_refuted.

Theorem C21_token_exact : forall cfg n p s ps r s1 ps1,
  fits_sequence cfg 2 -> (0 < n)%nat -> p s ps = Accept r s1 ps1 ->
  (~ not_starting_with space_char s1 -> token cfg n p s ps = doc_token cfg n p s ps)
  /\ (not_starting_with space_char s1 ->
      token cfg n p s ps = Accept r s1 ps1 /\ rejects (doc_token cfg n p) s ps).
Proof.
  intros cfg n p s ps r s1 ps1 F L E. split.
  - exact (token_doc_spaces cfg n p s ps r s1 ps1 F E).
  - exact (token_doc_nospaces cfg n p s ps r s1 ps1 F L E).
Qed.
Print Assumptions C21_token_exact.

(** doc/accept_when.qbk: an error of [p] is not replaced by the message. *)
Theorem C21_accept_when_refuted : exists p pr m s,
  accept_when p pr m s start <> doc_accept_when p pr m s start.
Proof. exists one_char, is_digit, digit_expected, []. vm_compute. discriminate. Qed.
Print Assumptions C21_accept_when_refuted.

Theorem C21_accept_when_exact : forall p pr m s ps,
  (forall m' pe, p s ps = Reject m' pe ->
     accept_when p pr m s ps = Reject m' pe /\ doc_accept_when p pr m s ps = Reject m ps)
  /\ (~ rejects p s ps -> accept_when p pr m s ps = doc_accept_when p pr m s ps).
Proof. exact accept_when_doc. Qed.
Print Assumptions C21_accept_when_exact.

(** doc/lit.qbk: other message at the end of the input. *)
Theorem C21_lit_refuted : exists c s, lit_c c s start <> doc_lit c s start.
Proof. exists 97, []. vm_compute. discriminate. Qed.
Print Assumptions C21_lit_refuted.

Theorem C21_lit_exact : forall c s ps,
  (s <> [] -> lit_c c s ps = doc_lit c s ps)
  /\ lit_c c [] ps = Reject (literal_expected c) ps
  /\ doc_lit c [] ps = Reject unexpected_end_of_input ps.
Proof. exact lit_doc. Qed.
Print Assumptions C21_lit_exact.

(** doc/digit.qbk: other message at the end of the input. *)
Theorem C21_digit_refuted : exists s,
  digit s start <> accept_when one_char is_digit digit_expected s start.
Proof. exists []. vm_compute. discriminate. Qed.
Print Assumptions C21_digit_refuted.

Theorem C21_digit_exact : forall s ps,
  (s <> [] -> digit s ps = accept_when one_char is_digit digit_expected s ps)
  /\ digit [] ps = Reject digit_expected ps
  /\ accept_when one_char is_digit digit_expected [] ps = Reject unexpected_end_of_input ps.
Proof.
  intros s ps. split; [|split; reflexivity].
  intros N. destruct s as [|d s]; [congruence|]. reflexivity.
Qed.
Print Assumptions C21_digit_exact.

(** doc/alphanum.qbk: other message in C++98 (the alternatives are in the other
    order). *)
Theorem C21_alphanum_refuted : exists s,
  alphanum c98 s start <> doc_alphanum c98 s start.
Proof. exists (text "+"). vm_compute. discriminate. Qed.
Print Assumptions C21_alphanum_refuted.

Theorem C21_alphanum_exact : forall cfg,
  (cfg_std cfg <> Std98 -> same_parser (alphanum cfg) (doc_alphanum cfg))
  /\ (fits_one_of cfg 2 -> same_parser_but_message (alphanum cfg) (doc_alphanum cfg)).
Proof. intros cfg. split; [exact (alphanum_doc_11 cfg)|exact (alphanum_doc cfg)]. Qed.
Print Assumptions C21_alphanum_exact.

(** doc/last_of.qbk: [nth_of_c<n, p1, ..., pn>] is out of range. *)
Theorem C21_last_of_refuted : forall cfg l s ps, fits_sequence cfg (length l) ->
  nth_of_c cfg (Z.of_nat (length l)) l s ps
  = Reject (index_out_of_range 0 (Z.of_nat (length l) - 1) (Z.of_nat (length l))) ps.
Proof. exact last_of_doc. Qed.
Print Assumptions C21_last_of_refuted.

Theorem C21_last_of_exact : forall cfg l, fits_sequence cfg (length l) -> l <> [] ->
  same_parser (last_of cfg l) (nth_of_c cfg (Z.of_nat (length l) - 1) l).
Proof. exact last_of_nth_of. Qed.
Print Assumptions C21_last_of_exact.

(** doc/int_.qbk: the arguments of the operation are swapped. *)
Theorem C21_int_refuted : exists s,
  int_ 9 s start = Accept (VInt 12) [] (mkpos 1 3 50)
  /\ doc_int 9 s start = Accept (VInt 30) [] (mkpos 1 3 50).
Proof. exists (text "12"). vm_compute. auto. Qed.
Print Assumptions C21_int_refuted.

Theorem C21_int_exact : forall n,
  same_parser (int_ n) (foldl1 n digit_val (Some (VInt 0)) (swap doc_int_op)).
Proof. exact int_exact. Qed.
Print Assumptions C21_int_exact.

(** doc/repeated.qbk: the arguments of the operation are swapped; the documented
    parser is ill-formed when one element is accepted; what [repeated] does is
    C13. *)
Theorem C21_repeated_refuted : forall n p s ps r s1 ps1 m pe,
  p s ps = Accept r s1 ps1 -> p s1 ps1 = Reject m pe ->
  (forall l, r <> VSeq l) -> (2 <= n)%nat ->
  doc_repeated n p s ps = Illformed.
Proof. exact doc_repeated_illformed. Qed.
Print Assumptions C21_repeated_refuted.

(** doc/sequence_apply.qbk: the documented parser does not consume. *)
Theorem C21_sequence_apply_refuted : exists t l s,
  sequence_apply c11 t l s start <> doc_sequence_apply c11 t l s start.
Proof. exists (VTmpl 0), [digit; digit], (text "12"). vm_compute. discriminate. Qed.
Print Assumptions C21_sequence_apply_refuted.

Theorem C21_sequence_apply_exact : forall cfg t l s ps,
  (1 <= length l < limit_sequence cfg)%nat ->
  (forall v s' ps', sequence_apply cfg t l s ps = Accept v s' ps' ->
     doc_sequence_apply cfg t l s ps = Accept v s ps
     /\ exists rs, sequence cfg l s ps = Accept (VSeq rs) s' ps' /\ v = t rs)
  /\ (~ accepts (sequence_apply cfg t l) s ps ->
      sequence_apply cfg t l s ps = doc_sequence_apply cfg t l s ps).
Proof. exact sequence_apply_doc. Qed.
Print Assumptions C21_sequence_apply_exact.

Example C21_case :
  doc_repeated 9 digit (text "1") start = Illformed
  /\ repeated 9 digit (text "1") start = Accept (VSeq [VChar 49]) [] (mkpos 1 2 49)
  /\ nth_of_c c98 2 [digit; letter] (text "1a") start = Reject (index_out_of_range 0 1 2) start
  /\ last_of c98 [digit; letter] (text "1a") start = Accept (VChar 97) [] (mkpos 1 3 97)
  /\ (1 <= length [digit; letter] < limit_sequence c98)%nat
  /\ ~ not_starting_with space_char (text " ") /\ not_starting_with space_char (text "a").
Proof.
  repeat (split; [vm_compute; reflexivity|]). split; [cbv; split; repeat constructor|].
  split; [intros H; apply H; left; reflexivity|].
  intros H. unfold space_char in H. cbn in H. destruct H as [H|[H|[H|H]]]; discriminate.
Qed.
