(** Lemmas for the properties of single headers (C22 - C32). *)

From Coq Require Import ZArith List Bool Lia Decimal DecimalN.
From Verif Require Import Base Util Combinators Variadic Parsers Spec
  Proofs_Pos Proofs_Fold Proofs_Variadic Proofs_Parsers Proofs_Parsers2 Proofs_Final3.
Import ListNotations.
Open Scope Z_scope.

Ltac by_cases_of t :=
  let E := fresh "E" in
  destruct t eqn:E; split;
  repeat match goal with
  | |- _ -> _ => intros ?H
  | H : exists _, _ |- _ => destruct H
  | H : _ /\ _ |- _ => destruct H
  end; subst; try discriminate; try congruence.

Lemma look_ahead_accept : forall p s ps v s' ps',
  look_ahead p s ps = Accept v s' ps' <->
  s' = s /\ ps' = ps /\ exists s1 ps1, p s ps = Accept v s1 ps1.
Proof.
  intros. unfold look_ahead. by_cases_of (p s ps).
  inversion H; subst. eauto.
Qed.

Lemma look_ahead_reject : forall p s ps m pe,
  look_ahead p s ps = Reject m pe <-> p s ps = Reject m pe.
Proof. intros. unfold look_ahead. by_cases_of (p s ps). Qed.

Lemma except_accept : forall p r m s ps v s' ps',
  except p r m s ps = Accept v s' ps' <->
  v = r /\ s' = s /\ ps' = ps /\ rejects p s ps.
Proof.
  intros. unfold except, rejects. by_cases_of (p s ps).
  inversion H; subst. eauto 6.
Qed.

Lemma except_reject : forall p r m s ps m' pe,
  except p r m s ps = Reject m' pe <-> m' = m /\ pe = ps /\ accepts p s ps.
Proof.
  intros. unfold except, accepts. by_cases_of (p s ps).
  inversion H; subst. eauto 6.
Qed.

Lemma if_accept : forall p t f s ps v s' ps',
  if_ p t f s ps = Accept v s' ps' <->
  s' = s /\ ps' = ps /\ ((accepts p s ps /\ v = t) \/ (rejects p s ps /\ v = f)).
Proof.
  intros. unfold if_, accepts, rejects. by_cases_of (p s ps).
  - inversion H; subst. eauto 8.
  - destruct H1 as [(_ & ->)|((a & b & X) & _)]; congruence.
  - inversion H; subst. eauto 8.
  - destruct H1 as [((a & b & c & X) & _)|(_ & ->)]; congruence.
  - destruct H1 as [((a & b & c & X) & _)|((a & b & X) & _)]; congruence.
  - destruct H1 as [((a & b & c & X) & _)|((a & b & X) & _)]; congruence.
Qed.

Lemma if_reject : forall p t f s ps m pe, if_ p t f s ps <> Reject m pe.
Proof. intros. unfold if_. destruct (p s ps); discriminate. Qed.

Lemma optional_accept : forall p d s ps v s' ps',
  optional p d s ps = Accept v s' ps' <->
  p s ps = Accept v s' ps' \/ (rejects p s ps /\ v = d /\ s' = s /\ ps' = ps).
Proof.
  intros. unfold optional, rejects. by_cases_of (p s ps); auto.
  - destruct H as [H|((a & b & X) & _)]; congruence.
  - inversion H; subst. right. eauto 8.
  - destruct H as [H|(_ & -> & -> & ->)]; congruence.
  - destruct H as [H|((a & b & X) & _)]; congruence.
  - destruct H as [H|((a & b & X) & _)]; congruence.
Qed.

Lemma optional_reject : forall p d s ps m pe, optional p d s ps <> Reject m pe.
Proof. intros. unfold optional. destruct (p s ps); discriminate. Qed.

Lemma facb_accept : forall p s ps v s' ps',
  fail_at_first_char_expected p s ps = Accept v s' ps' <->
  v = VVoid_ /\ s' = s /\ ps' = ps /\ exists m, p s ps = Reject m ps.
Proof.
  intros. unfold fail_at_first_char_expected. by_cases_of (p s ps).
  - destruct (pos_equal_to ps p0) eqn:Q; [|discriminate].
    apply pos_equal_to_iff in Q. inversion H; subst. eauto.
  - inversion H2; subst. rewrite pos_equal_to_refl. reflexivity.
Qed.

Lemma facb_reject : forall p s ps m pe,
  fail_at_first_char_expected p s ps = Reject m pe <->
  (p s ps = Reject m pe /\ pe <> ps)
  \/ (accepts p s ps /\ m = expected_to_fail /\ pe = ps).
Proof.
  intros. unfold fail_at_first_char_expected, accepts. by_cases_of (p s ps).
  - inversion H; subst. right. eauto 8.
  - destruct H as [(H & _)|(_ & -> & ->)]; congruence.
  - destruct (pos_equal_to ps p0) eqn:Q; [discriminate|]. left. inversion H; subst.
    split; auto. intros ->. rewrite pos_equal_to_refl in Q. discriminate.
  - destruct H as [(H & N)|((a & b & c & X) & _)]; [|congruence]. inversion H; subst.
    destruct (pos_equal_to ps pe) eqn:Q; [|reflexivity].
    apply pos_equal_to_iff in Q. congruence.
  - destruct H as [(H & _)|((a & b & c & X) & _)]; congruence.
  - destruct H as [(H & _)|((a & b & c & X) & _)]; congruence.
Qed.

Lemma empty_accept : forall r s ps v s' ps',
  empty r s ps = Accept v s' ps' <-> s = [] /\ v = r /\ s' = s /\ ps' = ps.
Proof. intros. unfold empty. by_cases_of s. inversion H; subst; auto. Qed.

Lemma empty_reject : forall r s ps m pe,
  empty r s ps = Reject m pe <-> s <> [] /\ m = end_of_input_expected /\ pe = ps.
Proof.
  intros. unfold empty. by_cases_of s.
  inversion H; subst. repeat split; auto; discriminate.
Qed.

(** ** Numbers *)

Lemma digit_int_inverse : forall c n,
  digit_to_int_c c = VInt n <-> int_to_digit_c n = Some (VChar c).
Proof.
  intros c n. unfold digit_to_int_c, int_to_digit_c. split.
  - repeat match goal with
    | |- (if ?a =? ?b then _ else _) = _ -> _ => destruct (Z.eqb_spec a b)
    end; intros H; inversion H; subst; reflexivity.
  - repeat match goal with
    | |- (if ?a =? ?b then _ else _) = _ -> _ => destruct (Z.eqb_spec a b)
    end; intros H; inversion H; subst; reflexivity.
Qed.

Lemma int_to_digit_domain : forall n,
  (exists v, int_to_digit_c n = Some v) <-> 0 <= n <= 9.
Proof.
  intros n. unfold int_to_digit_c. split.
  - repeat match goal with
    | |- context [if ?a =? ?b then _ else _] => destruct (Z.eqb_spec a b); [lia|]
    end. intros (v & H). discriminate.
  - intros H.
    assert (C : n = 0 \/ n = 1 \/ n = 2 \/ n = 3 \/ n = 4 \/ n = 5 \/ n = 6 \/ n = 7 \/ n = 8 \/ n = 9)
      by lia.
    repeat (destruct C as [->|C]; [eexists; reflexivity|]). subst. eexists; reflexivity.
Qed.

Lemma int_to_digit_value : forall n, 0 <= n <= 9 -> int_to_digit_c n = Some (VChar (48 + n)).
Proof.
  intros n H.
  assert (C : n = 0 \/ n = 1 \/ n = 2 \/ n = 3 \/ n = 4 \/ n = 5 \/ n = 6 \/ n = 7 \/ n = 8 \/ n = 9)
      by lia.
  repeat (destruct C as [->|C]; [reflexivity|]). subst. reflexivity.
Qed.

Lemma digit_to_int_value : forall c, digit_char c -> digit_to_int_c c = VInt (c - 48).
Proof.
  intros c H. apply digit_int_inverse. unfold digit_char in H.
  rewrite int_to_digit_value by lia. repeat f_equal. lia.
Qed.

Lemma digit_to_int_domain : forall c,
  (digit_char c -> exists n, digit_to_int_c c = VInt n)
  /\ (~ digit_char c -> digit_to_int_c c = VErr digit_expected).
Proof.
  intros c. split.
  - intros H. rewrite digit_to_int_value by exact H. eauto.
  - intros H. unfold digit_char in H. unfold digit_to_int_c.
    repeat match goal with
    | |- context [if ?a =? ?b then _ else _] => destruct (Z.eqb_spec a b); [lia|]
    end. reflexivity.
Qed.

(** Decimal numbers printed by the standard library. *)
Fixpoint chars_of_uint (u : Decimal.uint) : str :=
  match u with
  | Decimal.Nil => []
  | Decimal.D0 l => 48 :: chars_of_uint l
  | Decimal.D1 l => 49 :: chars_of_uint l
  | Decimal.D2 l => 50 :: chars_of_uint l
  | Decimal.D3 l => 51 :: chars_of_uint l
  | Decimal.D4 l => 52 :: chars_of_uint l
  | Decimal.D5 l => 53 :: chars_of_uint l
  | Decimal.D6 l => 54 :: chars_of_uint l
  | Decimal.D7 l => 55 :: chars_of_uint l
  | Decimal.D8 l => 56 :: chars_of_uint l
  | Decimal.D9 l => 57 :: chars_of_uint l
  end.
Definition print_number (k : N) : str := chars_of_uint (N.to_uint k).

Lemma chars_digits : forall u, Forall digit_char (chars_of_uint u).
Proof. induction u; cbn; constructor; auto; unfold digit_char; lia. Qed.

Lemma chars_acc : forall u a,
  decimal_acc (Zpos a) (chars_of_uint u) = Zpos (Pos.of_uint_acc u a).
Proof.
  induction u; intros a; cbn [chars_of_uint decimal_acc Pos.of_uint_acc]; auto;
    rewrite <- IHu; f_equal; try lia.
Qed.

Lemma chars_value : forall u, decimal (chars_of_uint u) = Z.of_N (N.of_uint u).
Proof.
  unfold decimal, N.of_uint.
  induction u; cbn [chars_of_uint decimal_acc Pos.of_uint Z.of_N]; auto; rewrite <- chars_acc;
    reflexivity.
Qed.

Lemma to_uint_nonempty : forall k, print_number k <> [].
Proof.
  intros k H. unfold print_number in H.
  assert (E : N.to_uint k = Decimal.Nil) by (destruct (N.to_uint k); cbn in H; congruence).
  pose proof (DecimalN.Unsigned.to_of Decimal.Nil) as T. cbn in T.
  assert (K : k = 0%N) by (rewrite <- (DecimalN.Unsigned.of_to k), E; reflexivity).
  subst. cbn in E. discriminate.
Qed.

Lemma int_round_trip : forall n k rest ps, Z.of_N k <= int_max ->
  not_starting_with digit_char rest -> (length (print_number k) < n)%nat ->
  exists ps', walk ps (print_number k) ps'
    /\ int_ n (print_number k ++ rest) ps = Accept (VInt (Z.of_N k)) rest ps'.
Proof.
  intros n k rest ps L N D.
  pose proof (walk_adv (print_number k) ps) as W. exists (adv ps (print_number k)). split; auto.
  apply int_accept. exists (print_number k). unfold print_number in *.
  rewrite chars_value, DecimalN.Unsigned.of_to. repeat split; auto.
  - apply to_uint_nonempty.
  - apply chars_digits.
Qed.

(** ** Brackets *)

Lemma middle_of_accept : forall cfg p1 p2 p3 s ps v s' ps', fits_sequence cfg 3 ->
  (middle_of cfg p1 p2 p3 s ps = Accept v s' ps' <->
   exists r1 r3, in_row [p1; p2; p3] s ps [r1; v; r3] s' ps').
Proof.
  intros cfg p1 p2 p3 s ps v s' ps' F. rewrite middle_of_spec by exact F. split.
  - destruct (p1 s ps) as [r1 s1 ps1| | |] eqn:E1; try discriminate.
    destruct (p2 s1 ps1) as [r2 s2 ps2| | |] eqn:E2; try discriminate.
    destruct (p3 s2 ps2) as [r3 s3 ps3| | |] eqn:E3; try discriminate.
    intros H. inversion H; subst. exists r1, r3.
    econstructor; [exact E1|]. econstructor; [exact E2|]. econstructor; [exact E3|]. constructor.
  - intros (r1 & r3 & H).
    apply in_row_cons_inv in H. destruct H as (a & b & c & d & Q & E1 & H). inversion Q; subst.
    apply in_row_cons_inv in H. destruct H as (a' & b' & c' & d' & Q' & E2 & H). inversion Q'; subst.
    apply in_row_cons_inv in H. destruct H as (a'' & b'' & c'' & d'' & Q'' & E3 & H).
    inversion Q''; subst. inversion H; subst. rewrite E1, E2, E3. reflexivity.
Qed.

Lemma middle_of_reject : forall cfg p1 p2 p3 s ps m pe, fits_sequence cfg 3 ->
  (middle_of cfg p1 p2 p3 s ps = Reject m pe <->
   p1 s ps = Reject m pe
   \/ (exists r1 s1 ps1, p1 s ps = Accept r1 s1 ps1 /\ p2 s1 ps1 = Reject m pe)
   \/ (exists r1 s1 ps1 r2 s2 ps2 m3, p1 s ps = Accept r1 s1 ps1
        /\ p2 s1 ps1 = Accept r2 s2 ps2 /\ p3 s2 ps2 = Reject m3 pe
        /\ m = unpaired (line ps) (col ps) m3)).
Proof.
  intros cfg p1 p2 p3 s ps m pe F. rewrite middle_of_spec by exact F. split.
  - destruct (p1 s ps) as [r1 s1 ps1|m1 pe1| |] eqn:E1; try discriminate; auto.
    destruct (p2 s1 ps1) as [r2 s2 ps2|m2 pe2| |] eqn:E2; try discriminate.
    + destruct (p3 s2 ps2) as [r3 s3 ps3|m3 pe3| |] eqn:E3; try discriminate.
      intros H. inversion H; subst. right. right.
      exists r1, s1, ps1, r2, s2, ps2, m3. auto.
    + intros H. right. left. exists r1, s1, ps1. rewrite E2. auto.
  - intros [H|[(r1 & s1 & ps1 & A & B)|(r1 & s1 & ps1 & r2 & s2 & ps2 & m3 & A & B & C & ->)]].
    + rewrite H. reflexivity.
    + rewrite A, B. reflexivity.
    + rewrite A, B, C. reflexivity.
Qed.

(** ** entire_input *)

Lemma entire_input_accept : forall cfg p m s ps v s' ps', fits_sequence cfg 2 ->
  (entire_input cfg p m s ps = Accept v s' ps' <-> p s ps = Accept v [] ps' /\ s' = []).
Proof.
  intros cfg p m s ps v s' ps' F. rewrite entire_input_spec by exact F.
  destruct (p s ps) as [r [|c s1] ps1|m1 pe| |]; split; intros H; try discriminate;
    try (destruct H as (H & H'); try discriminate; inversion H; subst; reflexivity).
  inversion H; subst. auto.
Qed.

Lemma entire_input_reject : forall cfg p m s ps m' pe, fits_sequence cfg 2 ->
  (entire_input cfg p m s ps = Reject m' pe <->
   p s ps = Reject m' pe
   \/ exists r s1, s1 <> [] /\ p s ps = Accept r s1 pe /\ m' = m).
Proof.
  intros cfg p m s ps m' pe F. rewrite entire_input_spec by exact F.
  destruct (p s ps) as [r [|c s1] ps1|m1 pe1| |]; split; intros H; try discriminate; auto;
    try (destruct H as [H|(r' & s' & N & H & ->)]; inversion H; subst; congruence).
  inversion H; subst. right. exists r, (c :: s1). split; auto. discriminate.
Qed.

(** ** transform *)

Lemma transform_accept : forall p f s ps v s' ps',
  transform p f s ps = Accept v s' ps' <->
  exists r, p s ps = Accept r s' ps' /\ f r = Some v.
Proof.
  intros. unfold transform. by_cases_of (p s ps).
  - destruct (f r) eqn:Q; [|discriminate]. inversion H; subst. eauto.
  - inversion H; subst. rewrite H0. reflexivity.
Qed.

Lemma transform_reject : forall p f s ps m pe,
  transform p f s ps = Reject m pe <-> p s ps = Reject m pe.
Proof. intros. unfold transform. by_cases_of (p s ps). destruct (f r); discriminate. Qed.

Lemma transform_illformed : forall p f s ps,
  transform p f s ps = Illformed <->
  p s ps = Illformed \/ exists r s' ps', p s ps = Accept r s' ps' /\ f r = None.
Proof.
  intros. unfold transform. by_cases_of (p s ps); auto.
  - destruct (f r) eqn:Q; [discriminate|]. right. eauto 8.
  - destruct H as [H|(a & b & c & H & Q)]; [discriminate|]. inversion H; subst. rewrite Q. reflexivity.
  - destruct H as [H|(a & b & c & H & Q)]; congruence.
  - destruct H as [H|(a & b & c & H & Q)]; congruence.
Qed.

Lemma transform_identity : forall p f, (forall v, f v = Some v) ->
  same_parser (transform p f) p.
Proof. intros p f H s ps. unfold transform. destruct (p s ps); auto. rewrite H. reflexivity. Qed.

Lemma transform_compose : forall p f g,
  same_parser (transform (transform p f) g)
    (transform p (fun v => match f v with Some w => g w | None => None end)).
Proof.
  intros p f g s ps. unfold transform. destruct (p s ps); auto. destruct (f r); reflexivity.
Qed.

Lemma tem_accept : forall p f s ps v s' ps',
  transform_error_message p f s ps = Accept v s' ps' <-> p s ps = Accept v s' ps'.
Proof. intros. unfold transform_error_message. by_cases_of (p s ps). destruct (f m); discriminate. Qed.

Lemma tem_reject : forall p f s ps m pe,
  transform_error_message p f s ps = Reject m pe <->
  exists m0, p s ps = Reject m0 pe /\ f m0 = Some m.
Proof.
  intros. unfold transform_error_message. by_cases_of (p s ps).
  - destruct (f m0) eqn:Q; [|discriminate]. inversion H; subst. eauto.
  - inversion H; subst. rewrite H0. reflexivity.
Qed.

Lemma te_accept : forall p f s ps v s' ps',
  transform_error p f s ps = Accept v s' ps' <->
  p s ps = Accept v s' ps' \/ exists m pe, p s ps = Reject m pe /\ f m pe = Accept v s' ps'.
Proof.
  intros. unfold transform_error. by_cases_of (p s ps); eauto.
  - destruct H as [H|(a & b & H & _)]; congruence.
  - destruct H as [H|(a & b & H & Q)]; congruence.
  - destruct H as [H|(a & b & H & Q)]; congruence.
  - destruct H as [H|(a & b & H & Q)]; congruence.
Qed.

Lemma cem_accept : forall p m s ps v s' ps',
  change_error_message p m s ps = Accept v s' ps' <-> p s ps = Accept v s' ps'.
Proof. intros. unfold change_error_message. by_cases_of (p s ps). Qed.

Lemma cem_reject : forall p m s ps m' pe,
  change_error_message p m s ps = Reject m' pe <-> rejects p s ps /\ m' = m /\ pe = ps.
Proof.
  intros. unfold change_error_message, rejects. by_cases_of (p s ps).
  inversion H; subst. eauto.
Qed.

Lemma sequence_apply_accept : forall cfg t l s ps v s' ps',
  (1 <= length l < limit_sequence cfg)%nat ->
  (sequence_apply cfg t l s ps = Accept v s' ps' <->
   exists rs, in_row l s ps rs s' ps' /\ v = t rs).
Proof.
  intros cfg t l s ps v s' ps' L. rewrite sequence_apply_spec by exact L.
  assert (F : fits_sequence cfg (length l)) by (intros _; lia).
  assert (N : l <> []) by (intros Z; rewrite Z in L; cbn in L; lia).
  split.
  - destruct (sequence cfg l s ps) as [x s1 ps1| | |] eqn:E; try discriminate.
    apply sequence_cfg_accept in E; auto. destruct E as (rs & -> & R).
    intros H. inversion H; subst. eauto.
  - intros (rs & R & ->).
    assert (E : sequence cfg l s ps = Accept (VSeq rs) s' ps')
      by (apply sequence_cfg_accept; eauto).
    rewrite E. reflexivity.
Qed.

Lemma sequence_apply_reject : forall cfg t l s ps m pe,
  (1 <= length l < limit_sequence cfg)%nat ->
  (sequence_apply cfg t l s ps = Reject m pe <-> first_failure l s ps (Reject m pe)).
Proof.
  intros cfg t l s ps m pe L. rewrite sequence_apply_spec by exact L.
  assert (F : fits_sequence cfg (length l)) by (intros _; lia).
  assert (N : l <> []) by (intros Z; rewrite Z in L; cbn in L; lia).
  destruct (sequence_cfg_failure cfg l s ps F N) as (A & _). rewrite <- A.
  destruct (sequence cfg l s ps) as [x s1 ps1| | |] eqn:E; try reflexivity.
  apply sequence_cfg_accept in E; auto. destruct E as (rs & -> & R).
  split; discriminate.
Qed.

(** ** build_parser *)

Lemma build_parser_built : forall p s v,
  build_parser p s = Built v <-> exists s' ps', p s (mkpos 1 1 0) = Accept v s' ps'.
Proof.
  intros. unfold build_parser. change start with (mkpos 1 1 0).
  by_cases_of (p s (mkpos 1 1 0)). inversion H; subst. eauto.
Qed.

Lemma build_parser_failed : forall p s l c m,
  build_parser p s = ParsingFailed l c m <->
  exists pe, p s (mkpos 1 1 0) = Reject m pe /\ line pe = l /\ col pe = c.
Proof.
  intros. unfold build_parser. change start with (mkpos 1 1 0).
  by_cases_of (p s (mkpos 1 1 0)). inversion H; subst. eauto.
Qed.

Lemma build_parser_other : forall p s,
  (build_parser p s = BuildIllformed <-> p s (mkpos 1 1 0) = Illformed)
  /\ (build_parser p s = BuildOutOfFuel <-> p s (mkpos 1 1 0) = OutOfFuel).
Proof.
  intros. unfold build_parser. change start with (mkpos 1 1 0).
  destruct (p s (mkpos 1 1 0)); split; split; intros; congruence.
Qed.

(** ** Integral constants *)

Lemma numeral_as_int : forall v n, numeral v n <-> as_int v = Some n.
Proof.
  intros v n. split.
  - intros H. destruct H; reflexivity.
  - intros H. destruct v; try discriminate; simpl in H; injection H as <-.
    + constructor.
    + constructor.
    + destruct b; constructor.
Qed.

Lemma integral_constants : forall v n, numeral v n ->
  (forall lo hi, exists b, in_range_c lo hi v = Some b /\ (b = true <-> lo <= n <= hi))
  /\ (exists b, is_digit v = Some b /\ (b = true <-> digit_char n))
  /\ (exists b, is_letter v = Some b /\ (b = true <-> letter_char n))
  /\ (exists b, is_whitespace v = Some b /\ (b = true <-> space_char n))
  /\ digit_to_int v = Some (digit_to_int_c n)
  /\ int_to_digit v = int_to_digit_c n
  /\ (forall s, push_back (VStr s) v = Some (VStr (s ++ [n])) /\ push_front (VStr s) v = Some (VStr (n :: s))).
Proof.
  intros v n H. apply numeral_as_int in H.
  assert (R : forall lo hi, exists b, in_range_c lo hi v = Some b /\ (b = true <-> lo <= n <= hi)).
  { intros lo hi. unfold in_range_c. rewrite H. eexists. split; [reflexivity|].
    rewrite andb_true_iff, !Z.leb_le. tauto. }
  split; [exact R|]. split; [apply R|]. split; [|split; [|split; [|split]]].
  - unfold is_letter, is_lcase_letter, is_ucase_letter.
    destruct (R 97 122) as (b1 & -> & E1). destruct (R 65 90) as (b2 & -> & E2).
    unfold letter_char. destruct b1, b2; eexists; (split; [reflexivity|]); intuition discriminate.
  - unfold is_whitespace. rewrite H. eexists. split; [reflexivity|]. unfold is_whitespace_c, space_char.
    rewrite !orb_true_iff, !Z.eqb_eq. tauto.
  - unfold digit_to_int. rewrite H. reflexivity.
  - unfold int_to_digit. rewrite H. reflexivity.
  - intros s. unfold push_back, push_front. rewrite H. split; reflexivity.
Qed.

Lemma other_values : forall v, (forall n, ~ numeral v n) ->
  (forall lo hi, in_range_c lo hi v = None) /\ is_digit v = None /\ is_letter v = None /\ is_whitespace v = None
  /\ digit_to_int v = None /\ int_to_digit v = None.
Proof.
  intros v H. assert (E : as_int v = None).
  { destruct (as_int v) eqn:E; [|reflexivity]. exfalso. apply (H z). apply numeral_as_int. exact E. }
  unfold is_digit, is_letter, is_lcase_letter, is_ucase_letter, is_whitespace, in_range_c, digit_to_int, int_to_digit.
  rewrite E. repeat split.
Qed.
