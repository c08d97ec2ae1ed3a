(** C44: error texts identify the error; C45: the report of
    debug_parsing_error identifies the outcome. *)

From Coq Require Import ZArith List Bool Lia Decimal DecimalZ DecimalPos DecimalN.
From Verif Require Import Base Util Combinators Variadic Parsers Messages Spec.
Import ListNotations.
Open Scope Z_scope.

(** ** Lemmas on printed numbers *)

Lemma uint_chars_digits : forall u, Forall digit_char (uint_chars u).
Proof. induction u; cbn; constructor; auto; unfold digit_char; lia. Qed.

Lemma to_int_nonempty : forall n u, Z.to_int n = Pos u \/ Z.to_int n = Neg u -> u <> Nil.
Proof.
  assert (P : forall p u, Pos.to_uint p = u -> u <> Nil).
  { intros p u <- H. exact (DecimalPos.Unsigned.to_uint_nonnil p H). }
  intros [|p|p] u H; cbn in H; destruct H as [H|H]; try discriminate; injection H as H; subst.
  - discriminate.
  - eapply P; reflexivity.
  - eapply P; reflexivity.
Qed.

Lemma print_int_shape : forall n, exists sign ds,
  print_int n = sign ++ ds /\ (sign = [] \/ sign = [45]) /\ ds <> [] /\ Forall digit_char ds.
Proof.
  intro n. unfold print_int. destruct (Z.to_int n) as [u|u] eqn:E.
  - exists [], (uint_chars u). repeat split; auto using uint_chars_digits.
    assert (u <> Nil) by (eapply to_int_nonempty; left; exact E). now destruct u.
  - exists [45], (uint_chars u). repeat split; auto using uint_chars_digits.
    assert (u <> Nil) by (eapply to_int_nonempty; right; exact E). now destruct u.
Qed.

Lemma uint_chars_split : forall u v x y,
  not_starting_with digit_char x -> not_starting_with digit_char y ->
  uint_chars u ++ x = uint_chars v ++ y -> u = v /\ x = y.
Proof.
  assert (N : forall c (x z : str), digit_char c -> not_starting_with digit_char x -> x <> c :: z).
  { intros c x z Hc Hx ->. exact (Hx Hc). }
  induction u; destruct v; intros x y Hx Hy H; cbn [uint_chars List.app] in H;
    try (split; [reflexivity|exact H]);
    try (exfalso; revert H; apply N; [unfold digit_char; lia|assumption]);
    try (exfalso; symmetry in H; revert H; apply N; [unfold digit_char; lia|assumption]);
    try discriminate;
    apply (f_equal (@tl Z)) in H; cbn [tl] in H;
    apply IHu in H; auto; destruct H; subst; auto.
Qed.

Lemma print_int_split : forall a b x y,
  not_starting_with digit_char x -> not_starting_with digit_char y ->
  print_int a ++ x = print_int b ++ y -> a = b /\ x = y.
Proof.
  intros a b x y Hx Hy H. unfold print_int in H.
  assert (E : Z.to_int a = Z.to_int b /\ x = y).
  { destruct (Z.to_int a) as [u|u] eqn:Ea; destruct (Z.to_int b) as [v|v] eqn:Eb.
    - apply uint_chars_split in H; auto. destruct H; subst; auto.
    - assert (u <> Nil) by (eapply to_int_nonempty; left; exact Ea).
      destruct u; cbn in H; congruence.
    - assert (v <> Nil) by (eapply to_int_nonempty; left; exact Eb).
      destruct v; cbn in H; congruence.
    - cbn [List.app] in H. injection H as H. apply uint_chars_split in H; auto. destruct H; subst; auto. }
  destruct E as [E ->]. split; [|reflexivity].
  rewrite <- (DecimalZ.of_to a), <- (DecimalZ.of_to b). now rewrite E.
Qed.

Lemma print_int_inj : forall a b, print_int a = print_int b -> a = b.
Proof.
  intros a b H. apply (print_int_split a b [] []); cbn; auto. now rewrite !app_nil_r.
Qed.

Definition number_char (c : char) : Prop := digit_char c \/ c = 45.

Lemma print_int_chars : forall n, Forall number_char (print_int n).
Proof.
  intro n. destruct (print_int_shape n) as [sg [ds [-> [Hs [_ Hd]]]]].
  apply Forall_app. split.
  - destruct Hs as [->| ->]; [constructor|]. constructor; [now right|constructor].
  - eapply Forall_impl; [|exact Hd]. intros c Hc. now left.
Qed.

Lemma print_int_nonempty : forall n, print_int n <> [].
Proof.
  intros n H. destruct (print_int_shape n) as [sg [ds [E [_ [Hd _]]]]].
  rewrite E in H. apply app_eq_nil in H. tauto.
Qed.

(** Two texts of characters of a class followed by something else. *)
Lemma span_split : forall (P : char -> Prop) (a b x y : str),
  Forall P a -> Forall P b -> not_starting_with P x -> not_starting_with P y ->
  a ++ x = b ++ y -> a = b /\ x = y.
Proof.
  intros P. induction a as [|c a IH]; intros [|d b] x y Ha Hb Hx Hy H; cbn [List.app] in H.
  - auto.
  - inversion Hb; subst. cbn in Hx. tauto.
  - inversion Ha; subst. cbn in Hy. tauto.
  - injection H as -> H. inversion Ha; inversion Hb; subst.
    apply IH in H; auto. destruct H; subst; auto.
Qed.

(** ** C44 *)

(** A number is shown in decimal: an optional minus sign and digits with the
    right value. *)
Lemma uint_chars_acc : forall u a,
  decimal_acc (Zpos a) (uint_chars u) = Zpos (Pos.of_uint_acc u a).
Proof.
  induction u; intros a; cbn [uint_chars decimal_acc Pos.of_uint_acc]; auto;
    rewrite <- IHu; f_equal; lia.
Qed.

Lemma uint_chars_value : forall u, decimal (uint_chars u) = Z.of_uint u.
Proof.
  unfold decimal, Z.of_uint.
  induction u; cbn [uint_chars decimal_acc Pos.of_uint]; auto;
    try exact IHu; apply uint_chars_acc.
Qed.

Theorem C44_numbers_are_decimal : forall n : Z,
  (0 <= n -> Forall digit_char (print_int n) /\ decimal (print_int n) = n) /\
  (n < 0 -> exists ds, print_int n = 45 :: ds /\ Forall digit_char ds /\ decimal ds = - n).
Proof.
  intro n. unfold print_int.
  pose proof (DecimalZ.of_to n) as E.
  destruct n as [|p|p]; cbn [Z.to_int] in *; split; intro H; try lia.
  - split; [repeat constructor; unfold digit_char; lia|reflexivity].
  - split; [apply uint_chars_digits|]. rewrite uint_chars_value. exact E.
  - exists (uint_chars (Pos.to_uint p)). split; [reflexivity|].
    split; [apply uint_chars_digits|]. rewrite uint_chars_value. cbn [Z.of_int] in E. lia.
Qed.

Example C44_numbers_example :
  print_int 2048 = text "2048" /\ print_int (-7) = text "-7" /\ print_int 0 = text "0".
Proof. now vm_compute. Qed.

(** The errors of the library, possibly wrapped into [unpaired] *)
Fixpoint library_error (m : msg) : Prop :=
  match m with
  | UserMsg _ => False
  | unpaired _ _ m' => library_error m'
  | _ => True
  end.

Lemma unpaired_text : forall t1 t2 l1 c1 l2 c2,
  t1 ++ literal " (see " ++ print_int l1 ++ literal ":" ++ print_int c1 ++ literal ")" =
  t2 ++ literal " (see " ++ print_int l2 ++ literal ":" ++ print_int c2 ++ literal ")" ->
  t1 = t2 /\ l1 = l2 /\ c1 = c2.
Proof.
  intros t1 t2 l1 c1 l2 c2 H.
  apply (f_equal (@List.rev Z)) in H. rewrite !rev_app_distr in H. rewrite <- !app_assoc in H.
  change (List.rev (literal ")")) with [41] in H.
  change (List.rev (literal ":")) with [58] in H.
  change (List.rev (literal " (see ")) with (32 :: List.rev (literal " (see")) in H.
  cbn [List.app] in H. injection H as H.
  assert (F : forall n, Forall number_char (List.rev (print_int n)))
    by (intro n; apply Forall_rev, print_int_chars).
  apply (span_split number_char) in H; auto;
    try (cbn; unfold number_char, digit_char; lia).
  destruct H as [Hc H]. injection H as H.
  apply (span_split number_char) in H; auto;
    try (cbn; unfold number_char, digit_char; lia).
  destruct H as [Hl H]. injection H as H.
  apply (f_equal (@List.rev Z)) in Hc, Hl. rewrite !rev_involutive in Hc, Hl.
  apply print_int_inj in Hc, Hl.
  apply (f_equal (@List.rev Z)) in H. rewrite !rev_involutive in H. auto.
Qed.

(** The texts of the errors that are not [unpaired] do not end in a number and
    a closing bracket. *)
Lemma not_unpaired_text : forall user t l c m,
  t ++ literal " (see " ++ print_int l ++ literal ":" ++ print_int c ++ literal ")"
    = get_value user m -> library_error m ->
  match m with unpaired _ _ _ => True | _ => False end.
Proof.
  intros user t l c m H L. apply (f_equal (@List.rev Z)) in H.
  rewrite !rev_app_distr in H. change (List.rev (literal ")")) with [41] in H.
  destruct m; cbn [library_error] in L; auto; cbn [get_value] in H;
    try (vm_compute in H; discriminate).
  - rewrite !rev_app_distr in H. cbn in H. discriminate.
  - rewrite rev_app_distr in H. cbn [List.rev List.app] in H. injection H as _ H.
    destruct (List.rev (print_int c)) as [|d r] eqn:E.
    + apply (f_equal (@List.rev Z)) in E. rewrite rev_involutive in E.
      now apply print_int_nonempty in E.
    + assert (D : number_char d).
      { assert (F : Forall number_char (List.rev (print_int c))) by apply Forall_rev, print_int_chars.
        rewrite E in F. now inversion F. }
      cbn in H. injection H as -> _. unfold number_char, digit_char in D. lia.
Qed.

Theorem C44_text_identifies_error : forall (user : nat -> str) (m1 m2 : msg),
  library_error m1 -> library_error m2 ->
  get_value user m1 = get_value user m2 -> m1 = m2.
Proof.
  intros user. induction m1; destruct m2; intros L1 L2 H; auto;
    try (cbn [library_error] in L1, L2; tauto);
    try (exfalso; vm_compute in H; discriminate);
    try (exfalso; exact (not_unpaired_text _ _ _ _ _ H L2));
    try (exfalso; symmetry in H; exact (not_unpaired_text _ _ _ _ _ H L1));
    cbn [get_value] in H.
  - apply app_inv_head in H.
    apply print_int_split in H; try (cbn; unfold digit_char; lia).
    destruct H as [-> H]. apply app_inv_head in H.
    apply print_int_split in H; try (cbn; unfold digit_char; lia).
    destruct H as [-> H]. apply app_inv_head in H.
    apply print_int_split in H; try (cbn; unfold digit_char; lia).
    destruct H as [-> _]. reflexivity.
  - apply app_inv_head in H. congruence.
  - apply unpaired_text in H. destruct H as [H [-> ->]]. f_equal. auto.
Qed.

Example C44_text_identifies_error_example :
  let user := fun _ => [] in
  get_value user (unpaired 1 10 (literal_expected 41)) = text "Expected: ) (see 1:10)" /\
  get_value user (index_out_of_range 0 2 5) = text "index (5) out of range [0-2]" /\
  library_error (unpaired 1 10 (literal_expected 41)).
Proof. vm_compute. auto. Qed.

(** The text of the error in a pair of brackets shows the inner text first,
    whatever that is. *)
Theorem C44_unpaired_text : forall user l1 c1 m1 l2 c2 m2,
  get_value user (unpaired l1 c1 m1) = get_value user (unpaired l2 c2 m2) ->
  l1 = l2 /\ c1 = c2 /\ get_value user m1 = get_value user m2.
Proof.
  intros user l1 c1 m1 l2 c2 m2 H. cbn [get_value] in H. apply unpaired_text in H. tauto.
Qed.

Example C44_unpaired_text_example :
  get_value (fun _ => text "Custom") (unpaired 12 3 (UserMsg 0)) = text "Custom (see 12:3)".
Proof. reflexivity. Qed.

(** ** C45: debug_parsing_error *)

Definition no_nul (s : str) : Prop := Forall (fun c => c <> 0) s.

Lemma print_c_str_no_nul : forall s, no_nul s -> print_c_str s = s.
Proof.
  induction s as [|c s IH]; intro H; [reflexivity|]. inversion H; subst. cbn [print_c_str].
  destruct (Z.eqb_spec c 0); [tauto|]. f_equal. auto.
Qed.

(** The part of an outcome that the report is about *)
Inductive same_report (user : nat -> str) : outcome -> outcome -> Prop :=
| same_accept : forall r1 r2 rem p1 p2,
    same_report user (Accept r1 rem p1) (Accept r2 rem p2)
| same_reject : forall m1 m2 p1 p2,
    line p1 = line p2 -> col p1 = col p2 -> get_value user m1 = get_value user m2 ->
    same_report user (Reject m1 p1) (Reject m2 p2).

Definition remaining_no_nul (o : outcome) : Prop :=
  match o with Accept _ rem _ => no_nul rem | _ => True end.

Lemma some_inj : forall (A : Type) (a b : A), Some a = Some b -> a = b.
Proof. congruence. Qed.

Lemma display_identifies : forall user o1 o2 t,
  remaining_no_nul o1 -> remaining_no_nul o2 ->
  display user o1 = Some t -> display user o2 = Some t -> same_report user o1 o2.
Proof.
  intros user o1 o2 t N1 N2 H1 H2.
  destruct o1 as [r1 rem1 p1|m1 p1| |]; destruct o2 as [r2 rem2 p2|m2 p2| |];
    cbn [display] in H1, H2; try discriminate; apply some_inj in H1; apply some_inj in H2; subst t.
  - apply app_inv_head in H2. apply app_inv_head in H2. apply app_inv_tail in H2.
    cbn in N1, N2. rewrite !print_c_str_no_nul in H2 by auto. subst. constructor.
  - exfalso. vm_compute in H2. discriminate.
  - exfalso. vm_compute in H2. discriminate.
  - apply app_inv_head in H2. apply app_inv_head in H2. apply app_inv_head in H2.
    apply print_int_split in H2; try (cbn; unfold digit_char; lia).
    destruct H2 as [El H2]. apply app_inv_head in H2.
    apply print_int_split in H2; try (cbn; unfold digit_char; lia).
    destruct H2 as [Ec H2]. apply app_inv_head in H2. apply app_inv_tail in H2.
    constructor; auto.
Qed.

(** Reports of two parsers on the same input are equal only if both reject at
    the same line and column with the same text, or both accept leaving the
    same text. *)
Theorem C45_report_identifies_outcome : forall (user : nat -> str) (p q : pfun) (s t : str),
  remaining_no_nul (p s start) -> remaining_no_nul (q s start) ->
  debug_parsing_error user p s = Some t -> debug_parsing_error user q s = Some t ->
  same_report user (p s start) (q s start).
Proof.
  intros user p q s t N1 N2 H1 H2. unfold debug_parsing_error in H1, H2.
  destruct (display user (p s start)) as [t1|] eqn:E1; [|discriminate].
  destruct (display user (q s start)) as [t2|] eqn:E2; [|discriminate].
  apply some_inj in H1, H2. subst t.
  do 9 (apply app_inv_head in H2). subst t2.
  eapply display_identifies; eauto.
Qed.

(** The report of the reference manual's example (doc/debug_parsing_error.qbk) *)
Example C45_report_example :
  debug_parsing_error (fun _ => []) (int_ 20) (text "not an int") =
  Some (text "Compile-time parsing results" ++ [10] ++
        text "----------------------------" ++ [10] ++
        text "Input text:" ++ [10] ++
        text "not an int" ++ [10] ++ [10] ++
        text "Parsing failed:" ++ [10] ++
        text "line 1, col 1: Digit expected" ++ [10]).
Proof. reflexivity. Qed.

(** There is a report exactly if parsing finishes. *)
Theorem C45_report_exists : forall (user : nat -> str) (p : pfun) (s : str),
  (exists t, debug_parsing_error user p s = Some t) <->
  p s start <> Illformed /\ p s start <> OutOfFuel.
Proof.
  intros user p s. unfold debug_parsing_error.
  destruct (p s start) as [r rem ps|m ps| |]; cbn [display].
  - split; [|eauto]. intros _. split; discriminate.
  - split; [|eauto]. intros _. split; discriminate.
  - split; [intros [t H]; discriminate|tauto].
  - split; [intros [t H]; discriminate|tauto].
Qed.

(** With a NUL character in the remaining text the report does not show all of
    it. *)
Theorem C45_nul_refuted : exists (p q : pfun) (s t : str) (user : nat -> str),
  debug_parsing_error user p s = Some t /\ debug_parsing_error user q s = Some t /\
  get_remaining (p s start) <> get_remaining (q s start).
Proof.
  exists (return_ VVoid), (keyword [0; 97] VVoid), [0; 97].
  eexists. exists (fun _ => []). split; [reflexivity|]. split; [reflexivity|]. discriminate.
Qed.

Print Assumptions C44_numbers_are_decimal.
Print Assumptions C44_text_identifies_error.
Print Assumptions C44_unpaired_text.
Print Assumptions C45_report_identifies_outcome.
Print Assumptions C45_report_exists.
Print Assumptions C45_nul_refuted.
