(** Parsing a string agrees with parsing the characters of the string. *)

From Coq Require Import ZArith List Bool Lia.
From Verif Require Import Base Util Combinators Variadic Parsers Deep Spec SpecDeep
  Proofs_Pos Proofs_Fold Proofs_Variadic Proofs_Parsers Proofs_Deep
  Strings Proofs_Strings StringParse SpecStringParse.
Import ListNotations.
Open Scope Z_scope.

Section Rep.
Variable o : string_ops.
Variable dom : str -> Prop.
Let rep := so_string o.
Hypothesis view : forall s, dom s ->
  match s with
  | [] => so_empty o (rep s) = Some true
  | c :: s' => so_empty o (rep s) = Some false /\ so_front o (rep s) = Some c /\
               so_pop_front o (rep s) = Some (rep s') /\ dom s'
  end.

Definition in_dom (r : outcome) : Prop :=
  match r with Accept _ rem _ => dom rem | _ => True end.

Definition irel (p p' : pfun) : Prop :=
  forall s ps, dom s -> p' (rep s) ps = with_rest rep (p s ps) /\ in_dom (p s ps).

Ltac istep H s ps D :=
  let E := fresh "E" in let G := fresh "G" in
  destruct (H s ps D) as [E G]; rewrite E; clear E;
  match type of G with in_dom ?t => destruct t eqn:? end;
  cbn [with_rest in_dom] in *; auto.

Lemma irel_return : forall v, irel (return_ v) (return_ v).
Proof. intros v s ps D. unfold return_. cbn. auto. Qed.
Lemma irel_fail : forall m, irel (fail m) (fail m).
Proof. intros m s ps D. unfold fail. cbn. auto. Qed.
Lemma irel_one_char : irel one_char (one_char_on o).
Proof.
  intros s ps D. pose proof (view s D) as V. unfold one_char, one_char_on.
  destruct s as [|c s].
  - rewrite V. cbn. auto.
  - destruct V as (-> & -> & -> & Ds). cbn. auto.
Qed.
Lemma irel_empty : forall r, irel (empty r) (empty_on o r).
Proof.
  intros r s ps D. pose proof (view s D) as V. unfold empty, empty_on.
  destruct s as [|c s].
  - rewrite V. cbn. auto.
  - destruct V as (-> & _). cbn. auto.
Qed.
Lemma irel_accept_when : forall p q pr m, irel p q ->
  irel (accept_when p pr m) (accept_when q pr m).
Proof.
  intros p q pr m H s ps D. unfold accept_when. istep H s ps D.
  destruct (pr r) as [[|]|]; cbn; auto.
Qed.
Lemma irel_change_error_message : forall p q m, irel p q ->
  irel (change_error_message p m) (change_error_message q m).
Proof. intros p q m H s ps D. unfold change_error_message. istep H s ps D. Qed.
Lemma irel_transform : forall p q f, irel p q -> irel (transform p f) (transform q f).
Proof.
  intros p q f H s ps D. unfold transform. istep H s ps D. destruct (f r); cbn; auto.
Qed.
Lemma irel_transform_error : forall p q f, irel p q ->
  (forall m ps, with_rest rep (f m ps) = f m ps /\ in_dom (f m ps)) ->
  irel (transform_error p f) (transform_error q f).
Proof.
  intros p q f H C s ps D. unfold transform_error. istep H s ps D.
  destruct (C m p0) as [A B]. auto.
Qed.
Lemma irel_transform_error_message : forall p q f, irel p q ->
  irel (transform_error_message p f) (transform_error_message q f).
Proof.
  intros p q f H s ps D. unfold transform_error_message. istep H s ps D.
  destruct (f m); cbn; auto.
Qed.
Lemma irel_always : forall p q v, irel p q -> irel (always p v) (always q v).
Proof. intros p q v H s ps D. unfold always. istep H s ps D. Qed.
Lemma irel_look_ahead : forall p q, irel p q -> irel (look_ahead p) (look_ahead q).
Proof. intros p q H s ps D. unfold look_ahead. istep H s ps D. Qed.
Lemma irel_optional : forall p q v, irel p q -> irel (optional p v) (optional q v).
Proof. intros p q v H s ps D. unfold optional. istep H s ps D. Qed.
Lemma irel_except : forall p q v m, irel p q -> irel (except p v m) (except q v m).
Proof. intros p q v m H s ps D. unfold except. istep H s ps D. Qed.
Lemma irel_if : forall p q t f, irel p q -> irel (if_ p t f) (if_ q t f).
Proof. intros p q t f H s ps D. unfold if_. istep H s ps D. Qed.
Lemma irel_fafce : forall p q, irel p q ->
  irel (fail_at_first_char_expected p) (fail_at_first_char_expected q).
Proof.
  intros p q H s ps D. unfold fail_at_first_char_expected. istep H s ps D.
  destruct (pos_equal_to ps p0); cbn; auto.
Qed.
Lemma irel_lit_c : forall c, irel (lit_c c) (lit_c_on o c).
Proof. intro c. apply irel_accept_when, irel_change_error_message, irel_one_char. Qed.

Lemma irel_keyword : forall kw r, dom kw ->
  irel (keyword kw r) (keyword_on o (S (length kw)) (rep kw) r).
Proof.
  induction kw as [|c kw IH]; intros r K s ps D;
    pose proof (view _ K) as V; cbn [keyword keyword_on length].
  - rewrite V. apply irel_return; auto.
  - destruct V as (-> & -> & -> & Ks).
    pose proof (irel_lit_c c) as H. istep H s ps D.
    now apply (IH r Ks).
Qed.

Lemma irel_foldl : forall p q f, irel p q -> forall n st, irel (foldl n p st f) (foldl n q st f).
Proof.
  intros p q f H. induction n as [|n IH]; intros st s ps D; cbn [foldl]; [cbn; auto|].
  istep H s ps D.
  - destruct st; [apply IH; auto|cbn; auto].
  - destruct st; cbn; auto.
Qed.
Lemma irel_foldl1 : forall p q f n st, irel p q -> irel (foldl1 n p st f) (foldl1 n q st f).
Proof.
  intros p q f n st H s ps D. unfold foldl1. istep H s ps D. now apply irel_foldl.
Qed.
Lemma irel_foldl_ri : forall p q f, irel p q -> forall n st,
  irel (foldl_reject_incomplete n p st f) (foldl_reject_incomplete n q st f).
Proof.
  intros p q f H. induction n as [|n IH]; intros st s ps D; cbn [foldl_reject_incomplete]; [cbn; auto|].
  istep H s ps D.
  - destruct st; [apply IH; auto|cbn; auto].
  - destruct (pos_equal_to ps p0); [destruct st|]; cbn; auto.
Qed.
Lemma irel_foldl_ri1 : forall p q f n st, irel p q ->
  irel (foldl_reject_incomplete1 n p st f) (foldl_reject_incomplete1 n q st f).
Proof.
  intros p q f n st H s ps D. unfold foldl_reject_incomplete1. istep H s ps D.
  now apply irel_foldl_ri.
Qed.
Lemma irel_foldl_swp : forall p q sp sq f n, irel p q -> irel sp sq ->
  irel (foldl_start_with_parser n p sp f) (foldl_start_with_parser n q sq f).
Proof.
  intros p q sp sq f n H H2 s ps D. unfold foldl_start_with_parser. istep H2 s ps D.
  now apply irel_foldl.
Qed.
Lemma irel_foldl_ri_swp : forall p q sp sq f n, irel p q -> irel sp sq ->
  irel (foldl_reject_incomplete_start_with_parser n p sp f)
       (foldl_reject_incomplete_start_with_parser n q sq f).
Proof.
  intros p q sp sq f n H H2 s ps D. unfold foldl_reject_incomplete_start_with_parser.
  istep H2 s ps D. now apply irel_foldl_ri.
Qed.
Lemma irel_foldr_swp : forall p q sp sq f, irel p q -> irel sp sq -> forall n,
  irel (foldr_start_with_parser n p sp f) (foldr_start_with_parser n q sq f).
Proof.
  intros p q sp sq f H H2. induction n as [|n IH]; intros s ps D;
    cbn [foldr_start_with_parser]; [cbn; auto|].
  istep H s ps D. istep IH rem p0 G. destruct (f r0 r); cbn; auto.
Qed.
Lemma irel_foldr : forall p q st f n, irel p q -> irel (foldr n p st f) (foldr n q st f).
Proof. intros. apply irel_foldr_swp; auto. apply irel_return. Qed.
Lemma irel_foldr1 : forall p q st f n, irel p q -> irel (foldr1 n p st f) (foldr1 n q st f).
Proof.
  intros p q st f n H s ps D. unfold foldr1. istep H s ps D. now apply irel_foldr.
Qed.
Lemma irel_iterate : forall p q n k, irel p q -> irel (iterate_c n p k) (iterate_c n q k).
Proof.
  intros p q n k H. unfold iterate_c. generalize (VSeq []) as acc. revert k.
  induction n as [|n IH]; intros k acc s ps D; cbn [iterate_impl]; [cbn; auto|].
  destruct (k =? 0); [apply irel_return; auto|].
  istep H s ps D. destruct (push_back acc r); [apply IH; auto|cbn; auto].
Qed.

(** ** The combinators with a variable number of arguments *)

Lemma irel_one_of_11 : forall l l', Forall2 irel l l' -> irel (one_of_11 l) (one_of_11 l').
Proof.
  induction 1 as [|p q l l' H F IH]; intros s ps D; cbn [one_of_11].
  - apply irel_fail; auto.
  - istep H s ps D; istep IH s ps D. unfold later_result.
    destruct (pos_less _ _); cbn; auto.
Qed.

Lemma irel_one_of_98 : forall lim l l', Forall2 irel l l' ->
  irel (one_of_98 lim l) (one_of_98 lim l').
Proof.
  intros lim l l' F s ps D. unfold one_of_98. rewrite (Forall2_length _ _ _ _ _ F).
  destruct (Nat.leb _ _); [|cbn; auto]. unfold one_of_98_impl.
  assert (G : forall st, in_dom st ->
    fold_left (one_of_fwd_op (rep s) ps) l' (with_rest rep st)
      = with_rest rep (fold_left (one_of_fwd_op s ps) l st)
    /\ in_dom (fold_left (one_of_fwd_op s ps) l st)).
  { induction F as [|p q l l' H F IH]; intros st S; cbn [fold_left]; auto.
    assert (A : one_of_fwd_op (rep s) ps (with_rest rep st) q = with_rest rep (one_of_fwd_op s ps st p)
                /\ in_dom (one_of_fwd_op s ps st p)).
    { unfold one_of_fwd_op. destruct st; cbn [with_rest]; auto; istep H s ps D.
      unfold later_result. destruct (pos_less _ _); cbn; auto. }
    destruct A as [A B]. rewrite A. now apply IH. }
  apply (G (fail none_of_the_expected_cases_found s ps)). exact Logic.I.
Qed.

Lemma irel_one_of : forall cfg l l', Forall2 irel l l' -> irel (one_of cfg l) (one_of cfg l').
Proof.
  intros cfg l l' F. unfold one_of.
  destruct (cfg_std cfg); auto using irel_one_of_98, irel_one_of_11.
Qed.

Lemma irel_sequence_11 : forall l l', Forall2 irel l l' -> irel (sequence_11 l) (sequence_11 l').
Proof.
  induction 1 as [|p q l l' H F IH]; cbn [sequence_11]; [apply irel_return|].
  intros s ps D. istep H s ps D. now apply irel_transform.
Qed.

Lemma irel_sequence_98 : forall lim l l', Forall2 irel l l' ->
  irel (sequence_98 lim l) (sequence_98 lim l').
Proof.
  intros lim l l' F s ps D. unfold sequence_98. rewrite (Forall2_length _ _ _ _ _ F).
  destruct (_ && _)%bool; [|cbn; auto]. unfold sequence_impl.
  assert (G : forall st, in_dom st ->
    fold_left apply_parser l' (with_rest rep st) = with_rest rep (fold_left apply_parser l st)
    /\ in_dom (fold_left apply_parser l st)).
  { induction F as [|p q l l' H F IH]; intros st S; cbn [fold_left]; auto.
    assert (A : apply_parser (with_rest rep st) q = with_rest rep (apply_parser st p)
                /\ in_dom (apply_parser st p)).
    { unfold apply_parser. destruct st; cbn [with_rest]; auto.
      now apply (irel_transform p q). }
    destruct A as [A B]. rewrite A. now apply IH. }
  now apply (G (Accept (VSeq []) s ps)).
Qed.

Lemma irel_sequence : forall cfg l l', Forall2 irel l l' ->
  irel (sequence cfg l) (sequence cfg l').
Proof.
  intros cfg l l' F. unfold sequence.
  destruct (cfg_std cfg); auto using irel_sequence_98, irel_sequence_11.
Qed.

Lemma irel_sequence_apply : forall cfg t l l', Forall2 irel l l' ->
  irel (sequence_apply cfg t l) (sequence_apply cfg t l').
Proof.
  intros cfg t l l' F s ps D. unfold sequence_apply. rewrite (Forall2_length _ _ _ _ _ F).
  destruct (_ && _)%bool; [|cbn; auto].
  apply irel_transform; auto. now apply irel_sequence.
Qed.

Lemma irel_skip_remaining : forall r l l', Forall2 irel l l' ->
  irel (nth_of_c_skip_remaining r l) (nth_of_c_skip_remaining r l').
Proof.
  induction 1 as [|p q l l' H F IH]; cbn [nth_of_c_skip_remaining]; [apply irel_return|].
  intros s ps D. istep H s ps D.
Qed.
Lemma irel_nth_of_11_impl : forall l l', Forall2 irel l l' -> forall k,
  irel (nth_of_c_11_impl k l) (nth_of_c_11_impl k l').
Proof.
  induction 1 as [|p q l l' H F IH]; intros k s ps D; cbn [nth_of_c_11_impl]; [cbn; auto|].
  istep H s ps D. destruct (k =? 0); [now apply irel_skip_remaining|now apply IH].
Qed.
Lemma irel_skip_seq : forall l l', Forall2 irel l l' -> forall st, in_dom st ->
  fold_left skip_seq l' (with_rest rep st) = with_rest rep (fold_left skip_seq l st)
  /\ in_dom (fold_left skip_seq l st).
Proof.
  induction 1 as [|p q l l' H F IH]; intros st S; cbn [fold_left]; auto.
  assert (A : skip_seq (with_rest rep st) q = with_rest rep (skip_seq st p) /\ in_dom (skip_seq st p)).
  { unfold skip_seq. destruct st; cbn [with_rest]; auto. istep H rem p0 S. }
  destruct A as [A B]. rewrite A. now apply IH.
Qed.
Lemma irel_nth_of_98_impl : forall l l', Forall2 irel l l' -> forall k,
  irel (nth_of_c_98_impl k l) (nth_of_c_98_impl k l').
Proof.
  induction 1 as [|p q l l' H F IH]; intros k s ps D; cbn [nth_of_c_98_impl]; [cbn; auto|].
  destruct (k =? 0).
  - destruct (H s ps D) as [E G]. rewrite E. now apply irel_skip_seq.
  - istep H s ps D. now apply IH.
Qed.
Lemma irel_nth_of_cN : forall l l' k, Forall2 irel l l' ->
  irel (nth_of_cN k l) (nth_of_cN k l').
Proof.
  intros l l' k F s ps D. unfold nth_of_cN. rewrite (Forall2_length _ _ _ _ _ F).
  destruct (_ && _)%bool; [now apply irel_nth_of_98_impl|now apply irel_fail].
Qed.
Lemma irel_nth_of_98 : forall lim l l' k, Forall2 irel l l' ->
  irel (nth_of_c_98 lim k l) (nth_of_c_98 lim k l').
Proof.
  intros lim l l' k F s ps D. unfold nth_of_c_98. rewrite (Forall2_length _ _ _ _ _ F).
  destruct (Nat.ltb _ _); [now apply irel_nth_of_cN|cbn; auto].
Qed.
Lemma irel_nth_of_11 : forall l l' k, Forall2 irel l l' ->
  irel (nth_of_c_11 k l) (nth_of_c_11 k l').
Proof.
  intros l l' k F s ps D. unfold nth_of_c_11. rewrite (Forall2_length _ _ _ _ _ F).
  pose proof (irel_nth_of_11_impl _ _ F k s ps D) as X.
  inversion F; subst; [now apply irel_fail|].
  destruct (_ && _)%bool; [exact X|now apply irel_fail].
Qed.
Lemma irel_nth_of : forall cfg k l l', Forall2 irel l l' ->
  irel (nth_of_c cfg k l) (nth_of_c cfg k l').
Proof.
  intros cfg k l l' F. unfold nth_of_c.
  destruct (cfg_std cfg); auto using irel_nth_of_98, irel_nth_of_11.
Qed.
Lemma irel_first_of : forall cfg l l', Forall2 irel l l' ->
  irel (first_of cfg l) (first_of cfg l').
Proof.
  intros cfg l l' F. unfold first_of, first_of_98, first_of_11.
  pose proof (irel_nth_of_11_impl _ _ F 0) as X.
  destruct (cfg_std cfg); auto using irel_nth_of_98;
    inversion F; subst; auto using irel_fail.
Qed.
Lemma irel_last_of : forall cfg l l', Forall2 irel l l' ->
  irel (last_of cfg l) (last_of cfg l').
Proof.
  intros cfg l l' F. unfold last_of.
  assert (A : irel (last_of_11 l) (last_of_11 l')).
  { unfold last_of_11. rewrite (Forall2_length _ _ _ _ _ F).
    pose proof (irel_nth_of_11_impl _ _ F (Z.of_nat (length l') - 1)) as X.
    inversion F; subst; auto using irel_fail. }
  destruct (cfg_std cfg); auto.
  intros s ps D. unfold last_of_98. rewrite (Forall2_length _ _ _ _ _ F).
  destruct (Nat.ltb _ _); [now apply irel_nth_of_cN|cbn; auto].
Qed.

Lemma irel_one_of_c : forall cfg cs, irel (one_of_c cfg cs) (one_of_c_on o cfg cs).
Proof.
  intros cfg cs. unfold one_of_c, one_of_c_on, one_of_c_11, one_of_c_14.
  destruct (cfg_std cfg); auto using irel_accept_when, irel_one_char.
  intros s ps D. unfold one_of_c_98. destruct (Nat.ltb _ _); [|cbn; auto].
  apply irel_one_of_98; auto. apply Forall2_map_in. intros c _. apply irel_lit_c.
Qed.
Lemma irel_one_char_except_c : forall cfg cs,
  irel (one_char_except_c cfg cs) (one_char_except_c_on o cfg cs).
Proof.
  intros cfg cs. unfold one_char_except_c, one_char_except_c_on, one_char_except_c_11.
  destruct (cfg_std cfg); auto using irel_accept_when, irel_one_char.
  intros s ps D. unfold one_char_except_c_98. destruct (Nat.ltb _ _); [|cbn; auto].
  apply irel_accept_when; auto using irel_one_char.
Qed.
Lemma irel_middle_of : forall cfg p1 p2 p3 q1 q2 q3,
  irel p1 q1 -> irel p2 q2 -> irel p3 q3 ->
  irel (middle_of cfg p1 p2 p3) (middle_of cfg q1 q2 q3).
Proof.
  intros cfg p1 p2 p3 q1 q2 q3 H1 H2 H3 s ps D. unfold middle_of.
  apply irel_nth_of; auto. f2; auto. now apply irel_transform_error_message.
Qed.
Lemma irel_entire_input : forall cfg p q m, irel p q ->
  irel (entire_input cfg p m) (entire_input_on o cfg q m).
Proof.
  intros cfg p q m H. destruct m; cbn [entire_input entire_input_on];
    apply irel_first_of; f2; auto;
    try apply irel_change_error_message; apply irel_empty.
Qed.
Lemma irel_foldr_ri : forall cfg n p q st f, irel p q ->
  irel (foldr_reject_incomplete cfg n p st f) (foldr_reject_incomplete cfg n q st f).
Proof.
  intros. apply irel_foldr_swp; auto. apply irel_first_of; auto. f2; auto using irel_return.
  now apply irel_fafce.
Qed.
Lemma irel_foldr_ri1 : forall cfg n p q st f, irel p q ->
  irel (foldr_reject_incomplete1 cfg n p st f) (foldr_reject_incomplete1 cfg n q st f).
Proof.
  intros cfg n p q st f H s ps D. unfold foldr_reject_incomplete1.
  istep H s ps D. now apply irel_foldr_ri.
Qed.

(** What is required of the parsers and error transformers the user wrote and
    of the keywords. *)
Definition rep_ok (e : pexpr) : Prop :=
  match e with
  | PNative p => irel p p
  | PTransformError _ f => forall m ps, with_rest rep (f m ps) = f m ps /\ in_dom (f m ps)
  | PKeyword kw _ => dom kw
  | _ => True
  end.

Lemma eval_irel : forall cfg env, program_every rep_ok env ->
  forall n e, every rep_ok e -> irel (eval cfg env n e) (eval_on o cfg env n e).
Proof.
  intros cfg env HE n. induction n as [n IHn] using lt_wf_ind.
  intros e. induction e as [e IH] using pexpr_children_ind. intros Hev.
  assert (HC : forall c, In c (children e) -> irel (eval cfg env n c) (eval_on o cfg env n c)).
  { intros c Hc. apply IH; auto. eapply every_child; eauto. }
  apply every_here in Hev as Ok. clear IH.
  assert (HL : forall l, children e = l ->
    Forall2 irel (map (eval cfg env n) l) (map (eval_on o cfg env n) l)).
  { intros l <-. apply Forall2_map_in. auto. }
  destruct e; cbn [children rep_ok] in HC, Ok; destruct n as [|n'];
    try (assert (X := HC _ (or_introl eq_refl)));
    try (assert (Y := HC _ (or_intror (or_introl eq_refl))));
    try (assert (Z := HC _ (or_intror (or_intror (or_introl eq_refl)))));
    try specialize (HL _ eq_refl);
    cbn [eval eval_on].
  all: try solve [ assumption | apply irel_return | apply irel_fail | apply irel_one_char
    | apply irel_empty
    | apply irel_accept_when; assumption | apply irel_change_error_message; assumption
    | apply irel_transform; assumption
    | apply irel_transform_error; assumption
    | apply irel_transform_error_message; assumption
    | apply irel_always; assumption | apply irel_look_ahead; assumption
    | apply irel_optional; assumption | apply irel_except; assumption
    | apply irel_if; assumption | apply irel_fafce; assumption
    | apply irel_keyword; assumption
    | apply irel_foldl; assumption | apply irel_foldl1; assumption
    | apply irel_foldl_ri; assumption | apply irel_foldl_ri1; assumption
    | apply irel_foldl_swp; assumption | apply irel_foldl_ri_swp; assumption
    | apply irel_foldr_swp; assumption | apply irel_foldr; assumption
    | apply irel_foldr1; assumption
    | apply irel_foldr_ri; assumption
    | apply irel_foldr_ri1; assumption | apply irel_iterate; assumption
    | apply irel_one_of; assumption
    | apply irel_nth_of; assumption
    | apply irel_first_of; assumption
    | apply irel_last_of; assumption
    | apply irel_sequence; assumption
    | apply irel_sequence_apply; assumption
    | apply irel_one_of_c | apply irel_one_char_except_c
    | apply irel_middle_of; assumption | apply irel_entire_input; assumption ].
  - intros s ps D. cbn. auto.
  - intros s ps D. apply IHn; auto.
Qed.

End Rep.

(** ** Strings that can not be asked whether they are empty *)

Section Stuck.
Variable o : string_ops.
Variable x : list Z.
Hypothesis opaque : so_empty o x = None.

Definition stuck (p : pfun) : Prop :=
  forall ps r rem ps', p x ps = Accept r rem ps' -> rem = x /\ ps' = ps.

Ltac sstep H :=
  match goal with
  | |- context [match ?p x ?ps with _ => _ end] =>
      let Q := fresh "Q" in
      destruct (p x ps) eqn:Q; try discriminate;
      try (apply H in Q; destruct Q as [-> ->])
  end.
Ltac send := let E := fresh in intro E; try discriminate; try injection E; intros; subst; auto.

Lemma stuck_return : forall v, stuck (return_ v).
Proof. intros v ps r rem ps'. unfold return_. send. Qed.
Lemma stuck_fail : forall m, stuck (fail m).
Proof. intros m ps r rem ps'. unfold fail. send. Qed.
Lemma stuck_one_char : stuck (one_char_on o).
Proof. intros ps r rem ps'. unfold one_char_on. rewrite opaque. send. Qed.
Lemma stuck_empty : forall v, stuck (empty_on o v).
Proof. intros v ps r rem ps'. unfold empty_on. rewrite opaque. send. Qed.
Lemma stuck_accept_when : forall p pr m, stuck p -> stuck (accept_when p pr m).
Proof.
  intros p pr m H ps r rem ps'. unfold accept_when. sstep H.
  destruct (pr r0) as [[|]|]; send.
Qed.
Lemma stuck_change_error_message : forall p m, stuck p -> stuck (change_error_message p m).
Proof. intros p m H ps r rem ps'. unfold change_error_message. sstep H. send. Qed.
Lemma stuck_transform : forall p f, stuck p -> stuck (transform p f).
Proof. intros p f H ps r rem ps'. unfold transform. sstep H. destruct (f r0); send. Qed.
Lemma stuck_transform_error : forall p f, stuck p -> keeps_failing f -> stuck (transform_error p f).
Proof.
  intros p f H C ps r rem ps'. unfold transform_error. sstep H; [send|].
  intros Q2. now apply C in Q2.
Qed.
Lemma stuck_transform_error_message : forall p f, stuck p -> stuck (transform_error_message p f).
Proof.
  intros p f H ps r rem ps'. unfold transform_error_message. sstep H; [send|].
  destruct (f m); send.
Qed.
Lemma stuck_always : forall p v, stuck p -> stuck (always p v).
Proof. intros p v H ps r rem ps'. unfold always. sstep H. send. Qed.
Lemma stuck_look_ahead : forall p, stuck p -> stuck (look_ahead p).
Proof. intros p H ps r rem ps'. unfold look_ahead. sstep H. send. Qed.
Lemma stuck_optional : forall p v, stuck p -> stuck (optional p v).
Proof. intros p v H ps r rem ps'. unfold optional. sstep H; send. Qed.
Lemma stuck_except : forall p v m, stuck p -> stuck (except p v m).
Proof. intros p v m H ps r rem ps'. unfold except. sstep H; send. Qed.
Lemma stuck_if : forall p t f, stuck p -> stuck (if_ p t f).
Proof. intros p t f H ps r rem ps'. unfold if_. sstep H; send. Qed.
Lemma stuck_fafce : forall p, stuck p -> stuck (fail_at_first_char_expected p).
Proof.
  intros p H ps r rem ps'. unfold fail_at_first_char_expected. sstep H.
  destruct (pos_equal_to ps p0); send.
Qed.
Lemma stuck_lit_c : forall c, stuck (lit_c_on o c).
Proof. intro c. apply stuck_accept_when, stuck_change_error_message, stuck_one_char. Qed.
Lemma stuck_keyword : forall n kw v, stuck (keyword_on o n kw v).
Proof.
  induction n as [|n IH]; intros kw v ps r rem ps'; cbn [keyword_on]; [send|].
  destruct (so_empty o kw) as [[|]|]; [apply stuck_return| |send].
  destruct (so_front o kw); [|send]. destruct (so_pop_front o kw); [|send].
  sstep (stuck_lit_c c). apply IH.
Qed.
Lemma stuck_foldl : forall p f, stuck p -> forall n st, stuck (foldl n p st f).
Proof.
  intros p f H. induction n as [|n IH]; intros st ps r rem ps'; cbn [foldl]; [send|].
  sstep H; (destruct st; [|send]).
  - apply IH.
  - send.
Qed.
Lemma stuck_foldl1 : forall p f n st, stuck p -> stuck (foldl1 n p st f).
Proof. intros p f n st H ps r rem ps'. unfold foldl1. sstep H. now apply stuck_foldl. Qed.
Lemma stuck_foldl_ri : forall p f, stuck p -> forall n st, stuck (foldl_reject_incomplete n p st f).
Proof.
  intros p f H. induction n as [|n IH]; intros st ps r rem ps'; cbn [foldl_reject_incomplete]; [send|].
  sstep H.
  - destruct st; [apply IH|send].
  - destruct (pos_equal_to ps p0); [destruct st|]; send.
Qed.
Lemma stuck_foldl_ri1 : forall p f n st, stuck p -> stuck (foldl_reject_incomplete1 n p st f).
Proof.
  intros p f n st H ps r rem ps'. unfold foldl_reject_incomplete1. sstep H. now apply stuck_foldl_ri.
Qed.
Lemma stuck_foldl_swp : forall p sp f n, stuck p -> stuck sp ->
  stuck (foldl_start_with_parser n p sp f).
Proof.
  intros p sp f n H H2 ps r rem ps'. unfold foldl_start_with_parser. sstep H2. now apply stuck_foldl.
Qed.
Lemma stuck_foldl_ri_swp : forall p sp f n, stuck p -> stuck sp ->
  stuck (foldl_reject_incomplete_start_with_parser n p sp f).
Proof.
  intros p sp f n H H2 ps r rem ps'. unfold foldl_reject_incomplete_start_with_parser.
  sstep H2. now apply stuck_foldl_ri.
Qed.
Lemma stuck_foldr_swp : forall p sp f, stuck p -> stuck sp -> forall n,
  stuck (foldr_start_with_parser n p sp f).
Proof.
  intros p sp f H H2. induction n as [|n IH]; intros ps r rem ps';
    cbn [foldr_start_with_parser]; [send|].
  sstep H; [|apply H2]. sstep IH. destruct (f r1 r0); send.
Qed.
Lemma stuck_foldr1 : forall p v f n, stuck p -> stuck (foldr1 n p v f).
Proof.
  intros p v f n H ps r rem ps'. unfold foldr1. sstep H.
  apply stuck_foldr_swp; auto using stuck_return.
Qed.
Lemma stuck_iterate : forall p n k, stuck p -> stuck (iterate_c n p k).
Proof.
  intros p n k H. unfold iterate_c. generalize (VSeq []) as acc. revert k.
  induction n as [|n IH]; intros k acc ps r rem ps'; cbn [iterate_impl]; [send|].
  destruct (k =? 0); [apply stuck_return|].
  sstep H. destruct (push_back acc r0); [apply IH|send].
Qed.
Lemma stuck_one_of_11 : forall l, Forall stuck l -> stuck (one_of_11 l).
Proof.
  induction 1 as [|p l H F IH]; [apply stuck_fail|]. intros ps r rem ps'. cbn [one_of_11].
  sstep H; sstep IH; send. unfold later_result in *. destruct (pos_less _ _); discriminate.
Qed.
Definition stuck_at (ps : pos) (st : outcome) : Prop :=
  forall r rem ps', st = Accept r rem ps' -> rem = x /\ ps' = ps.
Lemma stuck_one_of_98 : forall lim l, Forall stuck l -> stuck (one_of_98 lim l).
Proof.
  intros lim l F ps. unfold one_of_98. destruct (Nat.leb _ _); [|intros r rem ps'; send].
  unfold one_of_98_impl.
  assert (S : stuck_at ps (fail none_of_the_expected_cases_found x ps)) by (intros r rem ps'; send).
  revert S. generalize (fail none_of_the_expected_cases_found x ps).
  induction F as [|p l H F IH]; intros st S; cbn [fold_left]; [exact S|].
  apply IH. intros r rem ps'. unfold one_of_fwd_op. destruct st; [| |send|send].
  - intro E. apply (S r). destruct (p x ps); congruence.
  - sstep H; [send|]. unfold later_result. destruct (pos_less _ _); send.
Qed.
Lemma stuck_one_of : forall cfg l, Forall stuck l -> stuck (one_of cfg l).
Proof.
  intros cfg l F. unfold one_of. destruct (cfg_std cfg); auto using stuck_one_of_98, stuck_one_of_11.
Qed.
Lemma stuck_sequence_11 : forall l, Forall stuck l -> stuck (sequence_11 l).
Proof.
  induction 1 as [|p l H F IH]; [apply stuck_return|]. intros ps r rem ps'. cbn [sequence_11].
  sstep H. now apply stuck_transform.
Qed.
Lemma stuck_sequence_98 : forall lim l, Forall stuck l -> stuck (sequence_98 lim l).
Proof.
  intros lim l F ps. unfold sequence_98. destruct (_ && _)%bool; [|intros r rem ps'; send].
  unfold sequence_impl.
  assert (S : stuck_at ps (Accept (VSeq []) x ps)) by (intros r rem ps'; send).
  revert S. generalize (Accept (VSeq []) x ps).
  induction F as [|p l H F IH]; intros st S; cbn [fold_left]; [exact S|].
  apply IH. intros r rem ps'. unfold apply_parser. destruct st; [|send..].
  destruct (S _ _ _ eq_refl) as [-> ->]. now apply stuck_transform.
Qed.
Lemma stuck_sequence : forall cfg l, Forall stuck l -> stuck (sequence cfg l).
Proof.
  intros cfg l F. unfold sequence.
  destruct (cfg_std cfg); auto using stuck_sequence_98, stuck_sequence_11.
Qed.
Lemma stuck_sequence_apply : forall cfg t l, Forall stuck l -> stuck (sequence_apply cfg t l).
Proof.
  intros cfg t l F ps r rem ps'. unfold sequence_apply. destruct (_ && _)%bool; [|send].
  apply stuck_transform, stuck_sequence, F.
Qed.
Lemma stuck_skip_remaining : forall v l, Forall stuck l -> stuck (nth_of_c_skip_remaining v l).
Proof.
  induction 1 as [|p l H F IH]; [apply stuck_return|]. intros ps r rem ps'.
  cbn [nth_of_c_skip_remaining]. sstep H. apply IH.
Qed.
Lemma stuck_nth_of_11_impl : forall l, Forall stuck l -> forall k, stuck (nth_of_c_11_impl k l).
Proof.
  induction 1 as [|p l H F IH]; intros k ps r rem ps'; cbn [nth_of_c_11_impl]; [send|].
  sstep H. destruct (k =? 0); [now apply stuck_skip_remaining|apply IH].
Qed.
Lemma stuck_nth_of_98_impl : forall l, Forall stuck l -> forall k, stuck (nth_of_c_98_impl k l).
Proof.
  induction 1 as [|p l H F IH]; intros k ps r rem ps'; cbn [nth_of_c_98_impl]; [send|].
  destruct (k =? 0).
  - assert (S : stuck_at ps (p x ps)) by (intros r1 rem1 ps1; apply H).
    clear H IH. revert r rem ps' S. generalize (p x ps).
    induction F as [|q l H F IH]; intros st r rem ps' S; cbn [fold_left]; [apply S|].
    apply IH. intros r1 rem1 ps1. unfold skip_seq. destruct st; [|send..].
    destruct (S _ _ _ eq_refl) as [-> ->]. sstep H. send.
  - sstep H. apply IH.
Qed.
Lemma stuck_nth_of_cN : forall l k, Forall stuck l -> stuck (nth_of_cN k l).
Proof.
  intros l k F ps r rem ps'. unfold nth_of_cN. destruct (_ && _)%bool.
  - now apply stuck_nth_of_98_impl.
  - apply stuck_fail.
Qed.
Lemma stuck_nth_of : forall cfg k l, Forall stuck l -> stuck (nth_of_c cfg k l).
Proof.
  intros cfg k l F. unfold nth_of_c.
  assert (A : stuck (nth_of_c_11 k l)).
  { intros ps r rem ps'. unfold nth_of_c_11. pose proof (stuck_nth_of_11_impl l F k ps r rem ps') as X.
    destruct l; [apply stuck_fail|]. destruct (_ && _)%bool; [exact X|apply stuck_fail]. }
  destruct (cfg_std cfg); auto. intros ps r rem ps'. unfold nth_of_c_98.
  destruct (Nat.ltb _ _); [now apply stuck_nth_of_cN|send].
Qed.
Lemma stuck_first_of : forall cfg l, Forall stuck l -> stuck (first_of cfg l).
Proof.
  intros cfg l F. unfold first_of.
  assert (A : stuck (first_of_11 l)).
  { unfold first_of_11. pose proof (stuck_nth_of_11_impl l F 0) as X.
    destruct l; [apply stuck_fail|exact X]. }
  destruct (cfg_std cfg); auto. intros ps r rem ps'. unfold first_of_98, nth_of_c_98.
  destruct (Nat.ltb _ _); [now apply stuck_nth_of_cN|send].
Qed.
Lemma stuck_last_of : forall cfg l, Forall stuck l -> stuck (last_of cfg l).
Proof.
  intros cfg l F. unfold last_of.
  assert (A : stuck (last_of_11 l)).
  { unfold last_of_11. pose proof (stuck_nth_of_11_impl l F (Z.of_nat (length l) - 1)) as X.
    destruct l; [apply stuck_fail|exact X]. }
  destruct (cfg_std cfg); auto. intros ps r rem ps'. unfold last_of_98.
  destruct (Nat.ltb _ _); [now apply stuck_nth_of_cN|send].
Qed.
Lemma stuck_one_of_c : forall cfg cs, stuck (one_of_c_on o cfg cs).
Proof.
  intros cfg cs. unfold one_of_c_on.
  destruct (cfg_std cfg); auto using stuck_accept_when, stuck_one_char.
  intros ps r rem ps'. destruct (Nat.ltb _ _); [|send]. apply stuck_one_of_98.
  apply Forall_forall. intros p I. apply in_map_iff in I as (c & <- & _). apply stuck_lit_c.
Qed.
Lemma stuck_one_char_except_c : forall cfg cs, stuck (one_char_except_c_on o cfg cs).
Proof.
  intros cfg cs. unfold one_char_except_c_on.
  destruct (cfg_std cfg); auto using stuck_accept_when, stuck_one_char.
  intros ps r rem ps'. destruct (Nat.ltb _ _); [|send].
  apply stuck_accept_when, stuck_one_char.
Qed.
Lemma stuck_middle_of : forall cfg p1 p2 p3, stuck p1 -> stuck p2 -> stuck p3 ->
  stuck (middle_of cfg p1 p2 p3).
Proof.
  intros cfg p1 p2 p3 H1 H2 H3 ps. unfold middle_of.
  apply stuck_nth_of. repeat apply Forall_cons; auto using stuck_transform_error_message.
Qed.
Lemma stuck_entire_input : forall cfg p m, stuck p -> stuck (entire_input_on o cfg p m).
Proof.
  intros cfg p m H. destruct m; cbn [entire_input_on];
    apply stuck_first_of; repeat apply Forall_cons;
    auto using stuck_change_error_message, stuck_empty.
Qed.
Lemma stuck_foldr_ri : forall cfg n p v f, stuck p -> stuck (foldr_reject_incomplete cfg n p v f).
Proof.
  intros. apply stuck_foldr_swp; auto. apply stuck_first_of.
  repeat apply Forall_cons; auto using stuck_return, stuck_fafce.
Qed.
Lemma stuck_foldr_ri1 : forall cfg n p v f, stuck p -> stuck (foldr_reject_incomplete1 cfg n p v f).
Proof.
  intros cfg n p v f H ps r rem ps'. unfold foldr_reject_incomplete1. sstep H.
  now apply stuck_foldr_ri.
Qed.

Lemma eval_stuck : forall cfg env,
  program_every (natives stuck keeps_failing) env ->
  forall n e,
  every (natives stuck keeps_failing) e ->
  stuck (eval_on o cfg env n e).
Proof.
  intros cfg env HE n. induction n as [n IHn] using lt_wf_ind.
  intros e. induction e as [e IH] using pexpr_children_ind. intros Hev.
  assert (HC : forall c, In c (children e) -> stuck (eval_on o cfg env n c)).
  { intros c Hc. apply IH; auto. eapply every_child; eauto. }
  apply every_here in Hev as Ok. clear IH.
  assert (HL : forall l, children e = l -> Forall stuck (map (eval_on o cfg env n) l)).
  { intros l <-. apply Forall_forall. intros p I. apply in_map_iff in I as (c & <- & I). auto. }
  destruct e; cbn [children natives] in HC, Ok; destruct n as [|n'];
    try (assert (X := HC _ (or_introl eq_refl)));
    try (assert (Y := HC _ (or_intror (or_introl eq_refl))));
    try (assert (Z := HC _ (or_intror (or_intror (or_introl eq_refl)))));
    try specialize (HL _ eq_refl);
    cbn [eval_on].
  all: try solve [ assumption | apply stuck_return | apply stuck_fail | apply stuck_one_char
    | apply stuck_empty
    | apply stuck_accept_when; assumption | apply stuck_change_error_message; assumption
    | apply stuck_transform; assumption
    | apply stuck_transform_error; assumption
    | apply stuck_transform_error_message; assumption
    | apply stuck_always; assumption | apply stuck_look_ahead; assumption
    | apply stuck_optional; assumption | apply stuck_except; assumption
    | apply stuck_if; assumption | apply stuck_fafce; assumption
    | apply stuck_keyword
    | apply stuck_foldl; assumption | apply stuck_foldl1; assumption
    | apply stuck_foldl_ri; assumption | apply stuck_foldl_ri1; assumption
    | apply stuck_foldl_swp; assumption | apply stuck_foldl_ri_swp; assumption
    | apply stuck_foldr_swp; [assumption | first [assumption | apply stuck_return]]
    | apply stuck_foldr1; assumption
    | apply stuck_foldr_ri; assumption
    | apply stuck_foldr_ri1; assumption | apply stuck_iterate; assumption
    | apply stuck_one_of; assumption
    | apply stuck_nth_of; assumption
    | apply stuck_first_of; assumption
    | apply stuck_last_of; assumption
    | apply stuck_sequence; assumption
    | apply stuck_sequence_apply; assumption
    | apply stuck_one_of_c | apply stuck_one_char_except_c
    | apply stuck_middle_of; assumption | apply stuck_entire_input; assumption ].
  - intros ps r rem ps'. send.
  - intros ps r rem ps'. apply IHn; auto.
Qed.

(** [entire_input] asks whether the string is empty, so it never accepts. *)
Lemma entire_input_stuck : forall cfg p m, stuck p ->
  forall ps r rem ps', entire_input_on o cfg p m x ps <> Accept r rem ps'.
Proof.
  intros cfg p m H ps r rem ps'.
  assert (G : forall q, (forall ps, q x ps = Illformed) -> first_of cfg [p; q] x ps <> Accept r rem ps').
  { intros q Q. unfold first_of, first_of_98, nth_of_c_98, nth_of_cN, first_of_11.
    destruct (cfg_std cfg).
    1: destruct (Nat.ltb _ _); [|discriminate].
    all: cbn -[Z.of_nat];
      destruct (p x ps) eqn:E; cbn; try discriminate;
      apply H in E; destruct E as [-> ->]; rewrite Q; discriminate. }
  destruct m; cbn [entire_input_on]; apply G; intro ps1;
    unfold change_error_message, empty_on; now rewrite opaque.
Qed.
End Stuck.
