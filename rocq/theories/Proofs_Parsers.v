(** Lemmas about the parsers that are defined from others and about the
    equivalences stated in the reference. *)

From Coq Require Import ZArith List Bool Lia DecimalNat DecimalN DecimalPos DecimalFacts.
From Verif Require Import Base Util Combinators Variadic Parsers Spec Proofs_Pos
  Proofs_Fold Proofs_Variadic.
Import ListNotations.
Open Scope Z_scope.

(** ** The configured implementations in terms of the C++11 one *)

Lemma sequence_cfg : forall cfg l s ps, fits_sequence cfg (length l) -> l <> [] ->
  sequence cfg l s ps = sequence_11 l s ps.
Proof.
  intros cfg l s ps F N. unfold sequence. unfold fits_sequence in F.
  destruct (cfg_std cfg); auto. apply sequence_98_11. specialize (F eq_refl).
  destruct l; [congruence|]. simpl in *. lia.
Qed.

Lemma nth_of_c_cfg : forall cfg k l s ps, fits_sequence cfg (length l) ->
  nth_of_c cfg k l s ps = nth_of_c_11 k l s ps.
Proof.
  intros cfg k l s ps F. unfold nth_of_c. unfold fits_sequence in F.
  destruct (cfg_std cfg); auto. apply nth_of_c_98_11; auto.
Qed.

Lemma first_of_cfg : forall cfg l s ps, fits_sequence cfg (length l) ->
  first_of cfg l s ps = first_of_11 l s ps.
Proof.
  intros cfg l s ps F. unfold first_of. unfold fits_sequence in F.
  destruct (cfg_std cfg); auto. apply first_of_98_11; auto.
Qed.

Lemma last_of_cfg : forall cfg l s ps, fits_sequence cfg (length l) -> l <> [] ->
  last_of cfg l s ps = last_of_11 l s ps.
Proof.
  intros cfg l s ps F N. unfold last_of. unfold fits_sequence in F.
  destruct (cfg_std cfg); auto. apply last_of_98_11; auto.
Qed.

Lemma one_of_cfg : forall cfg l, fits_one_of cfg (length l) ->
  (one_of cfg l = one_of_11 l) \/ (forall s ps, one_of cfg l s ps = one_of_98_impl l s ps).
Proof.
  intros cfg l F. unfold one_of. unfold fits_one_of in F.
  destruct (cfg_std cfg); auto. right. intros. unfold one_of_98.
  replace (Nat.leb (length l) (limit_one_of cfg)) with true; auto.
  symmetry; apply Nat.leb_le; auto.
Qed.

Lemma first_of_2 : forall cfg p q s ps, fits_sequence cfg 2 ->
  first_of cfg [p; q] s ps =
  match p s ps with
  | Accept r s1 ps1 =>
      match q s1 ps1 with Accept _ s2 ps2 => Accept r s2 ps2 | o => o end
  | o => o
  end.
Proof. intros. rewrite first_of_cfg by auto. simpl. destruct (p s ps); auto. Qed.

Lemma last_of_2 : forall cfg p q s ps, fits_sequence cfg 2 ->
  last_of cfg [p; q] s ps =
  match p s ps with Accept _ s1 ps1 => q s1 ps1 | o => o end.
Proof.
  intros. rewrite last_of_cfg by (auto; discriminate). simpl.
  destruct (p s ps); auto. destruct (q rem p0); auto.
Qed.

(** ** C20: equivalences of the reference *)

Lemma always_last_of : forall cfg p v, fits_sequence cfg 2 ->
  same_parser (always p v) (last_of cfg [p; return_ v]).
Proof. intros cfg p v F s ps. rewrite last_of_2 by auto. reflexivity. Qed.

Lemma optional_one_of : forall cfg p v, fits_one_of cfg 2 ->
  same_parser (optional p v) (one_of cfg [p; return_ v]).
Proof.
  intros cfg p v F s ps.
  destruct (one_of_cfg cfg [p; return_ v] F) as [-> | ->].
  - unfold optional; simpl. destruct (p s ps); auto.
  - unfold optional, one_of_98_impl; simpl. destruct (p s ps); auto.
    unfold later_result. destruct (pos_less p0 ps); auto.
Qed.

Lemma empty_except : forall r, same_parser (empty r) (except one_char r end_of_input_expected).
Proof. intros r [|c s] ps; reflexivity. Qed.

Lemma foldl1_last_of : forall cfg n p st f, fits_sequence cfg 2 ->
  same_parser (foldl1 n p st f) (last_of cfg [look_ahead p; foldl n p st f]).
Proof.
  intros cfg n p st f F s ps. rewrite last_of_2 by auto. unfold foldl1, look_ahead.
  destruct (p s ps); auto.
Qed.

Lemma foldr1_last_of : forall cfg n p st f, fits_sequence cfg 2 ->
  same_parser (foldr1 n p st f) (last_of cfg [look_ahead p; foldr n p st f]).
Proof.
  intros cfg n p st f F s ps. rewrite last_of_2 by auto. unfold foldr1, look_ahead.
  destruct (p s ps); auto.
Qed.

Lemma repeated1_last_of : forall cfg n p, fits_sequence cfg 2 ->
  same_parser (repeated1 n p) (last_of cfg [look_ahead p; repeated n p]).
Proof. intros. apply foldl1_last_of; auto. Qed.

Lemma foldl_ri_first_of : forall cfg n p v f, fits_sequence cfg 2 -> total_op f ->
  same_parser (foldl_reject_incomplete n p (Some v) f)
    (first_of cfg [foldl n p (Some v) f; fail_at_first_char_expected p]).
Proof.
  intros cfg n p v f F T s ps. rewrite first_of_2 by auto.
  revert v s ps. induction n; intros v s ps; auto.
  cbn [foldl_reject_incomplete foldl].
  destruct (p s ps) as [r s1 ps1 | m pe | | ] eqn:E; auto.
  - destruct (T v r) as [w ->]. apply IHn.
  - unfold fail_at_first_char_expected. rewrite E.
    destruct (pos_equal_to ps pe); auto.
Qed.

(** Without conditions on the operation: where the fold can be instantiated. *)
Lemma foldl_ri_defined : forall cfg n p st f s ps, fits_sequence cfg 2 ->
  foldl n p st f s ps <> Illformed ->
  foldl_reject_incomplete n p st f s ps
  = first_of cfg [foldl n p st f; fail_at_first_char_expected p] s ps.
Proof.
  intros cfg n p st f s ps F. rewrite first_of_2 by auto.
  revert st s ps. induction n; intros st s ps; auto.
  cbn [foldl_reject_incomplete foldl].
  destruct (p s ps) as [r s1 ps1 | m pe | | ] eqn:E; auto.
  - destruct st; [apply IHn | congruence].
  - destruct st; [|congruence]. intros _. unfold fail_at_first_char_expected. rewrite E.
    destruct (pos_equal_to ps pe); auto.
Qed.

Lemma foldl_ri_undefined : forall n p st f s ps, foldl n p st f s ps = Illformed ->
  foldl_reject_incomplete n p st f s ps = Illformed
  \/ exists m pe, foldl_reject_incomplete n p st f s ps = Reject m pe.
Proof.
  intros n p st f. revert st. induction n; intros st s ps; [discriminate|].
  cbn [foldl_reject_incomplete foldl].
  destruct (p s ps) as [r s1 ps1 | m pe | | ]; auto.
  - destruct st; auto.
  - destruct st; [discriminate|]. intros _. destruct (pos_equal_to ps pe); eauto.
Qed.

Lemma foldl_ri1_defined : forall cfg n p st f s ps, fits_sequence cfg 2 ->
  foldl1 n p st f s ps <> Illformed ->
  foldl_reject_incomplete1 n p st f s ps
  = first_of cfg [foldl1 n p st f; fail_at_first_char_expected p] s ps.
Proof.
  intros cfg n p st f s ps F D. pose proof (foldl_ri_defined cfg n p st f s ps F) as H.
  rewrite first_of_2 in * by auto. unfold foldl_reject_incomplete1, foldl1 in *.
  destruct (p s ps) eqn:E; auto.
Qed.

Lemma foldl_ri_swp_defined : forall cfg n p sp f s ps, fits_sequence cfg 2 ->
  foldl_start_with_parser n p sp f s ps <> Illformed ->
  foldl_reject_incomplete_start_with_parser n p sp f s ps
  = first_of cfg [foldl_start_with_parser n p sp f; fail_at_first_char_expected p] s ps.
Proof.
  intros cfg n p sp f s ps F D. rewrite first_of_2 by auto.
  unfold foldl_reject_incomplete_start_with_parser, foldl_start_with_parser in *.
  destruct (sp s ps) as [r s1 ps1 | | | ] eqn:E; auto.
  rewrite (foldl_ri_defined cfg) by auto. rewrite first_of_2 by auto. auto.
Qed.

Lemma foldl_ri1_first_of : forall cfg n p v f, fits_sequence cfg 2 -> total_op f ->
  same_parser (foldl_reject_incomplete1 n p (Some v) f)
    (first_of cfg [foldl1 n p (Some v) f; fail_at_first_char_expected p]).
Proof.
  intros cfg n p v f F T s ps.
  pose proof (foldl_ri_first_of cfg n p v f F T s ps) as H.
  rewrite first_of_2 in * by auto. unfold foldl_reject_incomplete1, foldl1.
  destruct (p s ps) eqn:E; auto.
Qed.

Lemma foldl_ri_swp_first_of : forall cfg n p sp f, fits_sequence cfg 2 -> total_op f -> never_void sp ->
  same_parser (foldl_reject_incomplete_start_with_parser n p sp f)
    (first_of cfg [foldl_start_with_parser n p sp f; fail_at_first_char_expected p]).
Proof.
  intros cfg n p sp f F T V s ps. rewrite first_of_2 by auto.
  unfold foldl_reject_incomplete_start_with_parser, foldl_start_with_parser.
  destruct (sp s ps) as [r s1 ps1 | | | ] eqn:E; auto.
  rewrite (type_of_some r) by (intros ->; eapply V; exact E).
  rewrite (foldl_ri_first_of cfg n p r f F T). rewrite first_of_2 by auto. auto.
Qed.

Lemma repeated_ri_first_of : forall cfg n p, fits_sequence cfg 2 ->
  same_parser (repeated_reject_incomplete n p)
    (first_of cfg [repeated n p; fail_at_first_char_expected p]).
Proof.
  intros cfg n p F s ps. rewrite first_of_2 by auto.
  unfold repeated_reject_incomplete, repeated.
  generalize (@nil value) as l. revert s ps.
  induction n; intros s ps l; auto.
  cbn [foldl_reject_incomplete foldl].
  destruct (p s ps) as [r s1 ps1 | m pe | | ] eqn:E; auto.
  - simpl. apply IHn.
  - unfold fail_at_first_char_expected. rewrite E.
    destruct (pos_equal_to ps pe); auto.
Qed.

Lemma repeated_ri1_first_of : forall cfg n p, fits_sequence cfg 2 ->
  same_parser (repeated_reject_incomplete1 n p)
    (first_of cfg [repeated1 n p; fail_at_first_char_expected p]).
Proof.
  intros cfg n p F s ps.
  pose proof (repeated_ri_first_of cfg n p F s ps) as H.
  rewrite first_of_2 in * by auto.
  unfold repeated_reject_incomplete1, repeated1, foldl_reject_incomplete1, foldl1.
  destruct (p s ps) eqn:E; auto.
Qed.

Lemma foldr_ri_first_of : forall cfg n p v f, fits_sequence cfg 2 -> total_op f ->
  same_parser (foldr_reject_incomplete cfg n p v f)
    (first_of cfg [foldr n p v f; fail_at_first_char_expected p]).
Proof.
  intros cfg n p v f F T s ps. rewrite first_of_2 by auto.
  unfold foldr_reject_incomplete, foldr.
  revert s ps. induction n; intros s ps; auto.
  cbn [foldr_start_with_parser].
  destruct (p s ps) as [r s1 ps1 | m pe | | ] eqn:E; auto.
  - rewrite IHn.
    destruct (foldr_start_with_parser n p (return_ v) f s1 ps1) as [r2 s2 ps2 | | | ]; auto.
    destruct (T r2 r) as [w W]. rewrite W.
    destruct (fail_at_first_char_expected p s2 ps2); auto. rewrite W; auto.
  - rewrite first_of_2 by auto. simpl. destruct (fail_at_first_char_expected p s ps); auto.
Qed.

Lemma foldr_ri_defined : forall cfg n p v f s ps, fits_sequence cfg 2 ->
  foldr n p v f s ps <> Illformed ->
  foldr_reject_incomplete cfg n p v f s ps
  = first_of cfg [foldr n p v f; fail_at_first_char_expected p] s ps.
Proof.
  intros cfg n p v f s ps F. rewrite first_of_2 by auto.
  unfold foldr_reject_incomplete, foldr.
  revert s ps. induction n; intros s ps; auto.
  cbn [foldr_start_with_parser].
  destruct (p s ps) as [r s1 ps1 | m pe | | ] eqn:E; auto.
  - intros D. rewrite IHn.
    + destruct (foldr_start_with_parser n p (return_ v) f s1 ps1) as [r2 s2 ps2 | | | ]; auto.
      destruct (f r2 r) as [w|] eqn:W; [|congruence].
      destruct (fail_at_first_char_expected p s2 ps2); auto. rewrite W; auto.
    + intros X. rewrite X in D. auto.
  - intros _. rewrite first_of_2 by auto. simpl. destruct (fail_at_first_char_expected p s ps); auto.
Qed.

Lemma foldr_ri1_defined : forall cfg n p v f s ps, fits_sequence cfg 2 ->
  foldr1 n p v f s ps <> Illformed ->
  foldr_reject_incomplete1 cfg n p v f s ps
  = first_of cfg [foldr1 n p v f; fail_at_first_char_expected p] s ps.
Proof.
  intros cfg n p v f s ps F D. pose proof (foldr_ri_defined cfg n p v f s ps F) as H.
  rewrite first_of_2 in * by auto. unfold foldr_reject_incomplete1, foldr1 in *.
  destruct (p s ps) eqn:E; auto.
Qed.

Lemma foldr_ri1_first_of : forall cfg n p v f, fits_sequence cfg 2 -> total_op f ->
  same_parser (foldr_reject_incomplete1 cfg n p v f)
    (first_of cfg [foldr1 n p v f; fail_at_first_char_expected p]).
Proof.
  intros cfg n p v f F T s ps.
  pose proof (foldr_ri_first_of cfg n p v f F T s ps) as H.
  rewrite first_of_2 in * by auto. unfold foldr_reject_incomplete1, foldr1.
  destruct (p s ps) eqn:E; auto.
Qed.

Lemma last_of_11_snoc : forall l q s ps,
  last_of_11 (l ++ [q]) s ps =
  match sequence_11 l s ps with
  | Accept _ s1 ps1 => q s1 ps1
  | o => o
  end.
Proof.
  intros l q s ps. rewrite last_of_11_spec by (destruct l; discriminate).
  replace (length (l ++ [q]) - 1)%nat with (length l) by (rewrite app_length; simpl; lia).
  revert s ps. induction l as [|p l IH]; intros s ps.
  - simpl. destruct (q s ps); auto.
  - simpl. destruct (p s ps) as [r s1 ps1 | | | ]; auto.
    unfold transform.
    pose proof (sequence_11_vseq (l ++ [q]) s1 ps1) as V.
    pose proof (sequence_11_vseq l s1 ps1) as V2. specialize (IH s1 ps1).
    destruct (sequence_11 (l ++ [q]) s1 ps1) as [v2 s2 ps2 | | | ];
      destruct (sequence_11 l s1 ps1) as [v3 s3 ps3 | | | ];
      
      try match type of V with ex _ => destruct V as [rs ->] end;
      try match type of V2 with ex _ => destruct V2 as [rs2 ->] end; simpl in *; auto.
Qed.

Lemma keyword_last_of : forall cfg kw r, fits_sequence cfg (length kw + 1) ->
  same_parser (keyword kw r) (last_of cfg (map lit_c kw ++ [return_ r])).
Proof.
  intros cfg kw r F s ps. rewrite last_of_cfg.
  - rewrite last_of_11_snoc. revert s ps. clear F.
    induction kw as [|c kw IH]; intros s ps; auto.
    cbn [keyword map sequence_11]. destruct (lit_c c s ps) as [v s1 ps1 | | | ]; auto.
    rewrite IH. unfold transform.
    pose proof (sequence_11_vseq (map lit_c kw) s1 ps1) as V.
    destruct (sequence_11 (map lit_c kw) s1 ps1) as [v2 s2 ps2 | | | ]; auto.
    destruct V as [rs ->]; auto.
  - rewrite app_length, map_length; auto.
  - destruct (map lit_c kw); discriminate.
Qed.

Lemma entire_input_first_of : forall cfg p m v, fits_sequence cfg 2 ->
  same_parser (entire_input cfg p m)
    (first_of cfg [p; change_error_message (empty v) m]).
Proof.
  intros cfg p m v F s ps. rewrite first_of_2 by auto.
  destruct m; simpl; unfold entire_input_msg, entire_input_default;
    rewrite first_of_2 by auto; destruct (p s ps) as [r [|ch s1] ps1 | | | ]; reflexivity.
Qed.

Lemma iterate_c_sequence_cfg : forall cfg n p k, (k < n)%nat -> (0 < k)%nat ->
  fits_sequence cfg k ->
  same_parser (iterate_c n p (Z.of_nat k)) (sequence cfg (repeat p k)).
Proof.
  intros cfg n p k L K F s ps. rewrite sequence_cfg.
  - apply iterate_c_sequence; auto.
  - rewrite repeat_length; auto.
  - destruct k; [lia|]. discriminate.
Qed.

Lemma first_of_nth_of : forall cfg l, fits_sequence cfg (length l) ->
  same_parser (first_of cfg l) (nth_of_c cfg 0 l).
Proof.
  intros cfg l F s ps. rewrite first_of_cfg, nth_of_c_cfg by auto.
  destruct l; reflexivity.
Qed.

Lemma last_of_nth_of : forall cfg l, fits_sequence cfg (length l) -> l <> [] ->
  same_parser (last_of cfg l) (nth_of_c cfg (Z.of_nat (length l) - 1) l).
Proof.
  intros cfg l F N s ps. rewrite last_of_cfg, nth_of_c_cfg by auto.
  destruct l as [|p l]; [congruence|].
  unfold last_of_11, nth_of_c_11.
  replace ((0 <=? Z.of_nat (length (p :: l)) - 1) &&
    (Z.of_nat (length (p :: l)) - 1 <? Z.of_nat (length (p :: l)))) with true; auto.
  simpl length. lia.
Qed.

Lemma nth_of_transform_sequence : forall cfg l k, fits_sequence cfg (length l) ->
  (k < length l)%nat ->
  same_parser (nth_of_c cfg (Z.of_nat k) l)
    (transform (sequence cfg l) (fun v => at_c v k)).
Proof.
  intros cfg l k F K s ps. rewrite nth_of_c_cfg by auto.
  rewrite nth_of_c_11_in_range by auto.
  unfold transform. rewrite sequence_cfg by (first [exact F | destruct l; simpl in K; [lia|discriminate]]).
  pose proof (sequence_11_vseq l s ps) as V.
  destruct (sequence_11 l s ps); auto. destruct V as [rs ->]. simpl.
  destruct (nth_error rs k); auto.
Qed.

(** ** Character classes *)

Lemma walk1 : forall c ps ps', walk ps [c] ps' <-> ps' = next_pos c ps.
Proof. intros. rewrite walk_iff. reflexivity. Qed.

Lemma accept_when_char : forall P (pr : pred1) m m',
  (forall c, pr (VChar c) = Some true <-> P c) ->
  (forall c, pr (VChar c) <> None) ->
  char_class_parser P m' m
    (accept_when (change_error_message one_char m') pr m).
Proof.
  intros P pr m m' H D. unfold accept_when, change_error_message. unfold char_class_parser; splits.
  - intros c s ps ps' Hc Hw. apply walk1 in Hw as ->. simpl.
    apply H in Hc. rewrite Hc. auto.
  - intros c s ps Hc. simpl. specialize (D c).
    destruct (pr (VChar c)) as [[|]|] eqn:E; auto; [|congruence].
    apply H in E; contradiction.
  - auto.
Qed.

Lemma accept_when_one_char : forall P (pr : pred1) m,
  (forall c, pr (VChar c) = Some true <-> P c) ->
  (forall c, pr (VChar c) <> None) ->
  char_class_parser P unexpected_end_of_input m (accept_when one_char pr m).
Proof.
  intros P pr m H D.
  destruct (accept_when_char P pr m unexpected_end_of_input H D) as (A & B & C).
  unfold char_class_parser; splits; intros.
  - rewrite <- (A c s ps ps'); auto.
  - rewrite <- (B c s ps); auto.
  - auto.
Qed.

Lemma one_char_class : char_class_parser (fun _ => True) unexpected_end_of_input
  unexpected_end_of_input one_char.
Proof.
  unfold char_class_parser; splits; intros; auto.
  - apply walk1 in H0 as ->. auto.
  - tauto.
Qed.

Lemma lit_c_class : forall c,
  char_class_parser (fun d => d = c) (literal_expected c) (literal_expected c) (lit_c c).
Proof.
  intros c. apply accept_when_char.
  - intros d. unfold is_char_c; simpl. split; [intros H; injection H; lia|].
    intros ->. rewrite Z.eqb_refl. auto.
  - discriminate.
Qed.

Lemma some_eq : forall b, Some b = Some true <-> b = true.
Proof. split; congruence. Qed.

Lemma range_c_class : forall lo hi,
  char_class_parser (fun d => lo <= d <= hi) unexpected_end_of_input unexpected_character
    (range_c lo hi).
Proof.
  intros lo hi. apply accept_when_one_char; [|discriminate].
  intros d. unfold in_range_c; simpl. rewrite some_eq. lia.
Qed.

Lemma digit_class : char_class_parser digit_char digit_expected digit_expected digit.
Proof.
  apply accept_when_char; [|discriminate].
  intros d. unfold is_digit, in_range_c, digit_char; simpl. rewrite some_eq. lia.
Qed.

Lemma letter_class :
  char_class_parser letter_char unexpected_end_of_input letter_expected letter.
Proof.
  apply accept_when_one_char; [|discriminate].
  intros d. unfold is_letter, is_lcase_letter, is_ucase_letter, in_range_c, letter_char; simpl.
  rewrite some_eq. lia.
Qed.

Lemma space_class :
  char_class_parser space_char unexpected_end_of_input whitespace_expected space.
Proof.
  apply accept_when_one_char; [|discriminate].
  intros d. unfold is_whitespace, is_whitespace_c, space_char; simpl.
  rewrite some_eq. lia.
Qed.

Lemma or_c_in : forall c cs, or_c (map (fun d => c =? d) cs) = true <-> In c cs.
Proof.
  induction cs as [|d cs IH]; simpl; [split; [discriminate|tauto]|].
  destruct (c =? d) eqn:E.
  - split; auto. intros; left; lia.
  - rewrite IH. split; auto. intros [<-|H]; auto. lia.
Qed.

Lemma one_of_c_11_class : forall cs,
  char_class_parser (fun d => In d cs) unexpected_end_of_input
    none_of_the_expected_cases_found (one_of_c_11 cs).
Proof.
  intros cs. apply accept_when_one_char; [|discriminate].
  intros d. unfold any_of_c_11; simpl. rewrite some_eq. apply or_c_in.
Qed.

Lemma any_of_c_14_eq : forall cs c, any_of_c_14 cs (VChar c) = any_of_c_11 cs (VChar c).
Proof.
  intros [|d cs] c; reflexivity.
Qed.

Lemma one_of_c_14_class : forall cs,
  char_class_parser (fun d => In d cs) unexpected_end_of_input
    none_of_the_expected_cases_found (one_of_c_14 cs).
Proof.
  intros cs. apply accept_when_one_char.
  - intros d. rewrite any_of_c_14_eq. unfold any_of_c_11; simpl. rewrite some_eq.
    apply or_c_in.
  - intros d. rewrite any_of_c_14_eq. discriminate.
Qed.

Lemma last_cons_default : forall (A : Type) (l : list A) a d, last l a = last (a :: l) d.
Proof.
  induction l as [|x l IH]; intros a d; auto.
  change (last (a :: x :: l) d) with (last (x :: l) d).
  rewrite <- (IH x a), <- (IH x d). auto.
Qed.

(** [one_of] over characters in C++98 *)
Lemma fwd_lits_reject : forall cs c s ps m, ~ In c cs ->
  fold_left (one_of_fwd_op (c :: s) ps) (map lit_c cs) (Reject m ps)
  = Reject (last (map literal_expected cs) m) ps.
Proof.
  induction cs as [|d cs IH]; intros c s ps m N; auto.
  cbn [map fold_left]. unfold one_of_fwd_op at 2.
  destruct (lit_c_class d) as (_ & R & _). rewrite R by (intros ->; apply N; left; auto).
  unfold later_result. replace (pos_less ps ps) with false.
  - rewrite IH by (intros H; apply N; right; auto). f_equal. apply last_cons_default.
  - symmetry. apply pos_less_false_iff. apply pos_le_refl.
Qed.

Lemma fwd_lits_end : forall cs ps m,
  fold_left (one_of_fwd_op [] ps) (map lit_c cs) (Reject m ps)
  = Reject (last (map literal_expected cs) m) ps.
Proof.
  induction cs as [|d cs IH]; intros ps m; auto.
  cbn [map fold_left]. unfold one_of_fwd_op at 2.
  destruct (lit_c_class d) as (_ & _ & R). rewrite R.
  unfold later_result. replace (pos_less ps ps) with false.
  - rewrite IH. f_equal. apply last_cons_default.
  - symmetry. apply pos_less_false_iff. apply pos_le_refl.
Qed.

Lemma lits_finish : forall cs s ps q, In q (map lit_c cs) -> finishes q s ps.
Proof.
  intros cs s ps q H. apply in_map_iff in H as (c & <- & _).
  destruct (lit_c_class c) as (A & B & C). destruct s as [|d s].
  - right. do 2 eexists. apply C.
  - destruct (Z.eq_dec d c).
    + left. do 3 eexists. apply A; auto. apply walk1; reflexivity.
    + right. do 2 eexists. apply B; auto.
Qed.

Lemma fwd_lits_accept : forall cs c s ps m, In c cs ->
  fold_left (one_of_fwd_op (c :: s) ps) (map lit_c cs) (Reject m ps)
  = Accept (VChar c) s (next_pos c ps).
Proof.
  induction cs as [|d cs IH]; intros c s ps m N; [destruct N|].
  cbn [map fold_left]. unfold one_of_fwd_op at 2.
  destruct (lit_c_class d) as (A & R & _).
  destruct (Z.eq_dec c d) as [->|Ne].
  - rewrite (A d s ps (next_pos d ps)); auto; [|apply walk1; auto].
    apply fwd_op_accept_state. intros q. apply lits_finish.
  - rewrite R by auto. unfold later_result. replace (pos_less ps ps) with false.
    + apply IH. destruct N; auto. congruence.
    + symmetry. apply pos_less_false_iff. apply pos_le_refl.
Qed.

Lemma one_of_98_lits_class : forall cs,
  char_class_parser (fun d => In d cs)
    (last (map literal_expected cs) none_of_the_expected_cases_found)
    (last (map literal_expected cs) none_of_the_expected_cases_found)
    (one_of_98_impl (map lit_c cs)).
Proof.
  intros cs. unfold one_of_98_impl. unfold char_class_parser; splits.
  - intros c s ps ps' H W. apply walk1 in W as ->. apply fwd_lits_accept; auto.
  - intros c s ps H. apply fwd_lits_reject; auto.
  - intros ps. apply fwd_lits_end.
Qed.

Lemma class_ext : forall P m1 m2 p q, same_parser p q ->
  char_class_parser P m1 m2 p -> char_class_parser P m1 m2 q.
Proof.
  intros P m1 m2 p q E (A & B & C). unfold char_class_parser; splits; intros; rewrite <- E; auto.
Qed.

Definition one_of_c_end_message (cfg : config) (cs : list char) : msg :=
  match cfg_std cfg with
  | Std98 => last (map literal_expected cs) none_of_the_expected_cases_found
  | _ => unexpected_end_of_input
  end.
Definition one_of_c_char_message (cfg : config) (cs : list char) : msg :=
  match cfg_std cfg with
  | Std98 => last (map literal_expected cs) none_of_the_expected_cases_found
  | _ => none_of_the_expected_cases_found
  end.

Lemma one_of_c_class : forall cfg cs, fits_one_of_c cfg (length cs) ->
  char_class_parser (fun d => In d cs) (one_of_c_end_message cfg cs)
    (one_of_c_char_message cfg cs) (one_of_c cfg cs).
Proof.
  intros cfg cs F. unfold one_of_c_end_message, one_of_c_char_message.
  unfold one_of_c, fits_one_of_c in *. destruct (cfg_std cfg).
  - specialize (F eq_refl).
    apply class_ext with (one_of_98_impl (map lit_c cs)); [|apply one_of_98_lits_class].
    intros s ps. unfold one_of_c_98, one_of_98.
    replace (Nat.ltb _ _) with true by (symmetry; apply Nat.ltb_lt; auto).
    replace (Nat.leb _ _) with true; auto.
    symmetry; apply Nat.leb_le; rewrite map_length; lia.
  - apply one_of_c_11_class.
  - apply one_of_c_14_class.
Qed.

Lemma is_none_c_not_in : forall c cs, is_none_c_impl c cs = true <-> ~ In c cs.
Proof.
  induction cs as [|d cs IH]; simpl; [tauto|].
  destruct (c =? d) eqn:E.
  - split; [discriminate|]. intros H; exfalso; apply H; left; lia.
  - rewrite IH. split; intros H; [intros [->|Q]; [lia|tauto]|tauto].
Qed.

Lemma is_none_98_spec : forall c cs n, (n <= length cs)%nat ->
  exists b, is_none_98 n cs (VChar c) = Some b /\ (b = true <-> ~ In c (firstn n cs)).
Proof.
  induction n; intros L.
  - exists true. simpl. split; auto. tauto.
  - destruct IHn as (b & E & B); [lia|]. cbn [is_none_98]. simpl as_int.
    destruct (nth_error cs n) as [d|] eqn:N.
    + assert (F : firstn (S n) cs = firstn n cs ++ [d]).
      { clear - N. revert cs N. induction n; intros [|x cs] N; try discriminate.
        - simpl in N. injection N; intros ->; auto.
        - simpl in N. cbn [firstn app]. f_equal. apply (IHn cs); auto. }
      rewrite F. destruct (c =? d) eqn:Q.
      * exists false. split; auto. split; [discriminate|].
        intros H; exfalso; apply H. apply in_or_app; right; left; lia.
      * exists b. split; auto. rewrite B. rewrite in_app_iff. simpl.
        split; intros H; [intros [K|[K|[]]]; [tauto|lia]|tauto].
    + exfalso. apply nth_error_None in N. lia.
Qed.

Lemma one_char_except_c_class : forall cfg cs, fits_one_char_except cfg (length cs) ->
  char_class_parser (fun d => ~ In d cs) unexpected_end_of_input unexpected_character
    (one_char_except_c cfg cs).
Proof.
  intros cfg cs F. unfold one_char_except_c, fits_one_char_except in *.
  assert (A : char_class_parser (fun d => ~ In d cs) unexpected_end_of_input
    unexpected_character (one_char_except_c_11 cs)).
  { apply accept_when_one_char; [|discriminate].
    intros d. unfold is_none_c; simpl. rewrite some_eq. apply is_none_c_not_in. }
  destruct (cfg_std cfg); auto. specialize (F eq_refl).
  apply class_ext with
    (accept_when one_char (is_none_98 (length cs) cs) unexpected_character).
  - intros s ps. unfold one_char_except_c_98.
    replace (Nat.ltb _ _) with true; auto. symmetry; apply Nat.ltb_lt; auto.
  - apply accept_when_one_char; intros d;
      destruct (is_none_98_spec d cs (length cs) (le_n _)) as (b & -> & B);
      rewrite firstn_all in B.
    + rewrite some_eq; auto.
    + discriminate.
Qed.

Definition alphanum_char (c : char) : Prop := letter_char c \/ digit_char c.

Definition alphanum_message (cfg : config) : msg :=
  match cfg_std cfg with
  | Std98 => digit_expected
  | _ => none_of_the_expected_cases_found
  end.

Lemma letter_dec : forall c, {letter_char c} + {~ letter_char c}.
Proof. intros. unfold letter_char. destruct (Z_le_dec 97 c), (Z_le_dec c 122), (Z_le_dec 65 c), (Z_le_dec c 90); (left; lia) || (right; lia). Qed.

Lemma digit_dec : forall c, {digit_char c} + {~ digit_char c}.
Proof. intros. unfold digit_char. destruct (Z_le_dec 48 c), (Z_le_dec c 57); (left; lia) || (right; lia). Qed.

Lemma pos_less_irrefl : forall ps, pos_less ps ps = false.
Proof. intros. apply pos_less_false_iff, pos_le_refl. Qed.

Lemma alphanum_class : forall cfg, fits_one_of cfg 2 ->
  char_class_parser alphanum_char (alphanum_message cfg) (alphanum_message cfg) (alphanum cfg).
Proof.
  intros cfg F. unfold alphanum, alphanum_message.
  destruct letter_class as (LA & LB & LC). destruct digit_class as (DA & DB & DC).
  assert (Dis : forall c, letter_char c -> ~ digit_char c)
    by (intros c; unfold letter_char, digit_char; lia).
  unfold one_of, fits_one_of in *. destruct (cfg_std cfg).
  - specialize (F eq_refl).
    apply class_ext with (one_of_98_impl [letter; digit]).
    { intros s ps. unfold one_of_98. replace (Nat.leb _ _) with true; auto.
      symmetry; apply Nat.leb_le; auto. }
    unfold one_of_98_impl. unfold char_class_parser; splits.
    + intros c s ps ps' H W. cbn [fold_left]. unfold one_of_fwd_op, fail.
      destruct (letter_dec c) as [L|L].
      * rewrite (LA c s ps ps') by auto. rewrite DB by auto. auto.
      * rewrite LB by auto. unfold later_result. rewrite pos_less_irrefl.
        destruct H as [H|H]; [contradiction|]. rewrite (DA c s ps ps') by auto. auto.
    + intros c s ps H. cbn [fold_left]. unfold one_of_fwd_op, fail.
      rewrite LB, DB by (intros Q; apply H; unfold alphanum_char; auto).
      unfold later_result. rewrite pos_less_irrefl, pos_less_irrefl. auto.
    + intros ps. cbn [fold_left]. unfold one_of_fwd_op, fail. rewrite LC, DC.
      unfold later_result. rewrite pos_less_irrefl, pos_less_irrefl. auto.
  - unfold char_class_parser; splits.
    + intros c s ps ps' H W. cbn [one_of_11]. unfold fail.
      destruct (letter_dec c) as [L|L].
      * rewrite (LA c s ps ps') by auto. rewrite DB by auto.
        unfold later_result. rewrite pos_less_irrefl. auto.
      * rewrite LB by auto. destruct H as [H|H]; [contradiction|].
        rewrite (DA c s ps ps') by auto. auto.
    + intros c s ps H. cbn [one_of_11]. unfold fail.
      rewrite LB, DB by (intros Q; apply H; unfold alphanum_char; auto).
      unfold later_result. rewrite pos_less_irrefl, pos_less_irrefl. auto.
    + intros ps. cbn [one_of_11]. unfold fail. rewrite LC, DC.
      unfold later_result. rewrite pos_less_irrefl, pos_less_irrefl. auto.
  - unfold char_class_parser; splits.
    + intros c s ps ps' H W. cbn [one_of_11]. unfold fail.
      destruct (letter_dec c) as [L|L].
      * rewrite (LA c s ps ps') by auto. rewrite DB by auto.
        unfold later_result. rewrite pos_less_irrefl. auto.
      * rewrite LB by auto. destruct H as [H|H]; [contradiction|].
        rewrite (DA c s ps ps') by auto. auto.
    + intros c s ps H. cbn [one_of_11]. unfold fail.
      rewrite LB, DB by (intros Q; apply H; unfold alphanum_char; auto).
      unfold later_result. rewrite pos_less_irrefl, pos_less_irrefl. auto.
    + intros ps. cbn [one_of_11]. unfold fail. rewrite LC, DC.
      unfold later_result. rewrite pos_less_irrefl, pos_less_irrefl. auto.
Qed.
