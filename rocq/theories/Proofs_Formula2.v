(** Proofs about texts of formulas: words that are numbers, the shortest text, and
    that a text has one formula. *)

From Coq Require Import ZArith List Bool Lia.
From Verif Require Import Base Util Deep Spec SpecDeep SpecRules SpecChoice SpecPrecedence SpecFormula
  Proofs_Pos Proofs_Laws Proofs_Rules Proofs_Layout Proofs_Choice Proofs_Precedence Proofs_Parsers2
  Proofs_Final5 Proofs_Formula.
Import ListNotations.
Open Scope Z_scope.

Section Numbers.
Variable sd : std.
Variable env : program.
Notation gives := (gives sd env).

Lemma in_digits : forall c, is_digit (VChar c) = Some true <-> digit_char c.
Proof.
  intros c. unfold is_digit, in_range_c, digit_char. cbn [as_int].
  split; [intros H; injection H as H; lia|intros H; f_equal; lia].
Qed.

Lemma digit_gives : forall c t ps, digit_char c ->
  gives PDigit (c :: t) ps (Accept (VChar c) t (adv ps [c])).
Proof.
  intros c t ps D. eapply g_accept_when; [|apply in_digits; exact D].
  apply g_change_error_message_ok. apply g_one_char. apply walk_adv.
Qed.
Lemma digit_fails : forall s ps, not_starting_with digit_char s ->
  exists m pe, gives PDigit s ps (Reject m pe).
Proof.
  intros [|c s] ps N.
  - do 2 eexists. eapply g_accept_when_fails. eapply g_change_error_message. constructor.
  - do 2 eexists. eapply g_accept_when_not.
    + apply g_change_error_message_ok. apply g_one_char. apply walk_adv.
    + destruct (is_digit (VChar c)) as [[]|] eqn:E; [|reflexivity|].
      * apply in_digits in E. destruct (N E).
      * unfold is_digit, in_range_c in E. cbn in E. discriminate E.
Qed.

Lemma digits_many : forall w t ps, Forall digit_char w ->
  many sd env PDigit (w ++ t) ps (map VChar w) t (adv ps w).
Proof.
  induction w as [|c w IH]; intros t ps F; [constructor|]. inversion F; subst.
  cbn [map app]. eapply many_more; [apply digit_gives; assumption|]. apply (IH t (adv ps [c])). assumption.
Qed.
Lemma digit_vals_many : forall w t ps, Forall digit_char w ->
  many sd env PDigitVal (w ++ t) ps (map (fun c => VInt (c - 48)) w) t (adv ps w).
Proof.
  induction w as [|c w IH]; intros t ps F; [constructor|]. inversion F; subst.
  cbn [map app]. eapply many_more.
  - eapply g_transform; [apply digit_gives; assumption|]. unfold digit_to_int. cbn [as_int].
    rewrite digit_to_int_value by assumption. reflexivity.
  - apply (IH t (adv ps [c])). assumption.
Qed.

Lemma after_not_digit : forall (ls : list (list char * mf2)) s,
  (forall cs f c, In (cs, f) ls -> In c cs -> ~ digit_char c) ->
  after_word ls s -> not_starting_with digit_char s.
Proof.
  intros ls s D [->|(c & t & -> & [->|(cs & f & I & J)])]; cbn; auto.
  - unfold digit_char. lia.
  - exact (D cs f c I J).
Qed.
Lemma spaces_not_digit : forall sp s, Forall space_char sp -> not_starting_with digit_char s ->
  not_starting_with digit_char (sp ++ s).
Proof.
  intros [|c sp] s F N; [exact N|]. inversion F; subst. cbn. unfold space_char, digit_char in *. lia.
Qed.

Lemma bracket_no_digit : forall p s ps, p = PInt \/ p = PRepeated1 PDigit ->
  exists m pe, gives (PToken p) (40 :: s) ps (Reject m pe).
Proof.
  intros p s ps P. destruct (digit_fails (40 :: s) ps) as (m & pe & R); [cbn; unfold digit_char; lia|].
  exists m, pe. eapply g_first_of_fails. apply breaks_off_here.
  destruct P as [->| ->]; apply g_foldl1_fails; [apply g_transform_fails|]; exact R.
Qed.

Lemma numbers_read : forall ls,
  (forall cs f c, In (cs, f) ls -> In c cs -> ~ space_char c) ->
  (forall cs f c, In (cs, f) ls -> In c cs -> ~ digit_char c) ->
  reads_words ls number_word sd env (PToken PInt).
Proof.
  intros ls NS ND. split; [|intros s ps; apply bracket_no_digit; auto].
  intros w v sp s ps (NE & D & LE & ->) F A.
  assert (N1 := after_not_digit ls s ND A).
  assert (N2 : not_starting_with space_char s).
  { destruct A as [->|(c & t & -> & [->|(cs & f & I & J)])]; cbn; auto.
    - unfold space_char. lia.
    - exact (NS cs f c I J). }
  exists (adv (adv ps w) sp). apply token_after; auto.
  destruct (digit_fails (sp ++ s) (adv ps w) (spaces_not_digit sp s F N1)) as (m & pe & R).
  destruct w as [|c w]; [destruct (NE eq_refl)|].
  eapply (g_foldl1 _ _ _ _ _ _ _ (VInt (c - 48)) (map (fun c => VInt (c - 48)) w));
    [exact (digit_vals_many (c :: w) (sp ++ s) ps D)|apply g_transform_fails; exact R|reflexivity|].
  change (VInt (c - 48) :: map (fun c0 => VInt (c0 - 48)) w) with (map (fun c => VInt (c - 48)) (c :: w)).
  rewrite lfold_next_digit by (auto; unfold int_max; lia). unfold decimal in LE.
  apply Z.leb_le in LE. rewrite LE. reflexivity.
Qed.

(** Digits, with the text as the value. *)
Definition digits_word (w : str) (v : value) : Prop :=
  w <> [] /\ Forall digit_char w /\ v = VSeq (map VChar w).

Lemma digits_read : forall ls,
  (forall cs f c, In (cs, f) ls -> In c cs -> ~ space_char c) ->
  (forall cs f c, In (cs, f) ls -> In c cs -> ~ digit_char c) ->
  reads_words ls digits_word sd env (PToken (PRepeated1 PDigit)).
Proof.
  intros ls NS ND. split; [|intros s ps; apply bracket_no_digit; auto].
  intros w v sp s ps (NE & D & ->) F A.
  assert (N1 := after_not_digit ls s ND A).
  assert (N2 : not_starting_with space_char s).
  { destruct A as [->|(c & t & -> & [->|(cs & f & I & J)])]; cbn; auto.
    - unfold space_char. lia.
    - exact (NS cs f c I J). }
  exists (adv (adv ps w) sp). apply token_after; auto.
  destruct (digit_fails (sp ++ s) (adv ps w) (spaces_not_digit sp s F N1)) as (m & pe & R).
  destruct w as [|c w]; [destruct (NE eq_refl)|].
  eapply (g_foldl1 _ _ _ _ _ _ _ (VChar c) (map VChar w));
    [exact (digits_many (c :: w) (sp ++ s) ps D)|exact R|reflexivity|].
  exact (lfold_back (VChar c :: map VChar w) []).
Qed.
End Numbers.

(** ** The shortest text *)

Section Written.
Variable ls : list (list char * mf2).
Variable signs : list char.
Variable word : str -> value -> Prop.

Lemma level_in_nth : forall c, (exists cs f, In (cs, f) ls /\ In c cs) ->
  exists cs f, nth_error ls (level_in ls c) = Some (cs, f) /\ In c cs.
Proof.
  intros c. induction ls as [|(cs & f) ls' IH]; intros (cs' & f' & I & J); [destruct I|].
  cbn [level_in fst]. destruct (existsb (Z.eqb c) cs) eqn:E.
  - apply existsb_exists in E as (d & D & Q). apply Z.eqb_eq in Q. subst d. exists cs, f. auto.
  - destruct I as [I|I].
    + injection I as -> ->. exfalso. assert (X : existsb (Z.eqb c) cs' = true).
      { apply existsb_exists. exists c. split; [exact J|apply Z.eqb_refl]. }
      congruence.
    + destruct IH as (cs2 & f2 & N & K); [eauto|]. exists cs2, f2. auto.
Qed.

Lemma written_spells : forall a, well_formed ls signs (fun w => exists v, word w v) a ->
  forall k, spells ls signs word k a (written ls k a).
Proof.
  induction a as [w|c a IHa b IHb|c a IHa]; intros H k; cbn [written].
  - destruct H as (v & H). rewrite <- (app_nil_r w) at 2. eapply spells_word; [exact H|constructor].
  - destruct H as (C & HA & HB). destruct (level_in_nth c C) as (cs & f & N & I).
    set (j := level_in ls c) in *.
    assert (K : forall i, (i <= j)%nat -> spells ls signs word i (FOp c a b) (written ls j a ++ c :: written ls (S j) b)).
    { intros i L. apply (spells_op ls signs word i j cs f c a b (written ls j a) [] (written ls (S j) b)); auto. }
    cbv zeta. destruct (Nat.ltb_spec j k) as [L|L]; [|apply K; exact L].
    apply (spells_brackets ls signs word k (FOp c a b) [] _ []); auto. apply K. lia.
  - destruct H as (C & HA). apply (spells_sign ls signs word k c a []); auto.
Qed.
End Written.

(** ** One text, one formula *)

Fixpoint as_value (a : formula) : value :=
  match a with
  | FWord w => VSeq (map VChar w)
  | FOp c a b => VSeq [as_value a; VChar c; as_value b]
  | FSign c a => VSeq [VChar c; as_value a]
  end.
Definition free_op : mf2 := fun x r =>
  match r with VSeq [o; y] => Some (VSeq [x; o; y]) | _ => None end.
Definition free_sign : mf2 := fun x o => Some (VSeq [o; x]).
Definition free (ls : list (list char * mf2)) : list (list char * mf2) :=
  map (fun l => (fst l, free_op)) ls.

Lemma as_value_seq : forall a, exists l, as_value a = VSeq l.
Proof. intros [w|c a b|c a]; cbn; eauto. Qed.
Lemma chars_inj : forall w u, map VChar w = map VChar u -> w = u.
Proof.
  induction w as [|c w IH]; intros [|d u] E; try discriminate E; [reflexivity|].
  cbn in E. injection E as -> E. f_equal. auto.
Qed.
Lemma as_value_inj : forall a b, as_value a = as_value b -> a = b.
Proof.
  induction a as [w|c a1 IH1 a2 IH2|c a IH]; intros [u|d b1 b2|d b] E; cbn in E.
  - injection E as E. f_equal. apply chars_inj. exact E.
  - destruct (as_value_seq b1) as (l & Q). rewrite Q in E. destruct w; discriminate E.
  - destruct (as_value_seq b) as (l & Q). rewrite Q in E. destruct w as [|? [|? ?]]; discriminate E.
  - destruct (as_value_seq a1) as (l & Q). rewrite Q in E. destruct u; discriminate E.
  - injection E as E1 -> E2. f_equal; auto.
  - discriminate E.
  - destruct (as_value_seq a) as (l & Q). rewrite Q in E. destruct u as [|? [|? ?]]; discriminate E.
  - discriminate E.
  - injection E as -> E. f_equal. auto.
Qed.

Lemma spells_free : forall ls signs (word word' : str -> value -> Prop),
  (forall w v, word w v -> exists v', word' w v') ->
  forall k a s, spells ls signs word k a s -> spells (free ls) signs word' k a s.
Proof.
  intros ls signs word word' W k a s H.
  induction H as [k w v sp Hw F|k j cs f c a b s1 sp s2 N I K H1 IH1 F H2 IH2
    |k c a sp s I F H IH|k a sp1 s sp2 F1 H IH F2].
  - destruct (W w v Hw) as (v' & Hw'). eapply spells_word; eauto.
  - eapply spells_op; eauto. apply (map_nth_error (fun l => (fst l, free_op))) in N. exact N.
  - apply spells_sign; auto. unfold free. rewrite map_length. exact IH.
  - apply spells_brackets; auto.
Qed.

Lemma worth_free : forall ls signs (word : str -> value -> Prop) k a s,
  spells ls signs word k a s -> (forall w v, word w v -> digits_word w (VSeq (map VChar w))) ->
  worth (free ls) signs free_sign digits_word a (as_value a).
Proof.
  intros ls signs word k a s H W.
  induction H as [k w v sp Hw F|k j cs f c a b s1 sp s2 N I K H1 IH1 F H2 IH2
    |k c a sp s I F H IH|k a sp1 s sp2 F1 H IH F2]; cbn [as_value].
  - constructor. eauto.
  - eapply (worth_op _ _ _ _ cs free_op); eauto.
    apply nth_error_In in N. unfold free. apply in_map_iff. exists (cs, f). auto.
  - eapply worth_sign; eauto; reflexivity.
  - exact IH.
Qed.

(** ** The shortest text is the shortest *)

Section Shortest.
Variable ls : list (list char * mf2).
Variable signs : list char.
Variable word : str -> value -> Prop.
Hypothesis DC : different_characters ls.

Lemma level_in_is : forall j cs f c, nth_error ls j = Some (cs, f) -> In c cs -> level_in ls c = j.
Proof.
  revert DC. clear. induction ls as [|(ds & g) ls' IH]; intros D j cs f c N I.
  - destruct j; discriminate N.
  - destruct D as (D & D'). cbn [level_in fst] in *. destruct j as [|j]; cbn in N.
    + injection N as -> ->. assert (E : existsb (Z.eqb c) cs = true).
      { apply existsb_exists. exists c. split; [exact I|apply Z.eqb_refl]. }
      rewrite E. reflexivity.
    + destruct (existsb (Z.eqb c) ds) eqn:E.
      * apply existsb_exists in E as (d & J & Q). apply Z.eqb_eq in Q. subst d.
        destruct (D c (cs, f) J (nth_error_In _ _ N) I).
      * f_equal. eapply IH; eauto.
Qed.

Lemma written_level : forall a k, (length (written ls k a) <= length (written ls 0 a) + 2)%nat.
Proof.
  intros [w|c a b|c a] k; cbn [written]; try lia.
  cbv zeta. destruct (Nat.ltb_spec (level_in ls c) k); destruct (Nat.ltb_spec (level_in ls c) 0); try lia.
  cbn [length]. rewrite app_length. cbn [length]. lia.
Qed.

Lemma written_shortest : forall k a s, spells ls signs word k a s ->
  (length (written ls k a) <= length s)%nat.
Proof.
  intros k a s H. induction H as [k w v sp Hw F|k j cs f c a b s1 sp s2 N I K H1 IH1 F H2 IH2
    |k c a sp s I F H IH|k a sp1 s sp2 F1 H IH F2].
  - cbn [written]. rewrite app_length. lia.
  - cbn [written]. rewrite (level_in_is j cs f c N I). cbv zeta.
    destruct (Nat.ltb_spec j k); [lia|].
    rewrite !app_length. cbn [length]. rewrite app_length. lia.
  - cbn [written length]. rewrite app_length. lia.
  - pose proof (written_level a k). cbn [length]. rewrite !app_length. cbn [length]. lia.
Qed.
End Shortest.
