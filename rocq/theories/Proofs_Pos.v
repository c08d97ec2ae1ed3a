(** Lemmas about source positions. *)

From Coq Require Import ZArith List Bool Lia ZifyBool.
From Verif Require Import Base Util Combinators Spec.
Import ListNotations.
Open Scope Z_scope.

(** The position after reading a text, as a function. *)
Fixpoint adv (ps : pos) (w : str) : pos :=
  match w with
  | [] => ps
  | c :: w' => adv (next_pos c ps) w'
  end.

Lemma adv_app : forall w1 w2 ps, adv ps (w1 ++ w2) = adv (adv ps w1) w2.
Proof. induction w1; simpl; auto. Qed.

Lemma walk_adv : forall w ps, walk ps w (adv ps w).
Proof.
  induction w as [|c w IH]; intros ps; simpl.
  - constructor.
  - destruct ps as [l k b]. unfold next_pos.
    unfold c_cr, c_lf, next_line, next_char; simpl.
    destruct ((c =? 13) || (c =? 10) && negb (b =? 13)) eqn:E.
    + apply walk_newline; [ unfold starts_new_line; lia | apply IH ].
    + apply walk_char; [ unfold starts_new_line; lia | apply IH ].
Qed.

Lemma walk_functional : forall ps w p1, walk ps w p1 -> forall p2, walk ps w p2 -> p1 = p2.
Proof.
  induction 1; intros p2 H2; inversion H2; subst; auto; contradiction.
Qed.

Lemma walk_iff : forall ps w ps', walk ps w ps' <-> ps' = adv ps w.
Proof.
  split; intros H.
  - eapply walk_functional; eauto using walk_adv.
  - subst; apply walk_adv.
Qed.

Lemma pos_equal_to_iff : forall a b, pos_equal_to a b = true <-> a = b.
Proof.
  intros [l k b] [l' k' b']; unfold pos_equal_to; simpl; split; intros H.
  - f_equal; lia.
  - injection H; intros; lia.
Qed.

Lemma pos_equal_to_refl : forall a, pos_equal_to a a = true.
Proof. intros; apply pos_equal_to_iff; auto. Qed.

Lemma pos_less_iff : forall a b, pos_less a b = true <-> pos_lt a b.
Proof.
  intros [l k b] [l' k' b']; unfold pos_less, pos_lt; simpl; lia.
Qed.

Lemma pos_less_false_iff : forall a b, pos_less a b = false <-> pos_le b a.
Proof.
  intros [l k b] [l' k' b']; unfold pos_less, pos_le, pos_lt; simpl; split; intros H.
  - assert (C : l' < l \/ l' = l /\ (k' < k \/ k' = k /\ b' < b) \/ (l' = l /\ k' = k /\ b' = b)) by lia.
    destruct C as [C | [C | (-> & -> & ->)]]; auto.
  - destruct H as [H | H]; [ lia | injection H; intros; lia ].
Qed.

Lemma pos_lt_trans : forall a b c, pos_lt a b -> pos_lt b c -> pos_lt a c.
Proof. intros [? ? ?] [? ? ?] [? ? ?]; unfold pos_lt; simpl; lia. Qed.

Lemma pos_lt_irrefl : forall a, ~ pos_lt a a.
Proof. intros [? ? ?]; unfold pos_lt; simpl; lia. Qed.

Lemma pos_lt_total : forall a b, pos_lt a b \/ a = b \/ pos_lt b a.
Proof.
  intros [l k b] [l' k' b']; unfold pos_lt; simpl.
  assert (C : (l < l' \/ l = l' /\ (k < k' \/ k = k' /\ b < b'))
     \/ (l = l' /\ k = k' /\ b = b')
     \/ (l' < l \/ l' = l /\ (k' < k \/ k' = k /\ b' < b))) by lia.
  destruct C as [C | [(-> & -> & ->) | C]]; auto.
Qed.

Lemma pos_le_lt_trans : forall a b c, pos_le a b -> pos_lt b c -> pos_lt a c.
Proof. intros a b c [H | ->]; eauto using pos_lt_trans. Qed.

Lemma pos_lt_le_trans : forall a b c, pos_lt a b -> pos_le b c -> pos_lt a c.
Proof. intros a b c H [H' | ->]; eauto using pos_lt_trans. Qed.

Lemma pos_le_trans : forall a b c, pos_le a b -> pos_le b c -> pos_le a c.
Proof.
  intros a b c [H | ->] H'; auto. left; eapply pos_lt_le_trans; eauto.
Qed.

Lemma pos_le_refl : forall a, pos_le a a.
Proof. right; auto. Qed.

Lemma pos_le_antisym : forall a b, pos_le a b -> pos_le b a -> a = b.
Proof.
  intros a b [H | H] H'; auto. exfalso.
  eapply pos_lt_irrefl. eapply pos_lt_le_trans; eauto.
Qed.

Lemma next_pos_lt : forall c ps, pos_lt ps (next_pos c ps).
Proof.
  intros c [l k b]. unfold next_pos, next_line, next_char, pos_lt; simpl.
  destruct ((c =? c_cr) || (c =? c_lf) && negb (b =? c_cr)); simpl; lia.
Qed.

Lemma adv_le : forall w ps, pos_le ps (adv ps w).
Proof.
  induction w; intros; simpl.
  - right; auto.
  - left. eapply pos_lt_le_trans. apply next_pos_lt. apply IHw.
Qed.

Lemma adv_lt : forall w ps, w <> [] -> pos_lt ps (adv ps w).
Proof.
  intros [|c w] ps H; [congruence|]. simpl.
  eapply pos_lt_le_trans. apply next_pos_lt. apply adv_le.
Qed.

Lemma adv_fix : forall w ps, adv ps w = ps <-> w = [].
Proof.
  intros w ps; split; intros H.
  - destruct w as [|c w]; auto. exfalso.
    apply (pos_lt_irrefl ps). rewrite <- H at 2. apply adv_lt; congruence.
  - subst; auto.
Qed.

Lemma prefix_lt : forall u w s ps, prefix u s -> prefix w s ->
  (pos_lt (adv ps u) (adv ps w) <-> (length u < length w)%nat).
Proof.
  intros u w s ps [a Ha] [b Hb]. subst s.
  assert (aux : forall u w a b : str, u ++ a = w ++ b -> (length u < length w)%nat ->
            exists v, v <> [] /\ w = u ++ v).
  { clear. induction u; intros w a' b E L.
    - exists w; split; auto. destruct w; simpl in *; try lia; congruence.
    - destruct w; simpl in *; try lia. injection E; intros E' ->.
      destruct (IHu w a' b E') as (v & ? & ->); [lia|]. exists v; auto. }
  assert (aux2 : forall u w a b : str, u ++ a = w ++ b -> length u = length w -> u = w).
  { clear. induction u; intros w a' b E L; destruct w; simpl in *; try lia; auto.
    injection E; intros E' ->. f_equal; eapply IHu; eauto. }
  split; intros H.
  - destruct (Nat.lt_trichotomy (length u) (length w)) as [L | [L | L]]; auto.
    + rewrite (aux2 _ _ _ _ Hb L) in H. destruct (pos_lt_irrefl _ H).
    + destruct (aux _ _ _ _ (eq_sym Hb) L) as (v & Hv & ->).
      rewrite adv_app in H. exfalso.
      apply (pos_lt_irrefl (adv ps w)). eapply pos_lt_trans; [|apply H].
      apply adv_lt; auto.
  - destruct (aux _ _ _ _ Hb H) as (v & Hv & ->).
    rewrite adv_app. apply adv_lt; auto.
Qed.

(** ** Lines and columns *)

Definition starts_lf (w : str) : bool :=
  match w with d :: _ => d =? 10 | [] => false end.

Lemma adv_line : forall w ps,
  line (adv ps w)
  = line ps + terminators w
    - (if (prev ps =? 13) && starts_lf w then 1 else 0).
Proof.
  induction w as [|c w IH]; intros [l k b].
  - simpl. rewrite andb_false_r. lia.
  - simpl adv. rewrite IH. unfold next_pos, next_line, next_char, c_cr, c_lf.
    cbn [line col prev].
    destruct (c =? 13) eqn:E13.
    + cbn [orb line prev]. cbn [terminators starts_lf]. rewrite E13.
      assert (c =? 10 = false) by lia. rewrite H.
      destruct w as [|d w]; cbn [starts_lf andb].
      * rewrite andb_false_r. cbn. lia.
      * rewrite andb_false_r. destruct (d =? 10); lia.
    + cbn [orb]. cbn [terminators starts_lf]. rewrite E13.
      destruct (c =? 10) eqn:E10; cbn [andb].
      * destruct (b =? 13) eqn:Eb; cbn [negb andb line prev].
        -- rewrite E13. cbn [andb]. lia.
        -- rewrite E13. cbn [andb]. lia.
      * cbn [line prev]. rewrite E13. rewrite andb_false_r. cbn [andb]. lia.
Qed.

Lemma crlf_cons : forall c w,
  existsb is_eol w = true -> ((c =? 13) && starts_lf w) = false ->
  (last_terminator_is_crlf (c :: w) <-> last_terminator_is_crlf w).
Proof.
  intros c w Hw Hc; split; intros (a & b & E & Hb).
  - destruct a as [|x a]; simpl in E; injection E; intros.
    + subst. simpl in Hc. discriminate.
    + exists a, b; auto.
  - exists (c :: a), b. subst; auto.
Qed.

Lemma crlf_has_eol : forall w, last_terminator_is_crlf w -> existsb is_eol w = true.
Proof.
  intros w (a & b & -> & _). rewrite existsb_app. simpl. apply orb_true_r.
Qed.

Lemma crlf_single : forall c w, existsb is_eol w = false ->
  ~ last_terminator_is_crlf (c :: w).
Proof.
  intros c w Hw (a & b & E & Hb). destruct a; simpl in E; injection E; intros; subst.
  - simpl in Hw. discriminate.
  - rewrite existsb_app in Hw. simpl in Hw. rewrite orb_true_r in Hw. discriminate.
Qed.

Lemma adv_col_aux : forall len w ps, (length w <= len)%nat ->
  ((prev ps =? 13) && starts_lf w) = false ->
  (existsb is_eol w = false -> col (adv ps w) = col ps + Z.of_nat (length w))
  /\ (existsb is_eol w = true ->
       (last_terminator_is_crlf w -> col (adv ps w) = 2 + Z.of_nat (length (last_line w)))
       /\ (~ last_terminator_is_crlf w ->
           col (adv ps w) = 1 + Z.of_nat (length (last_line w)))).
Proof.
  induction len as [|len IH]; intros w ps Hl Hp.
  - destruct w; simpl in Hl; [|lia]. split; intros H; simpl in *; [lia | discriminate].
  - destruct w as [|c w]; [split; intros H; simpl in *; [lia | discriminate]|].
    simpl in Hl.
    destruct ((c =? 13) && starts_lf w) eqn:Ecrlf.
    + (* CR LF *)
      apply andb_prop in Ecrlf as [Ec Elf]. destruct w as [|d w]; [discriminate|].
      simpl in Elf. assert (c = 13) by lia. assert (d = 10) by lia. subst c d.
      simpl adv. unfold next_pos at 2. cbn. change (13 =? c_cr) with true. cbn [orb].
      unfold next_pos. cbn.
      set (q := next_char (next_line ps 13) 10).
      destruct (IH w q) as [A B]; [simpl in Hl; lia | reflexivity |].
      split; intros H.
      * discriminate.
      * destruct (existsb is_eol w) eqn:Ew.
        -- destruct (B eq_refl) as [B1 B2].
           assert (X : last_terminator_is_crlf (13 :: 10 :: w) <-> last_terminator_is_crlf w).
           { split; intros (a & b & E & Hb).
             - destruct a as [|x a]; simpl in E; injection E; intros; subst.
               + rewrite Hb in Ew. discriminate.
               + destruct a as [|y a]; simpl in *; [discriminate|].
                 injection H0; intros; subst. exists a, b; auto.
             - exists (13 :: 10 :: a), b; subst; auto. }
           rewrite X. split; auto.
        -- split; intros H'.
           ++ rewrite (A eq_refl). unfold q. cbn. lia.
           ++ destruct H'. exists [], w; auto.
    + assert (Hnp : ((c =? 13) && starts_lf w) = false) by auto.
      simpl adv.
      destruct (IH w (next_pos c ps)) as [A B]; [lia | | ].
      { unfold next_pos. destruct ps as [l k b]; cbn.
        destruct ((c =? c_cr) || (c =? c_lf) && negb (b =? c_cr)); cbn; auto. }
      destruct (existsb is_eol w) eqn:Ew.
      * (* w has terminators *)
        assert (existsb is_eol (c :: w) = true) as E1 by (simpl; rewrite Ew; apply orb_true_r).
        rewrite E1. split; [discriminate|]. intros _.
        rewrite crlf_cons by auto. simpl last_line. rewrite Ew. auto.
      * assert (Hcol : col (adv (next_pos c ps) w) = col (next_pos c ps) + Z.of_nat (length w)) by auto.
        rewrite Hcol. clear A B.
        split.
        -- simpl. rewrite ?Ew, orb_false_r. intros Hc. unfold is_eol in Hc.
           unfold next_pos, c_cr, c_lf.
           assert (c =? 13 = false) by lia. assert (c =? 10 = false) by lia.
           rewrite H, H0. cbn. lia.
        -- simpl existsb. rewrite Ew, orb_false_r. intros Hc.
           split; [intros H'; destruct (crlf_single _ _ Ew H') |]. intros _.
           simpl last_line. rewrite Ew, Hc.
           unfold is_eol in Hc. unfold next_pos, c_cr, c_lf.
           destruct (c =? 13) eqn:E13; [reflexivity|].
           assert (E10 : c =? 10 = true) by lia. rewrite E10. cbn [orb andb].
           assert (Hprev : prev ps =? 13 = false).
           { simpl in Hp. rewrite E10 in Hp. rewrite andb_true_r in Hp. auto. }
           rewrite Hprev. reflexivity.
Qed.

Lemma no_eol_last_line : forall w, existsb is_eol w = false -> last_line w = w.
Proof.
  intros [|c w]; simpl; auto. destruct (existsb is_eol w); simpl.
  - rewrite orb_true_r. discriminate.
  - rewrite orb_false_r. intros ->. auto.
Qed.

Lemma adv_start_line : forall w, line (adv start w) = 1 + terminators w.
Proof. intros. rewrite adv_line. simpl. lia. Qed.

Lemma adv_start_col : forall w,
  (last_terminator_is_crlf w -> col (adv start w) = 2 + Z.of_nat (length (last_line w)))
  /\ (~ last_terminator_is_crlf w -> col (adv start w) = 1 + Z.of_nat (length (last_line w))).
Proof.
  intros w. destruct (adv_col_aux (length w) w start) as [A B]; auto.
  destruct (existsb is_eol w) eqn:E.
  - destruct B; auto.
  - split; intros H.
    + apply crlf_has_eol in H. congruence.
    + rewrite A by auto. rewrite no_eol_last_line by auto. reflexivity.
Qed.

Lemma adv_start_prev : forall w c, prev (adv start (w ++ [c])) = c.
Proof.
  intros. rewrite adv_app. simpl. unfold next_pos.
  destruct (_ || _); reflexivity.
Qed.
