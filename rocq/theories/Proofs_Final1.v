(** Lemmas in the form used by Properties_Positions.v. *)

From Coq Require Import ZArith List Bool Lia.
From Verif Require Import Base Util Combinators Variadic Parsers Deep Spec SpecDeep
  Proofs_Pos Proofs_Fold Proofs_Variadic Proofs_Parsers Proofs_Parsers2 Proofs_Deep.
Import ListNotations.
Open Scope Z_scope.

Lemma eval_sound_accept : forall cfg env n e,
  program_every (natives sound_accept keeps_errors) env ->
  every (natives sound_accept keeps_errors) e ->
  sound_accept (eval cfg env n e).
Proof.
  assert (T : forall e, every (natives sound_accept keeps_errors) e -> every (good_native False) e).
  { intros e. apply every_impl. intros x Hx. destruct x; simpl in *; auto.
    - intros s ps. destruct (p s ps) eqn:A; simpl; auto; try tauto.
      apply Hx in A as (w & -> & W). exists w. apply walk_iff in W. auto.
    - split; auto; tauto. }
  intros cfg env n e HE He s ps r rem ps' A.
  pose proof (eval_good False cfg env (fun k => T _ (HE k)) n e (T _ He) s ps) as G.
  rewrite A in G. destruct G as (w & -> & ->). exists w. split; auto. apply walk_adv.
Qed.

Lemma eval_sound_reject : forall cfg env n e,
  program_every (natives (fun p => sound_accept p /\ sound_reject p)
    (fun f => keeps_errors f /\ keeps_positions f)) env ->
  every (natives (fun p => sound_accept p /\ sound_reject p)
    (fun f => keeps_errors f /\ keeps_positions f)) e ->
  sound_reject (eval cfg env n e).
Proof.
  assert (T : forall e, every (natives (fun p => sound_accept p /\ sound_reject p)
    (fun f => keeps_errors f /\ keeps_positions f)) e -> every (good_native True) e).
  { intros e. apply every_impl. intros x Hx. destruct x; simpl in *; auto.
    - destruct Hx as [H1 H2]. intros s ps. destruct (p s ps) eqn:A; simpl; auto; try tauto.
      + apply H1 in A as (w & -> & W). exists w. apply walk_iff in W. auto.
      + intros _. apply H2 in A as (w & P & W). exists w. apply walk_iff in W. auto.
    - destruct Hx; split; auto. }
  intros cfg env n e HE He s ps m ps' A.
  pose proof (eval_good True cfg env (fun k => T _ (HE k)) n e (T _ He) s ps) as G.
  rewrite A in G. destruct (G I) as (w & P & ->). exists w. split; auto. apply walk_adv.
Qed.

Lemma sound_reject_bounds : forall p, sound_reject p ->
  forall s ps m pe pend, p s ps = Reject m pe -> walk ps s pend ->
  pos_le ps pe /\ pos_le pe pend.
Proof.
  intros p H s ps m pe pend A W. apply H in A as (w & [t ->] & Ww).
  rewrite walk_iff in *. subst. split; [apply adv_le|]. rewrite adv_app. apply adv_le.
Qed.

Lemma positions_increase : forall ps w ps', w <> [] -> walk ps w ps' ->
  pos_less ps ps' = true /\ pos_equal_to ps ps' = false.
Proof.
  intros ps w ps' N W. rewrite walk_iff in W. subst. split.
  - apply pos_less_iff, adv_lt; auto.
  - destruct (pos_equal_to ps (adv ps w)) eqn:E; auto.
    apply pos_equal_to_iff in E. symmetry in E. apply adv_fix in E. congruence.
Qed.

Lemma positions_ordered_by_length : forall s u w ps pu pw,
  prefix u s -> prefix w s -> walk ps u pu -> walk ps w pw ->
  (pos_less pu pw = true <-> (length u < length w)%nat)
  /\ (pos_equal_to pu pw = true <-> u = w).
Proof.
  intros s u w ps pu pw Pu Pw Wu Ww. rewrite walk_iff in *. subst. split.
  - rewrite pos_less_iff. eapply prefix_lt; eauto.
  - rewrite pos_equal_to_iff. split; [|congruence]. intros E.
    destruct (Nat.lt_trichotomy (length u) (length w)) as [L | [L | L]].
    + apply (prefix_lt u w s ps Pu Pw) in L. rewrite E in L. apply pos_lt_irrefl in L. tauto.
    + destruct Pu as [a Ha], Pw as [b Hb]. subst s.
      apply (f_equal (firstn (length u))) in Hb. rewrite L in Hb at 2.
      rewrite !firstn_app, !firstn_all, !Nat.sub_diag, !firstn_O, !app_nil_r in Hb. auto.
    + apply (prefix_lt w u s ps Pw Pu) in L. rewrite E in L. apply pos_lt_irrefl in L. tauto.
Qed.

Lemma error_at_start : forall p, sound_reject p ->
  forall s ps m pe w, p s ps = Reject m pe -> walk ps w pe ->
  (pos_equal_to ps pe = true <-> w = []).
Proof.
  intros p H s ps m pe w A W. rewrite walk_iff in W. subst.
  rewrite pos_equal_to_iff. rewrite <- (adv_fix w ps). split; congruence.
Qed.

Lemma walk_start_line : forall w ps, walk start w ps -> line ps = 1 + terminators w.
Proof. intros w ps W. rewrite walk_iff in W. subst. apply adv_start_line. Qed.

Lemma walk_start_col : forall w ps, walk start w ps ->
  (last_terminator_is_crlf w -> col ps = 1 + Z.of_nat (length (last_line w)) + 1)
  /\ (~ last_terminator_is_crlf w -> col ps = 1 + Z.of_nat (length (last_line w))).
Proof.
  intros w ps W. rewrite walk_iff in W. subst. destruct (adv_start_col w) as [A B].
  split; intros H; [rewrite A by auto; lia|auto].
Qed.

Lemma comparisons : forall a b c : pos,
  (* strict total order *)
  pos_less a a = false
  /\ (pos_less a b = true -> pos_less b c = true -> pos_less a c = true)
  /\ (pos_less a b = true \/ pos_equal_to a b = true \/ pos_less b a = true)
  /\ (pos_equal_to a b = true <-> a = b)
  (* derived relations *)
  /\ (pos_not_equal_to a b = true <-> a <> b)
  /\ (pos_greater a b = true <-> pos_less b a = true)
  /\ (pos_greater_equal a b = true <-> pos_less a b = false)
  /\ (pos_less_equal a b = true <-> pos_less a b = true \/ a = b)
  (* the order is lexicographic on line, column, previous character *)
  /\ (pos_less a b = true <-> pos_lt a b).
Proof.
  intros a b c. splits.
  - apply pos_less_irrefl.
  - rewrite !pos_less_iff. apply pos_lt_trans.
  - rewrite !pos_less_iff, pos_equal_to_iff. apply pos_lt_total.
  - apply pos_equal_to_iff.
  - unfold pos_not_equal_to. rewrite negb_true_iff, <- not_true_iff_false, pos_equal_to_iff. tauto.
  - unfold pos_greater. rewrite negb_true_iff, orb_false_iff, pos_less_iff, pos_less_false_iff,
      <- not_true_iff_false, pos_equal_to_iff.
    split.
    + intros [[H | H] N]; auto. congruence.
    + intros H. split; [left; auto|]. intros ->. apply pos_lt_irrefl in H. auto.
  - unfold pos_greater_equal. apply negb_true_iff.
  - unfold pos_less_equal. rewrite orb_true_iff, pos_equal_to_iff. tauto.
  - apply pos_less_iff.
Qed.
