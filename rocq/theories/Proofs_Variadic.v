(** Lemmas about sequence, nth_of, one_of and iterate. *)

From Coq Require Import ZArith List Bool Lia.
From Verif Require Import Base Util Combinators Variadic Parsers Spec Proofs_Pos
  Proofs_Fold.
Import ListNotations.
Open Scope Z_scope.

(** ** sequence *)

Lemma in_row_cons_inv : forall p l rs s ps s2 ps2,
  in_row (p :: l) s ps rs s2 ps2 ->
  exists r rs' s1 ps1, rs = r :: rs' /\ p s ps = Accept r s1 ps1
    /\ in_row l s1 ps1 rs' s2 ps2.
Proof. intros. inversion H; subst. do 4 eexists; eauto. Qed.

Lemma in_row_length : forall l s ps rs s2 ps2,
  in_row l s ps rs s2 ps2 -> length rs = length l.
Proof. induction 1; simpl; auto. Qed.

Lemma in_row_functional : forall l s ps rs1 s1 ps1, in_row l s ps rs1 s1 ps1 ->
  forall rs2 s2 ps2, in_row l s ps rs2 s2 ps2 -> rs1 = rs2 /\ s1 = s2 /\ ps1 = ps2.
Proof.
  induction 1; intros rs2' s2' ps2' H2.
  - inversion H2; auto.
  - apply in_row_cons_inv in H2 as (r' & rs' & s1' & ps1' & -> & E & H2).
    rewrite H in E; inversion E; subst.
    destruct (IHin_row _ _ _ H2) as (-> & -> & ->); auto.
Qed.

Lemma sequence_11_accept : forall l s ps v s' ps',
  sequence_11 l s ps = Accept v s' ps' <->
  exists rs, v = VSeq rs /\ in_row l s ps rs s' ps'.
Proof.
  induction l as [|p l IH]; intros s ps v s' ps'.
  - simpl. unfold return_. split.
    + intros H; inversion H; subst. exists []; split; auto. constructor.
    + intros (rs & -> & H). inversion H; subst; auto.
  - simpl. split.
    + destruct (p s ps) as [r s1 ps1 | | | ] eqn:E; try discriminate.
      unfold transform. destruct (sequence_11 l s1 ps1) eqn:E2; try discriminate.
      apply IH in E2 as (rs & -> & R). simpl. intros H; inversion H; subst.
      exists (r :: rs); split; auto. econstructor; eauto.
    + intros (rs & -> & R).
      apply in_row_cons_inv in R as (r & rs' & s1 & ps1 & -> & E & R).
      rewrite E. unfold transform.
      assert (E2 : sequence_11 l s1 ps1 = Accept (VSeq rs') s' ps') by (apply IH; eauto).
      rewrite E2. auto.
Qed.

Definition not_accept (o : outcome) : Prop :=
  match o with Accept _ _ _ => False | _ => True end.

(** The outcome of running parsers in a row, when it is not an acceptance, is
    the outcome of the first one that does not accept. *)
Lemma sequence_11_failure : forall l s ps o, not_accept o ->
  (sequence_11 l s ps = o <-> first_failure l s ps o).
Proof.
  induction l as [|p l IH]; intros s ps o N.
  - simpl. split; [intros <-; destruct N|].
    intros (l1 & p & l2 & rs & s1 & ps1 & E & _). destruct l1; discriminate.
  - simpl. split.
    + destruct (p s ps) as [r s1 ps1 | | | ] eqn:E; intros H;
        try (subst o; exists [], p, l, [], s, ps; splits; auto; constructor).
      unfold transform in H. destruct (sequence_11 l s1 ps1) eqn:E2.
      * apply sequence_11_accept in E2 as (rs & -> & R). simpl in H. subst o. destruct N.
      * subst o. apply IH in E2; auto.
        destruct E2 as (l1 & q & l2 & rs & s2 & ps2 & -> & R & E2).
        exists (p :: l1), q, l2, (r :: rs), s2, ps2. splits; auto. econstructor; eauto.
      * subst o. apply IH in E2; auto.
        destruct E2 as (l1 & q & l2 & rs & s2 & ps2 & -> & R & E2).
        exists (p :: l1), q, l2, (r :: rs), s2, ps2. splits; auto. econstructor; eauto.
      * subst o. apply IH in E2; auto.
        destruct E2 as (l1 & q & l2 & rs & s2 & ps2 & -> & R & E2).
        exists (p :: l1), q, l2, (r :: rs), s2, ps2. splits; auto. econstructor; eauto.
    + intros (l1 & q & l2 & rs & s1 & ps1 & E & R & F).
      destruct l1 as [|p' l1]; simpl in E; injection E; intros; subst.
      * inversion R; subst. destruct (q s1 ps1); auto. destruct N.
      * apply in_row_cons_inv in R as (r & rs' & s2 & ps2 & -> & E2 & R).
        rewrite E2. unfold transform.
        assert (E3 : sequence_11 (l1 ++ q :: l2) s2 ps2 = q s1 ps1).
        { apply IH; auto. exists l1, q, l2, rs', s1, ps1; auto. }
        rewrite E3. destruct (q s1 ps1); auto. destruct N.
Qed.

Lemma sequence_11_vseq : forall l s ps,
  match sequence_11 l s ps with
  | Accept v _ _ => exists rs, v = VSeq rs
  | _ => True
  end.
Proof.
  intros. destruct (sequence_11 l s ps) eqn:E; auto.
  apply sequence_11_accept in E as (rs & -> & _). eauto.
Qed.

Lemma apply_parser_stop : forall l o, not_accept o -> fold_left apply_parser l o = o.
Proof.
  induction l; simpl; intros o N; auto. rewrite <- (IHl o N) at 2.
  destruct o; auto. destruct N.
Qed.

Lemma sequence_impl_gen : forall l acc s ps,
  fold_left apply_parser l (Accept (VSeq acc) s ps) =
  match sequence_11 l s ps with
  | Accept (VSeq rs) s' ps' => Accept (VSeq (acc ++ rs)) s' ps'
  | o => o
  end.
Proof.
  induction l as [|p l IH]; intros; simpl.
  - rewrite app_nil_r; auto.
  - unfold transform at 1. destruct (p s ps) as [r s1 ps1 | | | ] eqn:E;
      try (rewrite apply_parser_stop by exact I; auto; fail).
    simpl. rewrite IH. unfold transform.
    pose proof (sequence_11_vseq l s1 ps1) as V.
    destruct (sequence_11 l s1 ps1) as [v s2 ps2 | | | ]; auto.
    destruct V as [rs ->]. simpl. rewrite <- app_assoc. auto.
Qed.

Lemma sequence_impl_11 : forall l s ps, sequence_impl l s ps = sequence_11 l s ps.
Proof.
  intros. unfold sequence_impl. rewrite sequence_impl_gen.
  pose proof (sequence_11_vseq l s ps) as V.
  destruct (sequence_11 l s ps) as [v s2 ps2 | | | ]; auto.
  destruct V as [rs ->]. auto.
Qed.

Lemma sequence_98_11 : forall lim l s ps, (1 <= length l < lim)%nat ->
  sequence_98 lim l s ps = sequence_11 l s ps.
Proof.
  intros. unfold sequence_98.
  replace (Nat.leb 1 (length l) && Nat.ltb (length l) lim)%bool with true.
  - apply sequence_impl_11.
  - symmetry. apply andb_true_intro; split; [apply Nat.leb_le | apply Nat.ltb_lt]; lia.
Qed.

(** ** nth_of *)

Definition select (k : nat) (o : outcome) : outcome :=
  match o with
  | Accept (VSeq rs) s ps =>
      match nth_error rs k with Some r => Accept r s ps | None => Illformed end
  | o => o
  end.

Lemma skip_remaining_spec : forall l r s ps,
  nth_of_c_skip_remaining r l s ps =
  match sequence_11 l s ps with
  | Accept _ s' ps' => Accept r s' ps'
  | o => o
  end.
Proof.
  induction l as [|p l IH]; intros; simpl; auto.
  destruct (p s ps) as [r' s1 ps1 | | | ]; auto. rewrite IH. unfold transform.
  pose proof (sequence_11_vseq l s1 ps1) as V.
  destruct (sequence_11 l s1 ps1) as [v s2 ps2 | | | ]; auto.
  destruct V as [rs ->]. auto.
Qed.

Lemma nth_of_c_11_impl_spec : forall l k s ps, (k < length l)%nat ->
  nth_of_c_11_impl (Z.of_nat k) l s ps = select k (sequence_11 l s ps).
Proof.
  induction l as [|p l IH]; intros k s ps L; simpl in L; [lia|].
  simpl. destruct (p s ps) as [r s1 ps1 | | | ]; auto.
  unfold transform. pose proof (sequence_11_vseq l s1 ps1) as V.
  destruct k as [|k].
  - simpl. rewrite skip_remaining_spec.
    destruct (sequence_11 l s1 ps1) as [v s2 ps2 | | | ]; auto.
    destruct V as [rs ->]. auto.
  - destruct (Z.of_nat (S k) =? 0) eqn:E; [lia|].
    replace (Z.of_nat (S k) - 1) with (Z.of_nat k) by lia.
    rewrite IH by lia.
    destruct (sequence_11 l s1 ps1) as [v s2 ps2 | | | ]; auto.
    destruct V as [rs ->]. auto.
Qed.

Lemma skip_seq_stop : forall l o, not_accept o -> fold_left skip_seq l o = o.
Proof.
  induction l; simpl; intros o N; auto. rewrite <- (IHl o N) at 2.
  destruct o; auto. destruct N.
Qed.

Lemma skip_seq_fold : forall l r s ps,
  fold_left skip_seq l (Accept r s ps) = nth_of_c_skip_remaining r l s ps.
Proof.
  induction l as [|p l IH]; intros; simpl; auto.
  destruct (p s ps) as [r' s1 ps1 | | | ]; try (rewrite skip_seq_stop by exact I; auto; fail).
  apply IH.
Qed.

Lemma nth_of_c_98_impl_11 : forall l k s ps,
  nth_of_c_98_impl k l s ps = nth_of_c_11_impl k l s ps.
Proof.
  induction l as [|p l IH]; intros; simpl; auto.
  destruct (k =? 0) eqn:E.
  - destruct (p s ps) as [r' s1 ps1 | | | ]; try (rewrite skip_seq_stop by exact I; auto; fail).
    apply skip_seq_fold.
  - destruct (p s ps); auto.
Qed.

Lemma nth_of_cN_11 : forall k l s ps, nth_of_cN k l s ps = nth_of_c_11 k l s ps.
Proof.
  intros. unfold nth_of_cN, nth_of_c_11. destruct l as [|p l].
  - replace ((0 <=? k) && (k <? Z.of_nat (length (@nil pfun)))) with false; auto.
    symmetry. simpl. destruct (0 <=? k) eqn:E; auto. simpl. lia.
  - destruct (_ && _); auto. apply nth_of_c_98_impl_11.
Qed.

Lemma nth_of_c_98_11 : forall lim k l s ps, (length l < lim)%nat ->
  nth_of_c_98 lim k l s ps = nth_of_c_11 k l s ps.
Proof.
  intros. unfold nth_of_c_98.
  replace (Nat.ltb (length l) lim) with true by (symmetry; apply Nat.ltb_lt; lia).
  apply nth_of_cN_11.
Qed.

Lemma nth_of_c_11_in_range : forall l k s ps, (k < length l)%nat ->
  nth_of_c_11 (Z.of_nat k) l s ps = select k (sequence_11 l s ps).
Proof.
  intros. unfold nth_of_c_11. destruct l as [|p l]; [simpl in H; lia|].
  replace ((0 <=? Z.of_nat k) && (Z.of_nat k <? Z.of_nat (length (p :: l)))) with true by lia.
  apply nth_of_c_11_impl_spec; auto.
Qed.

Lemma nth_of_c_11_out_of_range : forall l k s ps,
  (k < 0 \/ Z.of_nat (length l) <= k) ->
  nth_of_c_11 k l s ps
  = Reject (index_out_of_range 0 (Z.of_nat (length l) - 1) k) ps.
Proof.
  intros. unfold nth_of_c_11. destruct l as [|p l]; auto.
  replace ((0 <=? k) && (k <? Z.of_nat (length (p :: l)))) with false by lia. auto.
Qed.

Lemma first_of_11_spec : forall l s ps, l <> [] ->
  first_of_11 l s ps = select 0 (sequence_11 l s ps).
Proof.
  intros [|p l] s ps N; [congruence|].
  change 0 with (Z.of_nat 0). apply (nth_of_c_11_impl_spec (p :: l) 0). simpl; lia.
Qed.

Lemma last_of_11_spec : forall l s ps, l <> [] ->
  last_of_11 l s ps = select (length l - 1) (sequence_11 l s ps).
Proof.
  intros [|p l] s ps N; [congruence|]. unfold last_of_11.
  replace (Z.of_nat (length (p :: l)) - 1) with (Z.of_nat (length (p :: l) - 1))
    by (simpl length; lia).
  apply nth_of_c_11_impl_spec. simpl; lia.
Qed.

Lemma first_of_98_11 : forall lim l s ps, (length l < lim)%nat ->
  first_of_98 lim l s ps = first_of_11 l s ps.
Proof.
  intros. unfold first_of_98. rewrite nth_of_c_98_11 by auto.
  destruct l as [|p l]; reflexivity.
Qed.

Lemma last_of_98_11 : forall lim l s ps, l <> [] -> (length l < lim)%nat ->
  last_of_98 lim l s ps = last_of_11 l s ps.
Proof.
  intros lim l s ps N H. unfold last_of_98.
  replace (Nat.ltb (length l) lim) with true by (symmetry; apply Nat.ltb_lt; lia).
  rewrite nth_of_cN_11. destruct l as [|p l]; [congruence|].
  unfold nth_of_c_11, last_of_11.
  replace ((0 <=? Z.of_nat (length (p :: l)) - 1) &&
    (Z.of_nat (length (p :: l)) - 1 <? Z.of_nat (length (p :: l)))) with true; auto.
  simpl length. lia.
Qed.

Lemma last_of_98_nil : forall lim s ps, (0 < lim)%nat ->
  last_of_98 lim [] s ps = Reject (index_out_of_range 0 (-1) (-1)) ps.
Proof.
  intros lim s ps H. unfold last_of_98. simpl.
  destruct lim; [lia|]. reflexivity.
Qed.

Lemma select_accept : forall k o v s ps,
  (match o with Accept v _ _ => exists rs, v = VSeq rs | _ => True end) ->
  (select k o = Accept v s ps <->
   exists rs, o = Accept (VSeq rs) s ps /\ nth_error rs k = Some v).
Proof.
  intros k o v s ps V. split.
  - intros H. destruct o as [v' s' ps' | | | ]; try discriminate.
    destruct V as [rs ->]. simpl in H. destruct (nth_error rs k) eqn:E; try discriminate.
    inversion H; subst. eauto.
  - intros (rs & -> & E). simpl. rewrite E. auto.
Qed.

Lemma select_reject : forall k o m pe, select k o = Reject m pe <-> o = Reject m pe.
Proof.
  intros k o m pe. destruct o as [v s ps| | | ]; simpl; split; try discriminate; auto.
  destruct v; try discriminate. destruct (nth_error l k); discriminate.
Qed.

Lemma nth_of_c_11_accept : forall l k s ps v s' ps', (k < length l)%nat ->
  (nth_of_c_11 (Z.of_nat k) l s ps = Accept v s' ps' <->
   exists rs, in_row l s ps rs s' ps' /\ nth_error rs k = Some v).
Proof.
  intros. rewrite nth_of_c_11_in_range by auto.
  rewrite select_accept by apply sequence_11_vseq.
  split; intros (rs & A & B).
  - apply sequence_11_accept in A as (rs' & E & R). inversion E; subst. eauto.
  - exists rs; split; auto. apply sequence_11_accept; eauto.
Qed.

Lemma nth_of_c_11_reject : forall l k s ps m pe, (k < length l)%nat ->
  (nth_of_c_11 (Z.of_nat k) l s ps = Reject m pe <->
   first_failure l s ps (Reject m pe)).
Proof.
  intros. rewrite nth_of_c_11_in_range, select_reject by auto.
  apply sequence_11_failure. exact I.
Qed.

(** ** one_of *)

Lemma later_result_reject : forall m1 p1 m2 p2, exists m p, later_result m1 p1 m2 p2 = Reject m p.
Proof. intros. unfold later_result. destruct (pos_less p2 p1); eauto. Qed.

Lemma last_furthest_unique : forall es e1 e2,
  last_furthest es e1 -> last_furthest es e2 -> e1 = e2.
Proof.
  intros es e1 e2 (a1 & b1 & E1 & A1 & B1) (a2 & b2 & E2 & A2 & B2).
  rewrite E1 in E2. clear E1 es.
  revert a2 E2 A2. induction a1 as [|x a1 IH]; intros a2 E2 A2.
  - destruct a2 as [|y a2]; simpl in E2; injection E2; intros; subst; auto.
    exfalso. apply (pos_lt_irrefl (snd e2)).
    eapply pos_lt_le_trans; [apply B1; apply in_or_app; right; left; auto|].
    apply A2; left; auto.
  - destruct a2 as [|y a2]; simpl in E2; injection E2; intros; subst.
    + exfalso. apply (pos_lt_irrefl (snd e1)).
      eapply pos_lt_le_trans; [apply B2; apply in_or_app; right; left; auto|].
      apply A1; left; auto.
    + apply (IH (fun z h => A1 z (or_intror h)) a2); auto.
      intros z h. apply A2; right; auto.
Qed.

Lemma last_furthest_cons_lt : forall e es e',
  last_furthest es e' -> pos_lt (snd e') (snd e) -> last_furthest (e :: es) e.
Proof.
  intros e es e' (l1 & l2 & -> & A & B) L. exists [], (l1 ++ e' :: l2).
  splits; auto; [intros x []|]. intros x Hx.
  apply in_app_or in Hx as [Hx | [<- | Hx]]; auto.
  - eapply pos_le_lt_trans; eauto.
  - eapply pos_lt_trans; eauto.
Qed.

Lemma last_furthest_cons_le : forall e es e',
  last_furthest es e' -> pos_le (snd e) (snd e') -> last_furthest (e :: es) e'.
Proof.
  intros e es e' (l1 & l2 & -> & A & B) L. exists (e :: l1), l2.
  splits; auto. intros x [<- | Hx]; auto.
Qed.

Lemma last_furthest_snoc_le : forall e es e',
  last_furthest es e' -> pos_le (snd e') (snd e) -> last_furthest (es ++ [e]) e.
Proof.
  intros e es e' (l1 & l2 & -> & A & B) L. exists (l1 ++ e' :: l2), [].
  splits; auto; [|intros x []]. intros x Hx.
  apply in_app_or in Hx as [Hx | [<- | Hx]]; auto.
  - eapply pos_le_trans; eauto.
  - left. eapply pos_lt_le_trans; eauto.
Qed.

Lemma last_furthest_snoc_lt : forall e es e',
  last_furthest es e' -> pos_lt (snd e) (snd e') -> last_furthest (es ++ [e]) e'.
Proof.
  intros e es e' (l1 & l2 & -> & A & B) L. exists l1, (l2 ++ [e]).
  splits; auto; [rewrite <- app_assoc; auto|]. intros x Hx.
  apply in_app_or in Hx as [Hx | [<- | []]]; auto.
Qed.

Lemma last_furthest_single : forall e, last_furthest [e] e.
Proof. intros e. exists [], []. splits; auto; intros x []. Qed.

(** Exactly one of three things happens when alternatives are tried. *)
Inductive tried (l : list pfun) (s : str) (ps : pos) : Prop :=
| tried_unfinished o : first_unfinished l s ps o -> tried l s ps
| tried_accepting o : first_accepting l s ps o -> tried l s ps
| tried_rejecting es : all_reject l s ps es -> tried l s ps.

Lemma rejects_finishes : forall p s ps, rejects p s ps -> finishes p s ps.
Proof. intros; right; auto. Qed.

Lemma finishes_cases : forall (p : pfun) s ps,
  (exists r s' ps', p s ps = Accept r s' ps') \/ (exists m pe, p s ps = Reject m pe)
  \/ (p s ps = Illformed \/ p s ps = OutOfFuel).
Proof. intros. destruct (p s ps); eauto 6. Qed.

Lemma one_of_11_unfinished : forall l s ps o,
  first_unfinished l s ps o -> one_of_11 l s ps = o.
Proof.
  intros l s ps o (l1 & p & l2 & -> & A & E & O). revert A.
  induction l1 as [|q l1 IH]; intros A; simpl.
  - rewrite E. destruct O as [-> | ->]; auto.
  - rewrite IH by (intros; apply A; right; auto).
    destruct (A q (or_introl eq_refl)) as [(r & s' & ps' & ->) | (m & pe & ->)];
      destruct O as [-> | ->]; auto.
Qed.

Lemma one_of_11_finishes : forall l s ps,
  (forall q, In q l -> finishes q s ps) -> finishes (one_of_11 l) s ps.
Proof.
  induction l as [|p l IH]; intros s ps A.
  - right. do 2 eexists. simpl. reflexivity.
  - destruct (IH s ps) as [(r & s' & ps' & E) | (m & pe & E)].
    { intros; apply A; right; auto. }
    + destruct (A p (or_introl eq_refl)) as [(r1 & s1' & ps1' & E1) | (m1 & pe1 & E1)];
        left; simpl; rewrite ?E1, ?E; do 3 eexists; simpl; rewrite E1, E; reflexivity.
    + destruct (A p (or_introl eq_refl)) as [(r1 & s1' & ps1' & E1) | (m1 & pe1 & E1)].
      * left; do 3 eexists; simpl; rewrite E1, E; reflexivity.
      * right. destruct (later_result_reject m1 pe1 m pe) as (m2 & pe2 & E2).
        do 2 eexists; simpl; rewrite E1, E, E2; reflexivity.
Qed.

Lemma one_of_11_accepting : forall l s ps o,
  first_accepting l s ps o -> one_of_11 l s ps = o.
Proof.
  intros l s ps o (F & l1 & p & l2 & -> & A & E & (r & s' & ps' & Acc)).
  revert A F. induction l1 as [|q l1 IH]; intros A F; simpl.
  - rewrite <- E, Acc.
    destruct (one_of_11_finishes l2 s ps) as [(r2 & s2 & ps2 & ->) | (m2 & pe2 & ->)]; auto.
    intros q Hq. apply F. right; auto.
  - rewrite IH.
    + destruct (A q (or_introl eq_refl)) as (m & pe & ->). rewrite <- E, Acc. auto.
    + intros; apply A; right; auto.
    + intros; apply F; right; auto.
Qed.

Lemma one_of_11_rejecting : forall l s ps es,
  all_reject l s ps es ->
  exists e, last_furthest (es ++ [(none_of_the_expected_cases_found, ps)]) e
    /\ one_of_11 l s ps = Reject (fst e) (snd e).
Proof.
  intros l s ps es H. induction H as [|p [m1 p1] l es E H IH].
  - exists (none_of_the_expected_cases_found, ps). split; auto. apply last_furthest_single.
  - destruct IH as ([m pe] & L & E2). simpl in *. rewrite E, E2. unfold later_result.
    destruct (pos_less pe p1) eqn:C.
    + exists (m1, p1); split; auto. apply last_furthest_cons_lt with (m, pe); auto.
      apply pos_less_iff; auto.
    + exists (m, pe); split; auto. apply last_furthest_cons_le; auto.
      apply pos_less_false_iff; auto.
Qed.

Lemma tried_total : forall l s ps, tried l s ps.
Proof.
  induction l as [|p l IH]; intros s ps.
  - apply (tried_rejecting _ _ _ []). constructor.
  - destruct (p s ps) as [r s1 ps1 | m pe | | ] eqn:E.
    + destruct (IH s ps) as [o (l1 & q & l2 & -> & A & Q & O) | o (F & _) | es H].
      * apply (tried_unfinished _ _ _ o). exists (p :: l1), q, l2. splits; auto.
        intros x [<- | Hx]; auto. left; do 3 eexists; eauto.
      * apply (tried_accepting _ _ _ (Accept r s1 ps1)). split.
        -- intros x [<- | Hx]; auto. left; do 3 eexists; eauto.
        -- exists [], p, l. splits; auto; [intros q []|]. do 3 eexists; eauto.
      * apply (tried_accepting _ _ _ (Accept r s1 ps1)). split.
        -- intros x [<- | Hx]; [left; do 3 eexists; eauto|]. right.
           clear - H Hx. induction H as [|q [m1 p1] l es E H IH]; [destruct Hx|].
           destruct Hx as [<- | Hx]; auto. do 2 eexists; eauto.
        -- exists [], p, l. splits; auto; [intros q []|]. do 3 eexists; eauto.
    + destruct (IH s ps) as [o (l1 & q & l2 & -> & A & Q & O) | o (F & l1 & q & l2 & -> & A & Q & O) | es H].
      * apply (tried_unfinished _ _ _ o). exists (p :: l1), q, l2. splits; auto.
        intros x [<- | Hx]; auto. right; do 2 eexists; eauto.
      * apply (tried_accepting _ _ _ o). split.
        -- intros x [<- | Hx]; auto. right; do 2 eexists; eauto.
        -- exists (p :: l1), q, l2. splits; auto.
           intros x [<- | Hx]; auto. do 2 eexists; eauto.
      * apply (tried_rejecting _ _ _ ((m, pe) :: es)). constructor; auto.
    + apply (tried_unfinished _ _ _ Illformed). exists [], p, l. splits; auto. intros q [].
    + apply (tried_unfinished _ _ _ OutOfFuel). exists [], p, l. splits; auto. intros q [].
Qed.

Lemma one_of_11_accept : forall l s ps r s' ps',
  one_of_11 l s ps = Accept r s' ps' <-> first_accepting l s ps (Accept r s' ps').
Proof.
  intros; split; [|apply one_of_11_accepting]. intros H.
  destruct (tried_total l s ps) as [o U | o A | es R].
  - pose proof (one_of_11_unfinished _ _ _ _ U) as H2.
    destruct U as (_ & _ & _ & _ & _ & _ & [-> | ->]); congruence.
  - pose proof (one_of_11_accepting _ _ _ _ A) as H2. congruence.
  - destruct (one_of_11_rejecting _ _ _ _ R) as (e & _ & H2). congruence.
Qed.

Lemma first_accepting_accept : forall l s ps o, first_accepting l s ps o ->
  exists r s' ps', o = Accept r s' ps'.
Proof. intros l s ps o (_ & l1 & p & l2 & _ & _ & <- & A). exact A. Qed.

Lemma one_of_11_reject : forall l s ps m pe,
  one_of_11 l s ps = Reject m pe <->
  exists es, all_reject l s ps es
    /\ last_furthest (es ++ [(none_of_the_expected_cases_found, ps)]) (m, pe).
Proof.
  intros; split; intros H.
  - destruct (tried_total l s ps) as [o U | o A | es R].
    + pose proof (one_of_11_unfinished _ _ _ _ U) as H2.
      destruct U as (_ & _ & _ & _ & _ & _ & [-> | ->]); congruence.
    + pose proof (one_of_11_accepting _ _ _ _ A) as H2.
      destruct (first_accepting_accept _ _ _ _ A) as (? & ? & ? & ?). congruence.
    + destruct (one_of_11_rejecting _ _ _ _ R) as ([m' pe'] & L & H2).
      simpl in H2. rewrite H in H2. inversion H2; subst. eauto.
  - destruct H as (es & R & L).
    destruct (one_of_11_rejecting _ _ _ _ R) as ([m' pe'] & L' & H2).
    pose proof (last_furthest_unique _ _ _ L L') as Q. inversion Q; subst. exact H2.
Qed.

(** C++98 *)

Lemma fwd_op_stop : forall l s ps o, (o = Illformed \/ o = OutOfFuel) ->
  fold_left (one_of_fwd_op s ps) l o = o.
Proof.
  induction l; simpl; intros s ps o H; auto.
  rewrite <- (IHl s ps o H) at 2. destruct H as [-> | ->]; auto.
Qed.

Lemma fwd_op_unfinished : forall l s ps o st,
  (st <> Illformed /\ st <> OutOfFuel) ->
  first_unfinished l s ps o -> fold_left (one_of_fwd_op s ps) l st = o.
Proof.
  intros l s ps o st N (l1 & p & l2 & -> & A & E & O). revert st N A.
  induction l1 as [|q l1 IH]; intros st [N1 N2] A; simpl.
  - replace (one_of_fwd_op s ps st p) with o.
    + apply fwd_op_stop; auto.
    + unfold one_of_fwd_op. rewrite E. destruct st; try congruence;
        destruct O as [-> | ->]; auto.
  - apply IH.
    + unfold one_of_fwd_op.
      destruct (A q (or_introl eq_refl)) as [(r & s' & ps' & ->) | (m & pe & ->)];
        destruct st; split; try congruence;
        destruct (later_result_reject m0 p0 m pe) as (? & ? & ->); congruence.
    + intros; apply A; right; auto.
Qed.

Lemma fwd_op_accept_state : forall l s ps r s' ps',
  (forall q, In q l -> finishes q s ps) ->
  fold_left (one_of_fwd_op s ps) l (Accept r s' ps') = Accept r s' ps'.
Proof.
  induction l as [|p l IH]; simpl; intros s ps r s' ps' A; auto.
  destruct (A p (or_introl eq_refl)) as [(r1 & s1 & ps1 & E) | (m1 & pe1 & E)];
    rewrite E; apply IH; auto.
Qed.

Lemma fwd_op_accepting : forall l s ps o m pe,
  first_accepting l s ps o -> fold_left (one_of_fwd_op s ps) l (Reject m pe) = o.
Proof.
  intros l s ps o m pe (F & l1 & p & l2 & -> & A & E & (r & s' & ps' & Acc)).
  revert m pe A F. induction l1 as [|q l1 IH]; intros m pe A F; simpl.
  - rewrite Acc. rewrite fwd_op_accept_state.
    + congruence.
    + intros q Hq. apply F. right; auto.
  - destruct (A q (or_introl eq_refl)) as (m1 & pe1 & ->).
    destruct (later_result_reject m pe m1 pe1) as (m2 & pe2 & ->).
    apply IH; [intros; apply A | intros; apply F]; right; auto.
Qed.

Lemma fwd_op_rejecting : forall l s ps es es0 e0,
  all_reject l s ps es -> last_furthest es0 e0 ->
  exists e, last_furthest (es0 ++ es) e
    /\ fold_left (one_of_fwd_op s ps) l (Reject (fst e0) (snd e0)) = Reject (fst e) (snd e).
Proof.
  intros l s ps es es0 e0 H. revert es0 e0.
  induction H as [|p [m1 p1] l es E H IH]; intros es0 [m0 pe0] L0; simpl.
  - exists (m0, pe0). rewrite app_nil_r. auto.
  - simpl in E. rewrite E. unfold later_result.
    replace (es0 ++ (m1, p1) :: es) with ((es0 ++ [(m1, p1)]) ++ es)
      by (rewrite <- app_assoc; auto).
    destruct (pos_less p1 pe0) eqn:C.
    + apply (IH (es0 ++ [(m1, p1)]) (m0, pe0)).
      apply last_furthest_snoc_lt; auto. apply pos_less_iff; auto.
    + apply (IH (es0 ++ [(m1, p1)]) (m1, p1)).
      apply last_furthest_snoc_le with (m0, pe0); auto. apply pos_less_false_iff; auto.
Qed.

Lemma one_of_98_unfinished : forall l s ps o,
  first_unfinished l s ps o -> one_of_98_impl l s ps = o.
Proof.
  intros. unfold one_of_98_impl. apply fwd_op_unfinished; auto. split; discriminate.
Qed.

Lemma one_of_98_accepting : forall l s ps o,
  first_accepting l s ps o -> one_of_98_impl l s ps = o.
Proof. intros. unfold one_of_98_impl. apply fwd_op_accepting; auto. Qed.

Lemma one_of_98_rejecting : forall l s ps es,
  all_reject l s ps es ->
  exists e, last_furthest ((none_of_the_expected_cases_found, ps) :: es) e
    /\ one_of_98_impl l s ps = Reject (fst e) (snd e).
Proof.
  intros. unfold one_of_98_impl.
  apply (fwd_op_rejecting l s ps es [(none_of_the_expected_cases_found, ps)]
           (none_of_the_expected_cases_found, ps)); auto.
  apply last_furthest_single.
Qed.

Lemma one_of_98_accept : forall l s ps r s' ps',
  one_of_98_impl l s ps = Accept r s' ps' <-> first_accepting l s ps (Accept r s' ps').
Proof.
  intros; split; [|apply one_of_98_accepting]. intros H.
  destruct (tried_total l s ps) as [o U | o A | es R].
  - pose proof (one_of_98_unfinished _ _ _ _ U) as H2.
    destruct U as (_ & _ & _ & _ & _ & _ & [-> | ->]); congruence.
  - pose proof (one_of_98_accepting _ _ _ _ A) as H2. congruence.
  - destruct (one_of_98_rejecting _ _ _ _ R) as (e & _ & H2). congruence.
Qed.

Lemma one_of_98_reject : forall l s ps m pe,
  one_of_98_impl l s ps = Reject m pe <->
  exists es, all_reject l s ps es
    /\ last_furthest ((none_of_the_expected_cases_found, ps) :: es) (m, pe).
Proof.
  intros; split; intros H.
  - destruct (tried_total l s ps) as [o U | o A | es R].
    + pose proof (one_of_98_unfinished _ _ _ _ U) as H2.
      destruct U as (_ & _ & _ & _ & _ & _ & [-> | ->]); congruence.
    + pose proof (one_of_98_accepting _ _ _ _ A) as H2.
      destruct (first_accepting_accept _ _ _ _ A) as (? & ? & ? & ?). congruence.
    + destruct (one_of_98_rejecting _ _ _ _ R) as ([m' pe'] & L & H2).
      simpl in H2. rewrite H in H2. inversion H2; subst. eauto.
  - destruct H as (es & R & L).
    destruct (one_of_98_rejecting _ _ _ _ R) as ([m' pe'] & L' & H2).
    pose proof (last_furthest_unique _ _ _ L L') as Q. inversion Q; subst. exact H2.
Qed.

(** Two errors are winners of the same errors in different order: same
    position. *)
Lemma last_furthest_max : forall es e, last_furthest es e ->
  In e es /\ forall x, In x es -> pos_le (snd x) (snd e).
Proof.
  intros es e (l1 & l2 & -> & A & B). split.
  - apply in_or_app; right; left; auto.
  - intros x Hx. apply in_app_or in Hx as [Hx | [<- | Hx]]; auto using pos_le_refl.
    left; auto.
Qed.

Lemma last_furthest_same_pos : forall es es' e e',
  (forall x, In x es <-> In x es') ->
  last_furthest es e -> last_furthest es' e' -> snd e = snd e'.
Proof.
  intros es es' e e' I L L'.
  apply last_furthest_max in L as [A B]. apply last_furthest_max in L' as [A' B'].
  apply pos_le_antisym; [apply B' | apply B]; apply I; auto.
Qed.

Lemma same_but_message_refl : forall a, same_but_message a a.
Proof. destruct a; simpl; auto. Qed.

Lemma one_of_98_11 : forall l s ps,
  same_but_message (one_of_98_impl l s ps) (one_of_11 l s ps).
Proof.
  intros. destruct (tried_total l s ps) as [o U | o A | es R].
  - rewrite (one_of_98_unfinished _ _ _ _ U), (one_of_11_unfinished _ _ _ _ U).
    apply same_but_message_refl.
  - rewrite (one_of_98_accepting _ _ _ _ A), (one_of_11_accepting _ _ _ _ A).
    apply same_but_message_refl.
  - destruct (one_of_98_rejecting _ _ _ _ R) as (e & L & ->).
    destruct (one_of_11_rejecting _ _ _ _ R) as (e' & L' & ->). simpl.
    eapply last_furthest_same_pos; [|apply L|apply L'].
    intros x. rewrite in_app_iff. simpl. tauto.
Qed.

(** When some alternative made progress the messages agree as well. *)
Lemma one_of_98_11_msg : forall l s ps m pe m' pe',
  one_of_98_impl l s ps = Reject m pe -> one_of_11 l s ps = Reject m' pe' ->
  pos_lt ps pe -> m = m'.
Proof.
  intros l s ps m pe m' pe' H H' Lt.
  apply one_of_98_reject in H as (es & R & L). apply one_of_11_reject in H' as (es' & R' & L').
  assert (es' = es).
  { revert R R'. clear. revert es es'.
    induction l; intros es es' R R'; inversion R; inversion R'; subst; auto.
    f_equal; [|apply IHl; auto]. destruct y, y0; simpl in *; congruence. }
  subst es'.
  assert (L2 : last_furthest es (m, pe)).
  { destruct L as (l1 & l2 & E & A & B). destruct l1 as [|x l1]; simpl in E; injection E; intros; subst.
    - destruct (pos_lt_irrefl _ Lt).
    - exists l1, l2. splits; auto. intros z Hz. apply A; right; auto. }
  assert (L3 : last_furthest (es ++ [(none_of_the_expected_cases_found, ps)]) (m, pe)).
  { apply last_furthest_snoc_lt; auto. }
  pose proof (last_furthest_unique _ _ _ L3 L'). congruence.
Qed.

(** ** iterate *)

Lemma iterate_impl_nonneg : forall n k p l s ps, (k < n)%nat ->
  iterate_impl n (Z.of_nat k) p (VSeq l) s ps =
  match sequence_11 (repeat p k) s ps with
  | Accept (VSeq rs) s' ps' => Accept (VSeq (l ++ rs)) s' ps'
  | o => o
  end.
Proof.
  induction n; intros k p l s ps L; [lia|].
  destruct k as [|k].
  - simpl. rewrite app_nil_r. auto.
  - cbn [iterate_impl]. destruct (Z.of_nat (S k) =? 0) eqn:E; [lia|].
    cbn [repeat sequence_11].
    destruct (p s ps) as [r s1 ps1 | | | ]; auto.
    cbn [push_back]. replace (Z.of_nat (S k) - 1) with (Z.of_nat k) by lia.
    rewrite IHn by lia.
    unfold transform, push_front_result, push_front.
    pose proof (sequence_11_vseq (repeat p k) s1 ps1) as V.
    destruct (sequence_11 (repeat p k) s1 ps1) as [v s2 ps2 | | | ]; auto.
    destruct V as [rs ->]. rewrite <- app_assoc. auto.
Qed.

Lemma iterate_c_sequence : forall n k p s ps, (k < n)%nat ->
  iterate_c n p (Z.of_nat k) s ps = sequence_11 (repeat p k) s ps.
Proof.
  intros. unfold iterate_c. rewrite iterate_impl_nonneg by auto.
  pose proof (sequence_11_vseq (repeat p k) s ps) as V.
  destruct (sequence_11 (repeat p k) s ps) as [v s2 ps2 | | | ]; auto.
  destruct V as [rs ->]. auto.
Qed.

Lemma in_row_repeat : forall p k rs s ps s' ps',
  in_row (repeat p k) s ps rs s' ps' <-> (length rs = k /\ runs p s ps rs s' ps').
Proof.
  induction k; intros rs s ps s' ps'; simpl.
  - split.
    + intros H; inversion H; subst; split; auto. constructor.
    + intros [L R]. destruct rs; [|discriminate]. inversion R; subst. constructor.
  - split.
    + intros H. apply in_row_cons_inv in H as (r & rs' & s1 & ps1 & -> & E & H).
      apply IHk in H as [L R]. split; [simpl; auto|]. econstructor; eauto.
    + intros [L R]. destruct rs as [|r rs]; [discriminate|].
      apply runs_cons_inv in R as (s1 & ps1 & E & R).
      econstructor; eauto. apply IHk; split; auto.
Qed.

Lemma iterate_c_accept : forall n k p s ps v s' ps', (k < n)%nat ->
  (iterate_c n p (Z.of_nat k) s ps = Accept v s' ps' <->
   exists rs, v = VSeq rs /\ length rs = k /\ runs p s ps rs s' ps').
Proof.
  intros. rewrite iterate_c_sequence by auto. rewrite sequence_11_accept.
  split; intros (rs & -> & R); exists rs; split; auto; apply in_row_repeat; auto.
Qed.

Lemma iterate_c_reject : forall n k p s ps m pe, (k < n)%nat ->
  (iterate_c n p (Z.of_nat k) s ps = Reject m pe <->
   exists rs s1 ps1, (length rs < k)%nat /\ runs p s ps rs s1 ps1 /\ p s1 ps1 = Reject m pe).
Proof.
  intros. rewrite iterate_c_sequence by auto. rewrite sequence_11_failure by exact I.
  split.
  - intros (l1 & q & l2 & rs & s1 & ps1 & E & R & F).
    assert (L : length (repeat p k) = (length l1 + S (length l2))%nat)
      by (rewrite E, app_length; auto).
    rewrite repeat_length in L.
    assert (A : forall x, In x (l1 ++ q :: l2) -> x = p)
      by (intros x Hx; rewrite <- E in Hx; eapply repeat_spec; eauto).
    assert (l1 = repeat p (length l1)).
    { clear - A. induction l1; simpl; auto. f_equal.
      - apply A; left; auto.
      - apply IHl1. intros; apply A; right; auto. }
    assert (q = p) by (apply A; apply in_or_app; right; left; auto). subst q.
    rewrite H0 in R. apply in_row_repeat in R as [Lr R].
    exists rs, s1, ps1. splits; auto. rewrite Lr. lia.
  - intros (rs & s1 & ps1 & L & R & F).
    exists (repeat p (length rs)), p, (repeat p (k - length rs - 1)), rs, s1, ps1.
    splits; auto.
    + change (p :: repeat p (k - length rs - 1)) with (repeat p (S (k - length rs - 1))).
      rewrite <- repeat_app. f_equal. lia.
    + apply in_row_repeat; auto.
Qed.

(** With a negative count the iteration only ends when [p] rejects. *)
Lemma iterate_impl_negative : forall n k p l s ps, k < 0 ->
  (forall v s' ps', iterate_impl n k p (VSeq l) s ps <> Accept v s' ps')
  /\ (forall m pe, iterate_impl n k p (VSeq l) s ps = Reject m pe <->
      exists rs s1 ps1, (length rs < n)%nat /\ runs p s ps rs s1 ps1 /\ p s1 ps1 = Reject m pe).
Proof.
  induction n; intros k p l s ps H.
  - simpl; split; [discriminate|]. intros; split; [discriminate|].
    intros (rs & s1 & ps1 & L & _). lia.
  - cbn [iterate_impl]. destruct (k =? 0) eqn:E; [lia|].
    destruct (p s ps) as [r s1 ps1 | m1 pe1 | | ] eqn:E2.
    + cbn [push_back].
      destruct (IHn (k - 1) p (l ++ [r]) s1 ps1 ltac:(lia)) as [A B].
      split; auto. intros m pe. rewrite B. split.
      * intros (rs & s2 & ps2 & L & R & F). exists (r :: rs), s2, ps2.
        splits; auto; [simpl; lia | econstructor; eauto].
      * intros (rs & s2 & ps2 & L & R & F). inversion R; subst.
        -- congruence.
        -- rewrite E2 in H0; inversion H0; subst. exists rs0, s2, ps2.
           splits; auto. simpl in L; lia.
    + split; [discriminate|]. intros m pe; split.
      * intros Q; inversion Q; subst. exists [], s, ps. splits; auto; [simpl; lia | constructor].
      * intros (rs & s2 & ps2 & L & R & F). inversion R; subst; congruence.
    + split; [discriminate|]. intros m pe; split; [discriminate|].
      intros (rs & s2 & ps2 & L & R & F). inversion R; subst; congruence.
    + split; [discriminate|]. intros m pe; split; [discriminate|].
      intros (rs & s2 & ps2 & L & R & F). inversion R; subst; congruence.
Qed.
