(** Lemmas in the form used by Properties_Variadic.v. *)

From Coq Require Import ZArith List Bool Lia.
From Verif Require Import Base Util Combinators Variadic Parsers Spec
  Proofs_Pos Proofs_Fold Proofs_Variadic Proofs_Parsers Proofs_Parsers2 Proofs_Deep.
Import ListNotations.
Open Scope Z_scope.

Lemma sequence_cfg_accept : forall cfg l s ps v s' ps',
  fits_sequence cfg (length l) -> l <> [] ->
  (sequence cfg l s ps = Accept v s' ps' <->
   exists rs, v = VSeq rs /\ in_row l s ps rs s' ps').
Proof. intros. rewrite sequence_cfg by auto. apply sequence_11_accept. Qed.

Lemma sequence_cfg_failure : forall cfg l s ps, fits_sequence cfg (length l) -> l <> [] ->
  (forall m pe, sequence cfg l s ps = Reject m pe <-> first_failure l s ps (Reject m pe))
  /\ (sequence cfg l s ps = Illformed <-> first_failure l s ps Illformed)
  /\ (sequence cfg l s ps = OutOfFuel <-> first_failure l s ps OutOfFuel).
Proof.
  intros. splits; intros; rewrite sequence_cfg by auto; apply sequence_11_failure; exact I.
Qed.

Lemma sequence_std : forall c98 c11 l s ps, cfg_std c98 = Std98 -> cfg_std c11 <> Std98 ->
  (1 <= length l < limit_sequence c98)%nat -> sequence c98 l s ps = sequence c11 l s ps.
Proof.
  intros c98 c11 l s ps A B L. unfold sequence at 1. rewrite A, sequence_98_11 by auto.
  unfold sequence. destruct (cfg_std c11); congruence.
Qed.

Lemma sequence_empty : forall cfg s ps,
  sequence cfg [] s ps =
  match cfg_std cfg with Std98 => Illformed | _ => Accept (VSeq []) s ps end.
Proof. intros. unfold sequence. destruct (cfg_std cfg); auto. Qed.

Lemma nth_of_cfg_accept : forall cfg l k s ps v s' ps',
  fits_sequence cfg (length l) -> (k < length l)%nat ->
  (nth_of_c cfg (Z.of_nat k) l s ps = Accept v s' ps' <->
   exists rs, in_row l s ps rs s' ps' /\ nth_error rs k = Some v).
Proof. intros. rewrite nth_of_c_cfg by auto. apply nth_of_c_11_accept; auto. Qed.

Lemma nth_of_11_failure : forall l k s ps o, (k < length l)%nat -> not_accept o ->
  (nth_of_c_11 (Z.of_nat k) l s ps = o <-> first_failure l s ps o).
Proof.
  intros l k s ps o L N. rewrite <- sequence_11_failure by auto.
  rewrite nth_of_c_11_in_range by auto.
  destruct (sequence_11 l s ps) as [v s' ps' | | | ] eqn:A; simpl; try tauto.
  pose proof (sequence_11_vseq l s ps) as V. rewrite A in V. destruct V as [rs ->].
  apply sequence_11_accept in A as (rs' & E & R). inversion E; subst rs'.
  apply in_row_length in R. destruct (nth_error rs k) eqn:Q.
  - split; intros <-; destruct N.
  - apply nth_error_None in Q. lia.
Qed.

Lemma nth_of_cfg_failure : forall cfg l k s ps,
  fits_sequence cfg (length l) -> (k < length l)%nat ->
  (forall m pe, nth_of_c cfg (Z.of_nat k) l s ps = Reject m pe
                <-> first_failure l s ps (Reject m pe))
  /\ (nth_of_c cfg (Z.of_nat k) l s ps = Illformed <-> first_failure l s ps Illformed)
  /\ (nth_of_c cfg (Z.of_nat k) l s ps = OutOfFuel <-> first_failure l s ps OutOfFuel).
Proof.
  intros. splits; intros; rewrite nth_of_c_cfg by auto; apply nth_of_11_failure; auto; exact I.
Qed.

Lemma nth_of_cfg_out_of_range : forall cfg l k s ps,
  fits_sequence cfg (length l) -> (k < 0 \/ Z.of_nat (length l) <= k) ->
  nth_of_c cfg k l s ps
  = Reject (index_out_of_range 0 (Z.of_nat (length l) - 1) k) ps.
Proof. intros. rewrite nth_of_c_cfg by auto. apply nth_of_c_11_out_of_range; auto. Qed.

Lemma first_last_of_nth : forall cfg l, fits_sequence cfg (length l) -> l <> [] ->
  same_parser (first_of cfg l) (nth_of_c cfg 0 l)
  /\ same_parser (last_of cfg l) (nth_of_c cfg (Z.of_nat (length l) - 1) l).
Proof. intros. split; [apply first_of_nth_of | apply last_of_nth_of]; auto. Qed.

Lemma hd_error_nth : forall (A : Type) (l : list A) x, hd_error l = Some x <-> nth_error l 0 = Some x.
Proof. intros A [|y l] x; simpl; tauto. Qed.

Lemma first_of_cfg_accept : forall cfg l s ps v s' ps',
  fits_sequence cfg (length l) -> l <> [] ->
  (first_of cfg l s ps = Accept v s' ps' <->
   exists rs, in_row l s ps (v :: rs) s' ps').
Proof.
  intros cfg l s ps v s' ps' F N. rewrite (first_of_nth_of cfg l F s ps).
  change 0 with (Z.of_nat 0). rewrite nth_of_cfg_accept; auto.
  2:{ destruct l; [congruence|simpl; lia]. }
  split.
  - intros ([|r rs] & R & E); simpl in E; inversion E; subst. exists rs; auto.
  - intros (rs & R). exists (v :: rs). auto.
Qed.

Lemma last_of_cfg_accept : forall cfg l s ps v s' ps',
  fits_sequence cfg (length l) -> l <> [] ->
  (last_of cfg l s ps = Accept v s' ps' <->
   exists rs, in_row l s ps (rs ++ [v]) s' ps').
Proof.
  intros cfg l s ps v s' ps' F N. rewrite (last_of_nth_of cfg l F N s ps).
  assert (L : (1 <= length l)%nat) by (destruct l; [congruence|simpl; lia]).
  replace (Z.of_nat (length l) - 1) with (Z.of_nat (length l - 1)) by lia.
  rewrite nth_of_cfg_accept; auto; try lia. split.
  - intros (rs & R & E). pose proof (in_row_length _ _ _ _ _ _ R) as Len.
    destruct rs as [|x rs] using rev_ind; [simpl in *; lia|].
    rewrite app_length in Len. simpl in Len.
    rewrite nth_error_app2 in E by lia.
    replace (length l - 1 - length rs)%nat with 0%nat in E by lia. simpl in E.
    inversion E; subst. exists rs; auto.
  - intros (rs & R). exists (rs ++ [v]). split; auto.
    pose proof (in_row_length _ _ _ _ _ _ R) as Len. rewrite app_length in Len. simpl in Len.
    rewrite nth_error_app2 by lia.
    replace (length l - 1 - length rs)%nat with 0%nat by lia. reflexivity.
Qed.

Lemma nth_family_std : forall c98 c11 l s ps, cfg_std c98 = Std98 -> cfg_std c11 <> Std98 ->
  (length l < limit_sequence c98)%nat ->
  (forall k, nth_of_c c98 k l s ps = nth_of_c c11 k l s ps)
  /\ first_of c98 l s ps = first_of c11 l s ps
  /\ (l <> [] -> last_of c98 l s ps = last_of c11 l s ps).
Proof.
  intros c98 c11 l s ps A B L.
  assert (F98 : fits_sequence c98 (length l)) by (intros _; auto).
  assert (F11 : fits_sequence c11 (length l)) by (intros X; congruence).
  splits; intros.
  - rewrite !nth_of_c_cfg; auto.
  - rewrite !first_of_cfg; auto.
  - rewrite !last_of_cfg; auto.
Qed.

Lemma last_of_empty : forall cfg s ps, fits_sequence cfg 0 ->
  last_of cfg [] s ps =
  Reject (index_out_of_range 0 (-1) (match cfg_std cfg with Std98 => -1 | _ => 0 end)) ps.
Proof.
  intros cfg s ps F. unfold last_of. destruct (cfg_std cfg) eqn:E; auto.
  apply last_of_98_nil. apply F; auto.
Qed.

(** ** one_of *)

Lemma one_of_cases : forall cfg l,
  fits_one_of cfg (length l) ->
  forall s ps, one_of cfg l s ps = one_of_11 l s ps /\ cfg_std cfg <> Std98
            \/ one_of cfg l s ps = one_of_98_impl l s ps /\ cfg_std cfg = Std98.
Proof.
  intros cfg l F s ps. unfold one_of. destruct (cfg_std cfg) eqn:E; auto;
    try (left; split; auto; congruence).
  right. split; auto. unfold one_of_98.
  replace (Nat.leb (length l) (limit_one_of cfg)) with true; auto.
  symmetry. apply Nat.leb_le. apply F; auto.
Qed.

Lemma one_of_cfg_accept : forall cfg l s ps r s' ps', fits_one_of cfg (length l) ->
  (one_of cfg l s ps = Accept r s' ps' <-> first_accepting l s ps (Accept r s' ps')).
Proof.
  intros cfg l s ps r s' ps' F.
  destruct (one_of_cases cfg l F s ps) as [[-> _] | [-> _]];
    [apply one_of_11_accept | apply one_of_98_accept].
Qed.

Lemma one_of_cfg_unfinished : forall cfg l s ps o, fits_one_of cfg (length l) ->
  first_unfinished l s ps o -> one_of cfg l s ps = o.
Proof.
  intros cfg l s ps o F U.
  destruct (one_of_cases cfg l F s ps) as [[-> _] | [-> _]];
    [apply one_of_11_unfinished | apply one_of_98_unfinished]; auto.
Qed.

Lemma one_of_cfg_unfinished_iff : forall cfg l s ps o, fits_one_of cfg (length l) ->
  (o = Illformed \/ o = OutOfFuel) ->
  (one_of cfg l s ps = o <-> first_unfinished l s ps o).
Proof.
  intros cfg l s ps o F N. split; [|apply one_of_cfg_unfinished; auto].
  intros E. destruct (tried_total l s ps) as [o' U | o' A | es R].
  - rewrite (one_of_cfg_unfinished cfg l s ps o' F U) in E. subst; auto.
  - destruct (first_accepting_accept _ _ _ _ A) as (r & s' & ps' & ->).
    apply (one_of_cfg_accept cfg) in A; auto. destruct N; congruence.
  - exfalso. destruct (one_of_cases cfg l F s ps) as [[X _] | [X _]].
    + destruct (one_of_11_rejecting l s ps es R) as (e & _ & Y). destruct N; congruence.
    + destruct (one_of_98_rejecting l s ps es R) as (e & _ & Y). destruct N; congruence.
Qed.

Lemma one_of_cfg_reject_pos : forall cfg l s ps m pe, fits_one_of cfg (length l) ->
  one_of cfg l s ps = Reject m pe ->
  exists es, all_reject l s ps es
    /\ pos_le ps pe
    /\ (forall e, In e es -> pos_le (snd e) pe)
    /\ (pe = ps \/ exists e, In e es /\ snd e = pe).
Proof.
  intros cfg l s ps m pe F E.
  destruct (one_of_cases cfg l F s ps) as [[X _] | [X _]]; rewrite X in E.
  - apply one_of_11_reject in E as (es & R & W). exists es.
    apply last_furthest_max in W as [W1 W2]. splits; auto.
    + apply (W2 (none_of_the_expected_cases_found, ps)). apply in_or_app. right; left; auto.
    + intros e He. apply W2. apply in_or_app; auto.
    + apply in_app_or in W1 as [W1 | [W1 | []]]; [right; exists (m, pe); auto|inversion W1; auto].
  - apply one_of_98_reject in E as (es & R & W). exists es.
    apply last_furthest_max in W as [W1 W2]. splits; auto.
    + apply (W2 (none_of_the_expected_cases_found, ps)). left; auto.
    + intros e He. apply W2. right; auto.
    + destruct W1 as [W1 | W1]; [inversion W1; auto|right; exists (m, pe); auto].
Qed.

Lemma one_of_cfg_all_reject : forall cfg l s ps, fits_one_of cfg (length l) ->
  (rejects (one_of cfg l) s ps <-> forall p, In p l -> rejects p s ps).
Proof.
  intros cfg l s ps F.
  assert (AR : (forall p, In p l -> rejects p s ps) <-> exists es, all_reject l s ps es).
  { clear F. induction l as [|p l IH].
    - split; [intros _; exists []; constructor | intros _ p []].
    - split.
      + intros H. destruct (proj1 IH) as [es R]; [intros q Hq; apply H; right; auto|].
        destruct (H p (or_introl eq_refl)) as (m & pe & E). exists ((m, pe) :: es).
        constructor; auto.
      + intros [es R] q Hq. inversion R; subst. destruct Hq as [<- | Hq].
        * exists (fst y), (snd y); auto.
        * apply (proj2 IH); eauto. }
  rewrite AR. unfold rejects.
  destruct (one_of_cases cfg l F s ps) as [[X _] | [X _]]; rewrite X.
  - split.
    + intros (m & pe & E). apply one_of_11_reject in E as (es & R & _). eauto.
    + intros [es R]. destruct (one_of_11_rejecting l s ps es R) as (e & _ & Y). eauto.
  - split.
    + intros (m & pe & E). apply one_of_98_reject in E as (es & R & _). eauto.
    + intros [es R]. destruct (one_of_98_rejecting l s ps es R) as (e & _ & Y). eauto.
Qed.

Lemma one_of_std : forall c98 c11 l, cfg_std c98 = Std98 -> cfg_std c11 <> Std98 ->
  (length l <= limit_one_of c98)%nat ->
  same_parser_but_message (one_of c98 l) (one_of c11 l).
Proof.
  intros c98 c11 l A B L s ps.
  destruct (one_of_cases c98 l (fun _ => L) s ps) as [[_ X] | [-> _]]; [congruence|].
  destruct (one_of_cases c11 l (fun X => False_ind _ (B X)) s ps) as [[-> _] | [_ X]];
    [|congruence].
  apply one_of_98_11.
Qed.

(** The winning error, when no alternative reports an error before its start. *)
Lemma last_furthest_drop_first : forall es e d, es <> [] ->
  (forall x, In x es -> pos_le (snd d) (snd x)) ->
  last_furthest (d :: es) e -> last_furthest es e.
Proof.
  intros es e d N H (l1 & l2 & E & A & B).
  destruct l1 as [|x l1]; simpl in E; injection E; intros; subst.
  - exfalso. destruct l2 as [|y l2]; [congruence|].
    assert (P : pos_lt (snd y) (snd e)) by (apply B; left; auto).
    assert (Q : pos_le (snd e) (snd y)) by (apply H; left; auto).
    apply (pos_lt_irrefl (snd y)). eapply pos_lt_le_trans; eauto.
  - exists l1, l2. splits; auto. intros y Hy. apply A. right; auto.
Qed.

Lemma last_furthest_drop_last : forall es e d,
  (exists x, In x es /\ pos_lt (snd d) (snd x)) ->
  last_furthest (es ++ [d]) e -> last_furthest es e.
Proof.
  intros es e d (x & Hx & L) W.
  destruct (last_furthest_max _ _ W) as [W1 W2].
  destruct W as (l1 & l2 & E & A & B).
  destruct l2 as [|y l2] using rev_ind.
  - exfalso. apply app_inj_tail in E as [-> <-].
    apply (pos_lt_irrefl (snd d)). eapply pos_lt_le_trans; [exact L|]. apply A; auto.
  - clear IHl2. rewrite app_comm_cons, app_assoc in E. apply app_inj_tail in E as [-> <-].
    exists l1, l2. splits; auto. intros z Hz. apply B. apply in_or_app; auto.
Qed.

Lemma one_of_98_winner : forall cfg l s ps m pe es, fits_one_of cfg (length l) ->
  cfg_std cfg = Std98 -> l <> [] -> all_reject l s ps es ->
  (forall e, In e es -> pos_le ps (snd e)) ->
  one_of cfg l s ps = Reject m pe -> last_furthest es (m, pe).
Proof.
  intros cfg l s ps m pe es F S N R G E.
  destruct (one_of_cases cfg l F s ps) as [[X Y] | [X _]]; [congruence|].
  rewrite X in E. destruct (one_of_98_rejecting l s ps es R) as (e & W & Y).
  rewrite E in Y. destruct e as [m' pe']. simpl in Y. inversion Y; subst.
  eapply last_furthest_drop_first; [|  | exact W].
  - intros Z. rewrite Z in R. inversion R. subst. apply N; auto.
  - intros x Hx. apply G; auto.
Qed.

Lemma one_of_11_winner : forall cfg l s ps m pe es,
  cfg_std cfg <> Std98 -> all_reject l s ps es ->
  (forall e, In e es -> pos_le ps (snd e)) ->
  one_of cfg l s ps = Reject m pe ->
  ((exists e, In e es /\ pos_lt ps (snd e)) -> last_furthest es (m, pe))
  /\ ((forall e, In e es -> snd e = ps) -> m = none_of_the_expected_cases_found /\ pe = ps).
Proof.
  intros cfg l s ps m pe es S R G E.
  assert (F : fits_one_of cfg (length l)) by (intros X; congruence).
  destruct (one_of_cases cfg l F s ps) as [[X _] | [_ Y]]; [|congruence].
  rewrite X in E. destruct (one_of_11_rejecting l s ps es R) as (e & W & Y).
  rewrite E in Y. destruct e as [m' pe']. simpl in Y. inversion Y; subst m' pe'. split.
  - intros (e & He & L). eapply last_furthest_drop_last; [|exact W]. exists e; auto.
  - intros H. assert (D : last_furthest (es ++ [(none_of_the_expected_cases_found, ps)])
                       (none_of_the_expected_cases_found, ps)).
    { exists es, []. splits; auto.
      - intros x Hx. simpl. rewrite (H x Hx). right; auto.
      - intros x []. }
    pose proof (last_furthest_unique _ _ _ W D) as Q. inversion Q; auto.
Qed.

(** ** iterate *)

Lemma iterate_negative : forall n k p s ps, k < 0 ->
  (forall v s' ps', iterate_c n p k s ps <> Accept v s' ps')
  /\ (forall m pe, iterate_c n p k s ps = Reject m pe <->
      exists rs s1 ps1, (length rs < n)%nat /\ runs p s ps rs s1 ps1 /\ p s1 ps1 = Reject m pe).
Proof. intros. apply iterate_impl_negative; auto. Qed.

Lemma iterate_zero : forall n p s ps, iterate_c (S n) p 0 s ps = Accept (VSeq []) s ps.
Proof. reflexivity. Qed.

(** ** C++98 limits *)

Lemma limit_reached : forall cfg, cfg_std cfg = Std98 ->
  (forall l s ps, length l = limit_sequence cfg ->
     sequence cfg l s ps = Illformed
     /\ (forall k, nth_of_c cfg k l s ps = Illformed)
     /\ first_of cfg l s ps = Illformed
     /\ last_of cfg l s ps = Illformed)
  /\ (forall cs s ps, length cs = limit_one_of cfg -> one_of_c cfg cs s ps = Illformed)
  /\ (forall cs s ps, length cs = limit_one_char_except cfg ->
        one_char_except_c cfg cs s ps = Illformed).
Proof.
  intros cfg S. splits.
  - intros l s ps L. unfold sequence, nth_of_c, first_of, last_of. rewrite S.
    unfold sequence_98, nth_of_c_98, first_of_98, nth_of_c_98, last_of_98.
    rewrite L, Nat.ltb_irrefl, andb_false_r. auto.
  - intros cs s ps L. unfold one_of_c. rewrite S. unfold one_of_c_98. rewrite L, Nat.ltb_irrefl. auto.
  - intros cs s ps L. unfold one_char_except_c. rewrite S. unfold one_char_except_c_98.
    rewrite L, Nat.ltb_irrefl. auto.
Qed.

Lemma over_limit : forall cfg l s ps, cfg_std cfg = Std98 ->
  ((limit_sequence cfg <= length l)%nat ->
     sequence cfg l s ps = Illformed
     /\ (forall k, nth_of_c cfg k l s ps = Illformed)
     /\ first_of cfg l s ps = Illformed
     /\ last_of cfg l s ps = Illformed)
  /\ ((limit_one_of cfg < length l)%nat -> one_of cfg l s ps = Illformed)
  /\ (sequence cfg [] s ps = Illformed).
Proof.
  intros cfg l s ps S. splits.
  - intros L. unfold sequence, nth_of_c, first_of, last_of. rewrite S.
    unfold sequence_98, nth_of_c_98, first_of_98, nth_of_c_98, last_of_98.
    apply Nat.ltb_ge in L. rewrite L, andb_false_r. auto.
  - intros L. unfold one_of. rewrite S. unfold one_of_98. apply Nat.leb_gt in L. rewrite L. auto.
  - unfold sequence. rewrite S. reflexivity.
Qed.
