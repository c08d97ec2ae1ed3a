(** One relation between two evaluations of the same expression, for two
    configurations and two start positions. *)

From Coq Require Import ZArith List Bool Lia.
From Verif Require Import Base Util Combinators Variadic Parsers Deep Spec SpecDeep
  Proofs_Pos Proofs_Fold Proofs_Variadic Proofs_Parsers Proofs_Deep.
Import ListNotations.
Open Scope Z_scope.

Definition orel (s : str) (ps1 ps2 : pos) (o1 o2 : outcome) : Prop :=
  match o1, o2 with
  | Accept r1 rem1 q1, Accept r2 rem2 q2 =>
      r1 = r2 /\ rem1 = rem2 /\ exists w, s = w ++ rem1 /\ q1 = adv ps1 w /\ q2 = adv ps2 w
  | Reject _ q1, Reject _ q2 =>
      exists w, prefix w s /\ q1 = adv ps1 w /\ q2 = adv ps2 w
  | Illformed, Illformed => True
  | OutOfFuel, OutOfFuel => True
  | _, _ => False
  end.

Lemma orel_same_at : forall s ps1 ps2 o1 o2,
  orel s ps1 ps2 o1 o2 <-> same_at s ps1 ps2 o1 o2.
Proof.
  intros. unfold orel, same_at. destruct o1, o2; try tauto.
  - split; intros (A & B & w & C & D & E); repeat split; auto; exists w;
      rewrite !walk_iff in *; auto.
  - split; intros (w & A & B & C); exists w; rewrite !walk_iff in *; auto.
Qed.

Definition prel (p q : pfun) : Prop :=
  forall s ps1 ps2, orel s ps1 ps2 (p s ps1) (q s ps2).

Lemma orel_sbm : forall s ps1 ps2 a a' b b', same_but_message a a' -> same_but_message b b' ->
  orel s ps1 ps2 a' b' -> orel s ps1 ps2 a b.
Proof.
  intros s ps1 ps2 a a' b b' H1 H2 R.
  destruct a, a'; simpl in H1; try discriminate; inversion H1; subst;
    destruct b, b'; simpl in H2; try discriminate; inversion H2; subst; exact R.
Qed.

Lemma orel_trans : forall w s1 ps1 ps2 o1 o2,
  orel s1 (adv ps1 w) (adv ps2 w) o1 o2 -> orel (w ++ s1) ps1 ps2 o1 o2.
Proof.
  intros w s1 ps1 ps2 o1 o2 H. destruct o1, o2; simpl in *; auto.
  - destruct H as (A & B & w2 & -> & -> & ->). repeat split; auto.
    exists (w ++ w2). rewrite app_assoc, !adv_app. auto.
  - destruct H as (w2 & [t ->] & -> & ->). exists (w ++ w2). rewrite !adv_app.
    split; auto. exists t. rewrite app_assoc; auto.
Qed.

Lemma orel_reject_here : forall s ps1 ps2 m1 m2, orel s ps1 ps2 (Reject m1 ps1) (Reject m2 ps2).
Proof. intros. exists []. repeat split; auto. exists s; auto. Qed.

Lemma orel_accept_here : forall s ps1 ps2 r, orel s ps1 ps2 (Accept r s ps1) (Accept r s ps2).
Proof. intros. repeat split; auto. exists []. auto. Qed.

#[export] Hint Resolve orel_reject_here orel_accept_here : orel.

Ltac rstep H s ps1 ps2 :=
  let G := fresh "G" in
  pose proof (H s ps1 ps2) as G; unfold orel in G;
  match type of G with context [match ?o with _ => _ end] =>
    match o with _ ps1 => destruct o eqn:? end end;
  match type of G with context [match ?o with _ => _ end] => destruct o eqn:? end;
  try contradiction; try exact I; auto with orel.

Ltac racc :=
  match goal with
  | G : _ = _ /\ _ = _ /\ (exists _, _) |- _ =>
      let wd := fresh "wd" in destruct G as (-> & -> & wd & -> & -> & ->)
  end.
Ltac rcont := racc; apply orel_trans.

Lemma prel_return : forall v, prel (return_ v) (return_ v).
Proof. intros v s ps1 ps2. unfold return_. auto with orel. Qed.
Lemma prel_fail : forall m m', prel (fail m) (fail m').
Proof. intros m m' s ps1 ps2. unfold fail. auto with orel. Qed.
Lemma prel_one_char : prel one_char one_char.
Proof.
  intros [|c s] ps1 ps2; unfold one_char; auto with orel.
  repeat split; auto. exists [c]. auto.
Qed.
Lemma prel_empty : forall r, prel (empty r) (empty r).
Proof. intros r [|c s] ps1 ps2; unfold empty; auto with orel. Qed.

Lemma prel_accept_when : forall p q pr m m', prel p q ->
  prel (accept_when p pr m) (accept_when q pr m').
Proof.
  intros p q pr m m' H s ps1 ps2. unfold accept_when. rstep H s ps1 ps2.
  racc. destruct (pr r0) as [[|]|].
  - repeat split; auto. exists wd; auto.
  - apply orel_reject_here.
  - exact I.
Qed.
Lemma prel_change_error_message : forall p q m, prel p q ->
  prel (change_error_message p m) (change_error_message q m).
Proof. intros p q m H s ps1 ps2. unfold change_error_message. rstep H s ps1 ps2. Qed.
Lemma prel_transform : forall p q f, prel p q -> prel (transform p f) (transform q f).
Proof.
  intros p q f H s ps1 ps2. unfold transform. rstep H s ps1 ps2.
  racc. destruct (f r0); [|exact I].
  repeat split; auto. exists wd; auto.
Qed.
Lemma prel_transform_error : forall p q f, prel p q -> changes_message_only f ->
  prel (transform_error p f) (transform_error q f).
Proof.
  intros p q f H C s ps1 ps2. unfold transform_error. rstep H s ps1 ps2.
  destruct (C m p0) as [m1 ->], (C m0 p1) as [m2 ->]. exact G.
Qed.
Lemma prel_transform_error_message : forall p q f g, prel p q ->
  (forall m, f m <> None) -> (forall m, g m <> None) ->
  prel (transform_error_message p f) (transform_error_message q g).
Proof.
  intros p q f g H F F' s ps1 ps2. unfold transform_error_message. rstep H s ps1 ps2.
  specialize (F m). specialize (F' m0). destruct (f m), (g m0); try congruence. exact G.
Qed.
Lemma prel_always : forall p q v, prel p q -> prel (always p v) (always q v).
Proof. intros p q v H s ps1 ps2. unfold always. rstep H s ps1 ps2. simpl. tauto. Qed.
Lemma prel_look_ahead : forall p q, prel p q -> prel (look_ahead p) (look_ahead q).
Proof.
  intros p q H s ps1 ps2. unfold look_ahead. rstep H s ps1 ps2.
  destruct G as (-> & _). auto with orel.
Qed.
Lemma prel_optional : forall p q v, prel p q -> prel (optional p v) (optional q v).
Proof. intros p q v H s ps1 ps2. unfold optional. rstep H s ps1 ps2. Qed.
Lemma prel_except : forall p q v m, prel p q -> prel (except p v m) (except q v m).
Proof. intros p q v m H s ps1 ps2. unfold except. rstep H s ps1 ps2. Qed.
Lemma prel_if : forall p q t f, prel p q -> prel (if_ p t f) (if_ q t f).
Proof. intros p q t f H s ps1 ps2. unfold if_. rstep H s ps1 ps2. Qed.

Lemma pos_equal_adv : forall ps w, pos_equal_to ps (adv ps w) = true <-> w = [].
Proof.
  intros. rewrite pos_equal_to_iff. rewrite <- (adv_fix w ps). split; congruence.
Qed.

Lemma pos_equal_adv_cases : forall w ps1 ps2,
  pos_equal_to ps1 (adv ps1 w) = pos_equal_to ps2 (adv ps2 w).
Proof.
  intros. destruct (pos_equal_to ps1 (adv ps1 w)) eqn:A, (pos_equal_to ps2 (adv ps2 w)) eqn:B; auto.
  - apply pos_equal_adv in A. apply (pos_equal_adv ps2) in A. congruence.
  - apply pos_equal_adv in B. apply (pos_equal_adv ps1) in B. congruence.
Qed.

Lemma prel_fafce : forall p q, prel p q ->
  prel (fail_at_first_char_expected p) (fail_at_first_char_expected q).
Proof.
  intros p q H s ps1 ps2. unfold fail_at_first_char_expected. rstep H s ps1 ps2.
  destruct G as (w & P & -> & ->). rewrite (pos_equal_adv_cases w ps1 ps2).
  destruct (pos_equal_to ps2 (adv ps2 w)); auto with orel. exists w; auto.
Qed.

Lemma prel_keyword : forall kw r, prel (keyword kw r) (keyword kw r).
Proof.
  induction kw as [|c kw IH]; intros r s ps1 ps2; cbn [keyword].
  - apply prel_return.
  - assert (H : prel (lit_c c) (lit_c c))
      by (apply prel_accept_when, prel_change_error_message, prel_one_char).
    rstep H s ps1 ps2. rcont. apply IH.
Qed.

Lemma prel_foldl : forall p q f, prel p q -> forall n st, prel (foldl n p st f) (foldl n q st f).
Proof.
  intros p q f H. induction n; intros st s ps1 ps2; cbn [foldl]; [exact I|].
  rstep H s ps1 ps2.
  - destruct st; [|exact I]. rcont. apply IHn.
  - destruct st; auto with orel. exact I.
Qed.
Lemma prel_foldl1 : forall p q f n st, prel p q -> prel (foldl1 n p st f) (foldl1 n q st f).
Proof.
  intros p q f n st H s ps1 ps2. unfold foldl1. rstep H s ps1 ps2. apply prel_foldl; auto.
Qed.
Lemma prel_foldl_ri : forall p q f, prel p q -> forall n st,
  prel (foldl_reject_incomplete n p st f) (foldl_reject_incomplete n q st f).
Proof.
  intros p q f H. induction n; intros st s ps1 ps2; cbn [foldl_reject_incomplete]; [exact I|].
  rstep H s ps1 ps2.
  - destruct st; [|exact I]. rcont. apply IHn.
  - destruct G as (w & P & -> & ->). rewrite (pos_equal_adv_cases w ps1 ps2).
    destruct (pos_equal_to ps2 (adv ps2 w)).
    + destruct st; auto with orel. exact I.
    + exists w; auto.
Qed.
Lemma prel_foldl_ri1 : forall p q f n st, prel p q ->
  prel (foldl_reject_incomplete1 n p st f) (foldl_reject_incomplete1 n q st f).
Proof.
  intros p q f n st H s ps1 ps2. unfold foldl_reject_incomplete1. rstep H s ps1 ps2.
  apply prel_foldl_ri; auto.
Qed.
Lemma prel_foldl_swp : forall p q sp sq f n, prel p q -> prel sp sq ->
  prel (foldl_start_with_parser n p sp f) (foldl_start_with_parser n q sq f).
Proof.
  intros p q sp sq f n H H2 s ps1 ps2. unfold foldl_start_with_parser. rstep H2 s ps1 ps2.
  rcont. apply prel_foldl; auto.
Qed.
Lemma prel_foldl_ri_swp : forall p q sp sq f n, prel p q -> prel sp sq ->
  prel (foldl_reject_incomplete_start_with_parser n p sp f)
       (foldl_reject_incomplete_start_with_parser n q sq f).
Proof.
  intros p q sp sq f n H H2 s ps1 ps2. unfold foldl_reject_incomplete_start_with_parser.
  rstep H2 s ps1 ps2. rcont. apply prel_foldl_ri; auto.
Qed.
Lemma prel_foldr_swp : forall p q sp sq f, prel p q -> prel sp sq -> forall n,
  prel (foldr_start_with_parser n p sp f) (foldr_start_with_parser n q sq f).
Proof.
  intros p q sp sq f H H2. induction n; intros s ps1 ps2; cbn [foldr_start_with_parser]; [exact I|].
  rstep H s ps1 ps2. rcont.
  rstep IHn rem0 (adv ps1 wd) (adv ps2 wd).
  destruct G as (-> & G). destruct (f r1 r0); simpl; auto.
Qed.
Lemma prel_foldr : forall p q st f n, prel p q -> prel (foldr n p st f) (foldr n q st f).
Proof. intros. apply prel_foldr_swp; auto. apply prel_return. Qed.
Lemma prel_foldr1 : forall p q st f n, prel p q -> prel (foldr1 n p st f) (foldr1 n q st f).
Proof.
  intros p q st f n H s ps1 ps2. unfold foldr1. rstep H s ps1 ps2. apply prel_foldr; auto.
Qed.
Lemma prel_iterate_impl : forall p q, prel p q -> forall n k acc,
  prel (iterate_impl n k p acc) (iterate_impl n k q acc).
Proof.
  intros p q H. induction n; intros k acc s ps1 ps2; cbn [iterate_impl]; [exact I|].
  destruct (k =? 0); [apply prel_return|].
  rstep H s ps1 ps2. racc. destruct (push_back acc r0); [|exact I].
  apply orel_trans. apply IHn.
Qed.
Lemma prel_iterate : forall p q n k, prel p q -> prel (iterate_c n p k) (iterate_c n q k).
Proof. intros. apply prel_iterate_impl; auto. Qed.

(** The order of error positions on one input does not depend on the start
    position. *)
Lemma prefix_le_total : forall u w (s : str), prefix u s -> prefix w s ->
  prefix u w \/ prefix w u.
Proof.
  intros u w s [a ->] [b E]. revert w E.
  induction u as [|c u IH]; intros w E.
  - left. exists w; auto.
  - destruct w as [|d w]; [right; exists (c :: u); auto|].
    simpl in E. injection E; intros E' ->.
    destruct (IH w E') as [[t ->] | [t ->]]; [left | right]; exists t; auto.
Qed.

Lemma pos_less_adv_cases : forall u w s ps1 ps2, prefix u s -> prefix w s ->
  pos_less (adv ps1 u) (adv ps1 w) = pos_less (adv ps2 u) (adv ps2 w).
Proof.
  assert (G : forall u w s ps1 ps2, prefix u s -> prefix w s ->
    pos_less (adv ps1 u) (adv ps1 w) = true -> pos_less (adv ps2 u) (adv ps2 w) = true).
  { intros u w s ps1 ps2 Pu Pw A. apply pos_less_iff in A. apply pos_less_iff.
    destruct (prefix_le_total u w s Pu Pw) as [[t ->] | [t ->]].
    - rewrite adv_app in *. apply adv_lt. intros ->. simpl in A. apply pos_lt_irrefl in A. auto.
    - rewrite adv_app in *. exfalso. apply (pos_lt_irrefl (adv ps1 w)).
      eapply pos_le_lt_trans; [apply adv_le|exact A]. }
  intros u w s ps1 ps2 Pu Pw.
  destruct (pos_less (adv ps1 u) (adv ps1 w)) eqn:A, (pos_less (adv ps2 u) (adv ps2 w)) eqn:B; auto.
  - apply (G u w s ps1 ps2 Pu Pw) in A. congruence.
  - apply (G u w s ps2 ps1 Pu Pw) in B. congruence.
Qed.

Lemma prel_one_of_11 : forall l l', Forall2 prel l l' -> prel (one_of_11 l) (one_of_11 l').
Proof.
  induction 1 as [|p q l l' H F IH]; intros s ps1 ps2; cbn [one_of_11].
  - apply prel_fail.
  - rstep H s ps1 ps2; rstep IH s ps1 ps2.
    destruct G as (w1 & P1 & -> & ->), G0 as (w2 & P2 & -> & ->).
    unfold later_result. rewrite (pos_less_adv_cases w2 w1 s ps1 ps2 P2 P1).
    destruct (pos_less (adv ps2 w2) (adv ps2 w1)); [exists w1 | exists w2]; auto.
Qed.

Lemma prel_sequence_11 : forall l l', Forall2 prel l l' -> prel (sequence_11 l) (sequence_11 l').
Proof.
  induction 1 as [|p q l l' H F IH]; intros s ps1 ps2; cbn [sequence_11].
  - apply prel_return.
  - rstep H s ps1 ps2. rcont. apply prel_transform; auto.
Qed.
Lemma prel_skip_remaining : forall r l l', Forall2 prel l l' ->
  prel (nth_of_c_skip_remaining r l) (nth_of_c_skip_remaining r l').
Proof.
  induction 1 as [|p q l l' H F IH]; intros s ps1 ps2; cbn [nth_of_c_skip_remaining].
  - apply prel_return.
  - rstep H s ps1 ps2. rcont. apply IH.
Qed.
Lemma prel_nth_of_impl : forall l l', Forall2 prel l l' -> forall k,
  prel (nth_of_c_11_impl k l) (nth_of_c_11_impl k l').
Proof.
  induction 1 as [|p q l l' H F IH]; intros k s ps1 ps2; cbn [nth_of_c_11_impl]; [exact I|].
  rstep H s ps1 ps2. rcont. destruct (k =? 0); [apply prel_skip_remaining; auto|apply IH].
Qed.
Lemma prel_nth_of_11 : forall l l' k, Forall2 prel l l' ->
  prel (nth_of_c_11 k l) (nth_of_c_11 k l').
Proof.
  intros l l' k F s ps1 ps2. unfold nth_of_c_11. rewrite (Forall2_length _ _ _ _ _ F).
  pose proof (prel_nth_of_impl _ _ F k s ps1 ps2) as X.
  inversion F; subst; [apply prel_fail|]. destruct (_ && _); auto. apply prel_fail.
Qed.
Lemma prel_first_of_11 : forall l l', Forall2 prel l l' -> prel (first_of_11 l) (first_of_11 l').
Proof.
  intros l l' F s ps1 ps2. pose proof (prel_nth_of_impl _ _ F 0 s ps1 ps2) as X.
  inversion F; subst; [apply prel_fail|]. exact X.
Qed.
Lemma prel_last_of_11 : forall l l', Forall2 prel l l' -> prel (last_of_11 l) (last_of_11 l').
Proof.
  intros l l' F s ps1 ps2.
  pose proof (prel_nth_of_impl _ _ F (Z.of_nat (length l) - 1) s ps1 ps2) as X.
  rewrite (Forall2_length _ _ _ _ _ F) in X at 2.
  inversion F; subst; [apply prel_fail|]. exact X.
Qed.

(** ** The configured variadic combinators *)

Definition variadic (X : config -> list pfun -> pfun) (X11 : list pfun -> pfun)
  (fit : config -> nat -> Prop) : Prop :=
  forall cfg k,
    (fit cfg k -> forall l, length l = k -> forall s ps,
       same_but_message (X cfg l s ps) (X11 l s ps))
    /\ (fit cfg k \/ forall l, length l = k -> forall s ps, X cfg l s ps = Illformed).

Definition compat (cfg1 cfg2 : config) (fit : config -> nat -> Prop) (k : nat) : Prop :=
  cfg1 = cfg2 \/ (fit cfg1 k /\ fit cfg2 k).

Lemma prel_variadic : forall X X11 fit cfg1 cfg2 l l',
  variadic X X11 fit -> compat cfg1 cfg2 fit (length l) -> length l = length l' ->
  prel (X11 l) (X11 l') -> prel (X cfg1 l) (X cfg2 l').
Proof.
  intros X X11 fit cfg1 cfg2 l l' V C L P s ps1 ps2.
  destruct (V cfg1 (length l)) as [A1 B1], (V cfg2 (length l)) as [A2 B2].
  destruct C as [<- | [F1 F2]].
  - destruct B1 as [F | I1].
    + eapply orel_sbm; [apply A1; auto | apply A1; auto | apply P].
    + rewrite !I1; auto. exact I.
  - eapply orel_sbm; [apply A1; auto | apply A2; auto | apply P].
Qed.

Definition seq_fit (cfg : config) (k : nat) : Prop :=
  cfg_std cfg = Std98 -> (1 <= k < limit_sequence cfg)%nat.

Lemma std_cases : forall cfg, cfg_std cfg = Std98 \/ cfg_std cfg <> Std98.
Proof. intros. destruct (cfg_std cfg); auto; right; discriminate. Qed.

Lemma variadic_sequence : variadic sequence sequence_11 seq_fit.
Proof.
  intros cfg k. unfold sequence, seq_fit. split.
  - intros F l L s ps. subst k. destruct (cfg_std cfg); try apply same_but_message_refl.
    rewrite sequence_98_11 by auto. apply same_but_message_refl.
  - destruct (cfg_std cfg); try (left; discriminate).
    destruct (le_dec 1 k) as [K1|K1], (lt_dec k (limit_sequence cfg)) as [K2|K2]; auto;
      right; intros l <- s ps; unfold sequence_98;
      replace (Nat.leb 1 (length l) && Nat.ltb (length l) (limit_sequence cfg))%bool with false; auto;
      symmetry; apply andb_false_iff; rewrite Nat.leb_gt, Nat.ltb_ge; lia.
Qed.

Lemma variadic_nth_of : forall k0, variadic (fun cfg => nth_of_c cfg k0) (nth_of_c_11 k0) fits_sequence.
Proof.
  intros k0 cfg k. unfold fits_sequence. split.
  - intros F l L s ps. subst k. rewrite nth_of_c_cfg by auto. apply same_but_message_refl.
  - unfold nth_of_c. destruct (cfg_std cfg); try (left; discriminate).
    destruct (lt_dec k (limit_sequence cfg)) as [K|K]; auto.
    right; intros l <- s ps. unfold nth_of_c_98. replace (Nat.ltb _ _) with false; auto.
    symmetry; apply Nat.ltb_ge; lia.
Qed.

Lemma variadic_first_of : variadic first_of first_of_11 fits_sequence.
Proof.
  intros cfg k. unfold fits_sequence. split.
  - intros F l L s ps. subst k. rewrite first_of_cfg by auto. apply same_but_message_refl.
  - unfold first_of. destruct (cfg_std cfg); try (left; discriminate).
    destruct (lt_dec k (limit_sequence cfg)) as [K|K]; auto.
    right; intros l <- s ps. unfold first_of_98, nth_of_c_98. replace (Nat.ltb _ _) with false; auto.
    symmetry; apply Nat.ltb_ge; lia.
Qed.

Lemma variadic_last_of : variadic last_of last_of_11 fits_sequence.
Proof.
  intros cfg k. unfold fits_sequence. split.
  - intros F l L s ps. subst k. destruct l as [|p l].
    + unfold last_of. destruct (cfg_std cfg); try apply same_but_message_refl.
      rewrite last_of_98_nil; simpl; auto.
    + rewrite last_of_cfg by (auto; discriminate). apply same_but_message_refl.
  - unfold last_of. destruct (cfg_std cfg); try (left; discriminate).
    destruct (lt_dec k (limit_sequence cfg)) as [K|K]; auto.
    right; intros l <- s ps. unfold last_of_98. replace (Nat.ltb _ _) with false; auto.
    symmetry; apply Nat.ltb_ge; lia.
Qed.

Lemma variadic_one_of : variadic one_of one_of_11 fits_one_of.
Proof.
  intros cfg k. unfold fits_one_of. split.
  - intros F l L s ps. subst k. unfold one_of. destruct (cfg_std cfg); try apply same_but_message_refl.
    unfold one_of_98. replace (Nat.leb _ _) with true; [apply one_of_98_11|].
    symmetry; apply Nat.leb_le; auto.
  - unfold one_of. destruct (cfg_std cfg); try (left; discriminate).
    destruct (le_dec k (limit_one_of cfg)) as [K|K]; auto.
    right; intros l <- s ps. unfold one_of_98. replace (Nat.leb _ _) with false; auto.
    symmetry; apply Nat.leb_gt; lia.
Qed.

Definition apply_fit (cfg : config) (k : nat) : Prop := (1 <= k < limit_sequence cfg)%nat.

Lemma variadic_sequence_apply : forall t,
  variadic (fun cfg => sequence_apply cfg t)
    (fun l => transform (sequence_11 l) (sequence_apply_transform t (length l))) apply_fit.
Proof.
  intros t cfg k. unfold apply_fit, sequence_apply. split.
  - intros F l L s ps. subst k.
    replace (Nat.leb 1 (length l) && Nat.ltb (length l) (limit_sequence cfg))%bool with true.
    2:{ symmetry. apply andb_true_intro; split; [apply Nat.leb_le | apply Nat.ltb_lt]; lia. }
    unfold transform. rewrite sequence_cfg; [apply same_but_message_refl|intros _; lia|].
    destruct l; [simpl in F; lia|discriminate].
  - destruct (le_dec 1 k) as [K1|K1], (lt_dec k (limit_sequence cfg)) as [K2|K2]; auto;
      right; intros l <- s ps;
      replace (Nat.leb 1 (length l) && Nat.ltb (length l) (limit_sequence cfg))%bool with false; auto;
      symmetry; apply andb_false_iff; rewrite Nat.leb_gt, Nat.ltb_ge; lia.
Qed.

Lemma prel_sequence : forall cfg1 cfg2 l l', compat cfg1 cfg2 seq_fit (length l) ->
  Forall2 prel l l' -> prel (sequence cfg1 l) (sequence cfg2 l').
Proof.
  intros. eapply prel_variadic; eauto using variadic_sequence, Forall2_length, prel_sequence_11.
Qed.
Lemma prel_nth_of : forall cfg1 cfg2 k l l', compat cfg1 cfg2 fits_sequence (length l) ->
  Forall2 prel l l' -> prel (nth_of_c cfg1 k l) (nth_of_c cfg2 k l').
Proof.
  intros. eapply (prel_variadic (fun cfg => nth_of_c cfg k));
    eauto using variadic_nth_of, Forall2_length, prel_nth_of_11.
Qed.
Lemma prel_first_of : forall cfg1 cfg2 l l', compat cfg1 cfg2 fits_sequence (length l) ->
  Forall2 prel l l' -> prel (first_of cfg1 l) (first_of cfg2 l').
Proof.
  intros. eapply prel_variadic; eauto using variadic_first_of, Forall2_length, prel_first_of_11.
Qed.
Lemma prel_last_of : forall cfg1 cfg2 l l', compat cfg1 cfg2 fits_sequence (length l) ->
  Forall2 prel l l' -> prel (last_of cfg1 l) (last_of cfg2 l').
Proof.
  intros. eapply prel_variadic; eauto using variadic_last_of, Forall2_length, prel_last_of_11.
Qed.
Lemma prel_one_of : forall cfg1 cfg2 l l', compat cfg1 cfg2 fits_one_of (length l) ->
  Forall2 prel l l' -> prel (one_of cfg1 l) (one_of cfg2 l').
Proof.
  intros. eapply prel_variadic; eauto using variadic_one_of, Forall2_length, prel_one_of_11.
Qed.
Lemma prel_sequence_apply : forall cfg1 cfg2 t l l', compat cfg1 cfg2 apply_fit (length l) ->
  Forall2 prel l l' -> prel (sequence_apply cfg1 t l) (sequence_apply cfg2 t l').
Proof.
  intros. eapply (prel_variadic (fun cfg => sequence_apply cfg t));
    eauto using variadic_sequence_apply, Forall2_length.
  cbv beta. rewrite (Forall2_length _ _ _ _ _ H0). apply prel_transform, prel_sequence_11; auto.
Qed.

Lemma prel_class : forall P m1 m2 m3 m4 p q,
  (forall c, {P c} + {~ P c}) ->
  char_class_parser P m1 m2 p -> char_class_parser P m3 m4 q -> prel p q.
Proof.
  intros P m1 m2 m3 m4 p q D (A & B & C) (A' & B' & C') [|c s] ps1 ps2.
  - rewrite C, C'. auto with orel.
  - destruct (D c).
    + rewrite (A c s ps1 (next_pos c ps1)), (A' c s ps2 (next_pos c ps2)); auto; try (apply walk1; auto).
      repeat split; auto. exists [c]. auto.
    + rewrite B, B' by auto. auto with orel.
Qed.

Lemma prel_one_of_c : forall cfg1 cfg2 cs, compat cfg1 cfg2 fits_one_of_c (length cs) ->
  prel (one_of_c cfg1 cs) (one_of_c cfg2 cs).
Proof.
  intros cfg1 cfg2 cs C.
  assert (G : fits_one_of_c cfg1 (length cs) -> fits_one_of_c cfg2 (length cs) ->
    prel (one_of_c cfg1 cs) (one_of_c cfg2 cs)).
  { intros F1 F2. eapply prel_class; [apply (in_dec_char cs)|apply one_of_c_class; auto|].
    apply one_of_c_class; auto. }
  destruct C as [<- | [F1 F2]]; auto.
  destruct (cfg_std cfg1) eqn:S;
    try (apply G; unfold fits_one_of_c; congruence).
  destruct (lt_dec (length cs) (limit_one_of cfg1)); [apply G; intros _; auto|].
  intros s ps1 ps2. unfold one_of_c. rewrite S, !one_of_c_98_unfit by auto. exact I.
Qed.

Lemma prel_one_char_except_c : forall cfg1 cfg2 cs, compat cfg1 cfg2 fits_one_char_except (length cs) ->
  prel (one_char_except_c cfg1 cs) (one_char_except_c cfg2 cs).
Proof.
  intros cfg1 cfg2 cs C.
  assert (G : fits_one_char_except cfg1 (length cs) -> fits_one_char_except cfg2 (length cs) ->
    prel (one_char_except_c cfg1 cs) (one_char_except_c cfg2 cs)).
  { intros F1 F2. eapply prel_class; [apply (not_in_dec_char cs)|apply one_char_except_c_class; auto|].
    apply one_char_except_c_class; auto. }
  destruct C as [<- | [F1 F2]]; auto.
  destruct (cfg_std cfg1) eqn:S;
    try (apply G; unfold fits_one_char_except; congruence).
  destruct (lt_dec (length cs) (limit_one_char_except cfg1)); [apply G; intros _; auto|].
  intros s ps1 ps2. unfold one_char_except_c. rewrite S, !one_char_except_c_98_unfit by auto. exact I.
Qed.

Lemma prel_middle_of : forall cfg1 cfg2 p1 p2 p3 q1 q2 q3, compat cfg1 cfg2 fits_sequence 3 ->
  prel p1 q1 -> prel p2 q2 -> prel p3 q3 ->
  prel (middle_of cfg1 p1 p2 p3) (middle_of cfg2 q1 q2 q3).
Proof.
  intros cfg1 cfg2 p1 p2 p3 q1 q2 q3 C H1 H2 H3 s ps1 ps2. unfold middle_of.
  apply prel_nth_of; auto. f2; auto. apply prel_transform_error_message; auto; discriminate.
Qed.
Lemma prel_entire_input : forall cfg1 cfg2 p q m, compat cfg1 cfg2 fits_sequence 2 -> prel p q ->
  prel (entire_input cfg1 p m) (entire_input cfg2 q m).
Proof.
  intros cfg1 cfg2 p q m C H. destruct m; simpl; apply prel_first_of; auto; f2; auto;
    try apply prel_change_error_message; apply prel_empty.
Qed.
Lemma prel_foldr_ri : forall cfg1 cfg2 n p q st f, compat cfg1 cfg2 fits_sequence 2 -> prel p q ->
  prel (foldr_reject_incomplete cfg1 n p st f) (foldr_reject_incomplete cfg2 n q st f).
Proof.
  intros. apply prel_foldr_swp; auto. apply prel_first_of; auto. f2; auto using prel_return.
  apply prel_fafce; auto.
Qed.
Lemma prel_foldr_ri1 : forall cfg1 cfg2 n p q st f, compat cfg1 cfg2 fits_sequence 2 -> prel p q ->
  prel (foldr_reject_incomplete1 cfg1 n p st f) (foldr_reject_incomplete1 cfg2 n q st f).
Proof.
  intros cfg1 cfg2 n p q st f C H s ps1 ps2. unfold foldr_reject_incomplete1.
  rstep H s ps1 ps2. apply prel_foldr_ri; auto.
Qed.

(** ** The induction *)

Definition rel_ok (cfg1 cfg2 : config) (e : pexpr) : Prop :=
  natives position_independent changes_message_only e
  /\ total_messages e
  /\ (cfg1 = cfg2 \/ (fits cfg1 e /\ fits cfg2 e)).

Lemma eval_rel : forall cfg1 cfg2 env, program_every (rel_ok cfg1 cfg2) env ->
  forall n e, every (rel_ok cfg1 cfg2) e -> prel (eval cfg1 env n e) (eval cfg2 env n e).
Proof.
  intros cfg1 cfg2 env HE n. induction n as [n IHn] using lt_wf_ind.
  intros e. induction e as [e IH] using pexpr_children_ind. intros Hev.
  assert (HC : forall c, In c (children e) -> prel (eval cfg1 env n c) (eval cfg2 env n c)).
  { intros c Hc. apply IH; auto. eapply every_child; eauto. }
  apply every_here in Hev as (Nat & Tot & Fit). clear IH.
  assert (HL : forall l, children e = l ->
    Forall2 prel (map (eval cfg1 env n) l) (map (eval cfg2 env n) l)).
  { intros l <-. apply Forall2_map_in. auto. }
  destruct e; simpl in HC, Nat, Tot, Fit; destruct n as [|n'];
    try (assert (X := HC _ (or_introl eq_refl)));
    try (assert (Y := HC _ (or_intror (or_introl eq_refl))));
    try (assert (Z := HC _ (or_intror (or_intror (or_introl eq_refl)))));
    try specialize (HL _ eq_refl);
    cbn [eval].
  all: try solve [ assumption | apply prel_return | apply prel_fail | apply prel_one_char
    | apply prel_empty
    | apply prel_accept_when; assumption | apply prel_change_error_message; assumption
    | apply prel_transform; assumption
    | apply prel_transform_error; assumption
    | apply prel_transform_error_message; assumption
    | apply prel_always; assumption | apply prel_look_ahead; assumption
    | apply prel_optional; assumption | apply prel_except; assumption
    | apply prel_if; assumption | apply prel_fafce; assumption
    | apply prel_keyword
    | apply prel_foldl; assumption | apply prel_foldl1; assumption
    | apply prel_foldl_ri; assumption | apply prel_foldl_ri1; assumption
    | apply prel_foldl_swp; assumption | apply prel_foldl_ri_swp; assumption
    | apply prel_foldr_swp; assumption | apply prel_foldr; assumption
    | apply prel_foldr1; assumption
    | apply prel_foldr_ri; assumption
    | apply prel_foldr_ri1; assumption | apply prel_iterate; assumption
    | apply prel_one_of; [rewrite map_length|]; assumption
    | apply prel_nth_of; [rewrite map_length|]; assumption
    | apply prel_first_of; [rewrite map_length|]; assumption
    | apply prel_last_of; [rewrite map_length|]; assumption
    | apply prel_sequence_apply; [rewrite map_length|]; assumption
    | apply prel_one_of_c; assumption | apply prel_one_char_except_c; assumption
    | apply prel_middle_of; assumption | apply prel_entire_input; assumption ].
  - intros s ps1 ps2. apply orel_same_at. apply Nat.
  - intros s ps1 ps2. apply orel_same_at. apply Nat.
  - intros s ps1 ps2. exact I.
  - apply IHn; auto.
  - apply prel_sequence; auto. rewrite map_length.
    destruct Fit as [->|[[F1 N] [F2 _]]]; [left; auto|right]. unfold seq_fit, fits_sequence in *.
    destruct l; [congruence|]. simpl in *. split; intros Q; [specialize (F1 Q)|specialize (F2 Q)]; lia.
  - apply prel_sequence; auto. rewrite map_length.
    destruct Fit as [->|[[F1 N] [F2 _]]]; [left; auto|right]. unfold seq_fit, fits_sequence in *.
    destruct l; [congruence|]. simpl in *. split; intros Q; [specialize (F1 Q)|specialize (F2 Q)]; lia.
Qed.
