(** Inductions over parser expressions: remaining input and positions, fuel. *)

From Coq Require Import ZArith List Bool Lia.
From Verif Require Import Base Util Combinators Variadic Parsers Deep Spec SpecDeep
  Proofs_Pos Proofs_Fold Proofs_Variadic Proofs_Parsers.
Import ListNotations.
Open Scope Z_scope.

(** ** Induction principle *)

Lemma pexpr_children_ind : forall P : pexpr -> Prop,
  (forall e, (forall c, In c (children e) -> P c) -> P e) -> forall e, P e.
Proof.
  intros P H.
  fix IH 1. intros e. apply H.
  destruct e; simpl; intros c0 Hc; try contradiction;
    repeat match goal with
           | Hc : _ = c0 \/ _ |- _ => destruct Hc as [<- | Hc]; [apply IH|]
           end; try contradiction.
  all: revert c0 Hc; induction l as [|x l IHl]; intros c0 Hc;
    [destruct Hc | destruct Hc as [<- | Hc]; [apply IH | apply IHl; exact Hc]].
Qed.

Lemma every_here : forall Q e, every Q e -> Q e.
Proof. intros Q e H; inversion H; auto. Qed.

Lemma every_child : forall Q e c, every Q e -> In c (children e) -> every Q c.
Proof. intros Q e c H; inversion H; auto. Qed.

Lemma every_impl : forall (Q R : pexpr -> Prop), (forall e, Q e -> R e) ->
  forall e, every Q e -> every R e.
Proof.
  intros Q R I e. induction e as [e IH] using pexpr_children_ind. intros H.
  inversion H; subst. constructor; auto.
Qed.

(** ** The configured implementations up to messages *)

Lemma sbm_sym : forall a b, same_but_message a b -> same_but_message b a.
Proof. destruct a, b; simpl; congruence. Qed.

Definition either (a b : outcome) : Prop := a = Illformed \/ same_but_message a b.

Lemma either_refl : forall a, either a a.
Proof. right. apply same_but_message_refl. Qed.

Lemma sequence_either : forall cfg l s ps, either (sequence cfg l s ps) (sequence_11 l s ps).
Proof.
  intros. unfold sequence. destruct (cfg_std cfg); try apply either_refl.
  unfold sequence_98. destruct (_ && _)%bool; [|left; auto].
  rewrite sequence_impl_11. apply either_refl.
Qed.

Lemma nth_of_either : forall cfg k l s ps, either (nth_of_c cfg k l s ps) (nth_of_c_11 k l s ps).
Proof.
  intros. unfold nth_of_c. destruct (cfg_std cfg); try apply either_refl.
  unfold nth_of_c_98. destruct (Nat.ltb _ _); [|left; auto].
  rewrite nth_of_cN_11. apply either_refl.
Qed.

Lemma first_of_either : forall cfg l s ps, either (first_of cfg l s ps) (first_of_11 l s ps).
Proof.
  intros. unfold first_of. destruct (cfg_std cfg); try apply either_refl.
  destruct (Nat.ltb (length l) (limit_sequence cfg)) eqn:E.
  - rewrite first_of_98_11; [apply either_refl|]. apply Nat.ltb_lt; auto.
  - left. unfold first_of_98, nth_of_c_98. rewrite E. auto.
Qed.

Lemma last_of_either : forall cfg l s ps, either (last_of cfg l s ps) (last_of_11 l s ps).
Proof.
  intros. unfold last_of. destruct (cfg_std cfg); try apply either_refl.
  destruct (Nat.ltb (length l) (limit_sequence cfg)) eqn:E.
  - destruct l as [|p l].
    + rewrite last_of_98_nil; [right; simpl; auto|]. apply Nat.ltb_lt in E. simpl in E; lia.
    + rewrite last_of_98_11; [apply either_refl|discriminate|]. apply Nat.ltb_lt; auto.
  - left. unfold last_of_98. rewrite E. auto.
Qed.

Lemma one_of_either : forall cfg l s ps, either (one_of cfg l s ps) (one_of_11 l s ps).
Proof.
  intros. unfold one_of. destruct (cfg_std cfg); try apply either_refl.
  unfold one_of_98. destruct (Nat.leb _ _); [|left; auto].
  right. apply one_of_98_11.
Qed.

(** ** Good outcomes *)

(** [E] tells if error positions are looked at as well. *)
Definition gout (E : Prop) (s : str) (ps : pos) (o : outcome) : Prop :=
  match o with
  | Accept _ rem q => exists w, s = w ++ rem /\ q = adv ps w
  | Reject _ q => E -> exists w, prefix w s /\ q = adv ps w
  | _ => True
  end.

Definition good (E : Prop) (p : pfun) : Prop := forall s ps, gout E s ps (p s ps).

Lemma gout_sbm : forall E s ps a b, same_but_message a b -> gout E s ps b -> gout E s ps a.
Proof.
  intros E s ps a b H G. destruct a, b; simpl in H; try discriminate; try congruence; auto.
  subst. exact G.
Qed.

Lemma gout_either : forall E s ps a b, either a b -> gout E s ps b -> gout E s ps a.
Proof. intros E s ps a b [-> | H] G; [exact I|]. eapply gout_sbm; eauto. Qed.

Lemma gout_trans : forall E w s1 ps o, gout E s1 (adv ps w) o -> gout E (w ++ s1) ps o.
Proof.
  intros E w s1 ps o H. destruct o; simpl in *; auto.
  - destruct H as (w2 & -> & ->). exists (w ++ w2). rewrite app_assoc, adv_app. auto.
  - intros HE. destruct (H HE) as (w2 & [t ->] & ->). exists (w ++ w2).
    rewrite adv_app. split; auto. exists t. rewrite app_assoc; auto.
Qed.

Lemma gout_reject_here : forall E s ps m, gout E s ps (Reject m ps).
Proof. intros E s ps m _. exists []. split; auto. exists s; auto. Qed.

Lemma gout_accept_here : forall E s ps r, gout E s ps (Accept r s ps).
Proof. intros E s ps r. exists []. auto. Qed.

#[export] Hint Resolve gout_reject_here gout_accept_here : gout.

(** Use the hypothesis on a parser at a place and look at its outcome. *)
Ltac gstep H s ps :=
  let G := fresh "G" in
  pose proof (H s ps) as G; unfold gout in G;
  match type of G with context [match ?o with _ => _ end] => destruct o eqn:?; simpl in G end;
  try exact I; auto with gout.

Lemma good_return : forall E v, good E (return_ v).
Proof. intros E v s ps. unfold return_. auto with gout. Qed.

Lemma good_fail : forall E m, good E (fail m).
Proof. intros E m s ps. unfold fail. auto with gout. Qed.

Lemma good_one_char : forall E, good E one_char.
Proof.
  intros E [|c s] ps; unfold one_char; auto with gout. exists [c]. auto.
Qed.

Lemma good_empty : forall E r, good E (empty r).
Proof. intros E r [|c s] ps; unfold empty; auto with gout. Qed.

Lemma good_accept_when : forall E p pr m, good E p -> good E (accept_when p pr m).
Proof.
  intros E p pr m H s ps. unfold accept_when. gstep H s ps.
  destruct (pr r) as [[|]|]; auto with gout. exact I.
Qed.

Lemma good_change_error_message : forall E p m, good E p -> good E (change_error_message p m).
Proof. intros E p m H s ps. unfold change_error_message. gstep H s ps. Qed.

Lemma good_transform : forall E p f, good E p -> good E (transform p f).
Proof.
  intros E p f H s ps. unfold transform. gstep H s ps.
  destruct (f r); auto. exact I.
Qed.

Lemma good_transform_error : forall E p f, good E p -> keeps_errors f ->
  (E -> keeps_positions f) -> good E (transform_error p f).
Proof.
  intros E p f H K P s ps. unfold transform_error. gstep H s ps.
  destruct (f m p0) as [r rem q | m' q | | ] eqn:F; try exact I.
  - destruct (K _ _ _ _ _ F).
  - intros HE. rewrite (P HE _ _ _ _ F). auto.
Qed.

Lemma good_transform_error_message : forall E p f, good E p -> good E (transform_error_message p f).
Proof.
  intros E p f H s ps. unfold transform_error_message. gstep H s ps.
  destruct (f m); auto. exact I.
Qed.

Lemma good_always : forall E p v, good E p -> good E (always p v).
Proof. intros E p v H s ps. unfold always. gstep H s ps. Qed.

Lemma good_look_ahead : forall E p, good E p -> good E (look_ahead p).
Proof. intros E p H s ps. unfold look_ahead. gstep H s ps. Qed.

Lemma good_optional : forall E p v, good E p -> good E (optional p v).
Proof. intros E p v H s ps. unfold optional. gstep H s ps. Qed.

Lemma good_except : forall E p v m, good E p -> good E (except p v m).
Proof. intros E p v m H s ps. unfold except. gstep H s ps. Qed.

Lemma good_if : forall E p t f, good E p -> good E (if_ p t f).
Proof. intros E p t f H s ps. unfold if_. gstep H s ps. Qed.

Lemma good_fafce : forall E p, good E p -> good E (fail_at_first_char_expected p).
Proof.
  intros E p H s ps. unfold fail_at_first_char_expected. gstep H s ps.
  destruct (pos_equal_to ps p0); auto with gout.
Qed.

Lemma good_lit_c : forall E c, good E (lit_c c).
Proof. intros. apply good_accept_when, good_change_error_message, good_one_char. Qed.

(** Continue after an acceptance. *)
Ltac gcont :=
  match goal with
  | G : exists _, _ /\ _ |- _ =>
      let wd := fresh "wd" in destruct G as (wd & -> & ->); apply gout_trans
  end.

Lemma good_keyword : forall E kw r, good E (keyword kw r).
Proof.
  induction kw as [|c kw IH]; intros r s ps; cbn [keyword].
  - apply good_return.
  - gstep (good_lit_c E c) s ps. gcont. apply IH.
Qed.

Lemma good_foldl : forall E p f, good E p -> forall n st, good E (foldl n p st f).
Proof.
  intros E p f H. induction n; intros st s ps; cbn [foldl]; [exact I|].
  gstep H s ps.
  - destruct st; [|exact I]. gcont. apply IHn.
  - destruct st; auto with gout. exact I.
Qed.

Lemma good_foldl1 : forall E p f n st, good E p -> good E (foldl1 n p st f).
Proof.
  intros E p f n st H s ps. unfold foldl1. gstep H s ps. apply good_foldl; auto.
Qed.

Lemma good_foldl_ri : forall E p f, good E p -> forall n st,
  good E (foldl_reject_incomplete n p st f).
Proof.
  intros E p f H. induction n; intros st s ps; cbn [foldl_reject_incomplete]; [exact I|].
  gstep H s ps.
  - destruct st; [|exact I]. gcont. apply IHn.
  - destruct (pos_equal_to ps p0); auto. destruct st; auto with gout. exact I.
Qed.

Lemma good_foldl_ri1 : forall E p f n st, good E p -> good E (foldl_reject_incomplete1 n p st f).
Proof.
  intros E p f n st H s ps. unfold foldl_reject_incomplete1. gstep H s ps.
  apply good_foldl_ri; auto.
Qed.

Lemma good_foldl_swp : forall E p sp f n, good E p -> good E sp ->
  good E (foldl_start_with_parser n p sp f).
Proof.
  intros E p sp f n H H2 s ps. unfold foldl_start_with_parser. gstep H2 s ps.
  gcont. apply good_foldl; auto.
Qed.

Lemma good_foldl_ri_swp : forall E p sp f n, good E p -> good E sp ->
  good E (foldl_reject_incomplete_start_with_parser n p sp f).
Proof.
  intros E p sp f n H H2 s ps. unfold foldl_reject_incomplete_start_with_parser.
  gstep H2 s ps. gcont. apply good_foldl_ri; auto.
Qed.

Lemma good_foldr_swp : forall E p sp f, good E p -> good E sp ->
  forall n, good E (foldr_start_with_parser n p sp f).
Proof.
  intros E p sp f H H2. induction n; intros s ps; cbn [foldr_start_with_parser]; [exact I|].
  gstep H s ps. gcont.
  gstep IHn rem (adv ps wd). destruct (f r0 r); auto. exact I.
Qed.

Lemma good_foldr : forall E p st f n, good E p -> good E (foldr n p st f).
Proof. intros. apply good_foldr_swp; auto. apply good_return. Qed.

Lemma good_foldr1 : forall E p st f n, good E p -> good E (foldr1 n p st f).
Proof.
  intros E p st f n H s ps. unfold foldr1. gstep H s ps. apply good_foldr; auto.
Qed.

Lemma good_iterate_impl : forall E p, good E p -> forall n k acc, good E (iterate_impl n k p acc).
Proof.
  intros E p H. induction n; intros k acc s ps; cbn [iterate_impl]; [exact I|].
  destruct (k =? 0); [apply good_return|].
  gstep H s ps. destruct (push_back acc r); [|exact I]. gcont. apply IHn.
Qed.

Lemma good_iterate : forall E p n k, good E p -> good E (iterate_c n p k).
Proof. intros. apply good_iterate_impl; auto. Qed.

Lemma good_one_of_11 : forall E l, Forall (good E) l -> good E (one_of_11 l).
Proof.
  induction l as [|p l IH]; intros F s ps; cbn [one_of_11].
  - apply good_fail.
  - inversion F; subst. specialize (IH H2).
    gstep H1 s ps; gstep IH s ps.
    unfold later_result. destruct (pos_less p1 p0); auto.
Qed.

Lemma good_one_of : forall E cfg l, Forall (good E) l -> good E (one_of cfg l).
Proof.
  intros E cfg l F s ps. eapply gout_either; [apply one_of_either|]. apply good_one_of_11; auto.
Qed.

Lemma good_sequence_11 : forall E l, Forall (good E) l -> good E (sequence_11 l).
Proof.
  induction l as [|p l IH]; intros F s ps; cbn [sequence_11].
  - apply good_return.
  - inversion F; subst. gstep H1 s ps. gcont. apply good_transform. auto.
Qed.

Lemma good_sequence : forall E cfg l, Forall (good E) l -> good E (sequence cfg l).
Proof.
  intros E cfg l F s ps. eapply gout_either; [apply sequence_either|].
  apply good_sequence_11; auto.
Qed.

Lemma good_sequence_apply : forall E cfg t l, Forall (good E) l -> good E (sequence_apply cfg t l).
Proof.
  intros E cfg t l F s ps. unfold sequence_apply. destruct (_ && _)%bool; [|exact I].
  apply good_transform, good_sequence; auto.
Qed.

Lemma good_skip_remaining : forall E l r, Forall (good E) l -> good E (nth_of_c_skip_remaining r l).
Proof.
  induction l as [|p l IH]; intros r F s ps; cbn [nth_of_c_skip_remaining].
  - apply good_return.
  - inversion F; subst. gstep H1 s ps. gcont. apply IH; auto.
Qed.

Lemma good_nth_of_c_11_impl : forall E l k, Forall (good E) l -> good E (nth_of_c_11_impl k l).
Proof.
  induction l as [|p l IH]; intros k F s ps; cbn [nth_of_c_11_impl]; [exact I|].
  inversion F; subst. gstep H1 s ps. gcont. destruct (k =? 0).
  - apply good_skip_remaining; auto.
  - apply IH; auto.
Qed.

Lemma good_nth_of_c_11 : forall E l k, Forall (good E) l -> good E (nth_of_c_11 k l).
Proof.
  intros E l k F s ps. unfold nth_of_c_11. destruct l; [apply good_fail|].
  destruct (_ && _); [apply good_nth_of_c_11_impl; auto|apply good_fail].
Qed.

Lemma good_nth_of : forall E cfg k l, Forall (good E) l -> good E (nth_of_c cfg k l).
Proof.
  intros E cfg k l F s ps. eapply gout_either; [apply nth_of_either|].
  apply good_nth_of_c_11; auto.
Qed.

Lemma good_first_of : forall E cfg l, Forall (good E) l -> good E (first_of cfg l).
Proof.
  intros E cfg l F s ps. eapply gout_either; [apply first_of_either|].
  destruct l; [apply good_fail|]. apply good_nth_of_c_11_impl; auto.
Qed.

Lemma good_last_of : forall E cfg l, Forall (good E) l -> good E (last_of cfg l).
Proof.
  intros E cfg l F s ps. eapply gout_either; [apply last_of_either|].
  destruct l; [apply good_fail|]. apply good_nth_of_c_11_impl; auto.
Qed.

Lemma good_class : forall E P m1 m2 p, char_class_parser P m1 m2 p ->
  (forall c, {P c} + {~ P c}) -> good E p.
Proof.
  intros E P m1 m2 p (A & B & C) D [|c s] ps.
  - rewrite C. auto with gout.
  - destruct (D c).
    + rewrite (A c s ps (next_pos c ps)); auto; [|apply walk1; auto]. exists [c]; auto.
    + rewrite B by auto. auto with gout.
Qed.

Lemma in_dec_char : forall (cs : list char) c, {In c cs} + {~ In c cs}.
Proof. intros. apply in_dec. apply Z.eq_dec. Qed.

Lemma not_in_dec_char : forall (cs : list char) c, {~ In c cs} + {~ ~ In c cs}.
Proof. intros. destruct (in_dec_char cs c); [right|left]; tauto. Qed.

Lemma one_of_c_98_unfit : forall lim cs s ps, ~ (length cs < lim)%nat ->
  one_of_c_98 lim cs s ps = Illformed.
Proof.
  intros. unfold one_of_c_98. replace (Nat.ltb _ _) with false; auto.
  symmetry. apply Nat.ltb_ge. lia.
Qed.

Lemma good_one_of_c : forall E cfg cs, good E (one_of_c cfg cs).
Proof.
  intros E cfg cs s ps.
  assert (G : fits_one_of_c cfg (length cs) -> gout E s ps (one_of_c cfg cs s ps)).
  { intros F. eapply good_class; [apply one_of_c_class; auto | apply in_dec_char]. }
  destruct (cfg_std cfg) eqn:S; try (apply G; unfold fits_one_of_c; congruence).
  destruct (lt_dec (length cs) (limit_one_of cfg)).
  - apply G. intros _; auto.
  - unfold one_of_c. rewrite S. rewrite one_of_c_98_unfit by auto. exact I.
Qed.

Lemma one_char_except_c_98_unfit : forall lim cs s ps, ~ (length cs < lim)%nat ->
  one_char_except_c_98 lim cs s ps = Illformed.
Proof.
  intros. unfold one_char_except_c_98. replace (Nat.ltb _ _) with false; auto.
  symmetry. apply Nat.ltb_ge. lia.
Qed.

Lemma good_one_char_except_c : forall E cfg cs, good E (one_char_except_c cfg cs).
Proof.
  intros E cfg cs s ps.
  assert (G : fits_one_char_except cfg (length cs) -> gout E s ps (one_char_except_c cfg cs s ps)).
  { intros F. eapply good_class; [apply one_char_except_c_class; auto | apply not_in_dec_char]. }
  destruct (cfg_std cfg) eqn:S; try (apply G; unfold fits_one_char_except; congruence).
  destruct (lt_dec (length cs) (limit_one_char_except cfg)).
  - apply G. intros _; auto.
  - unfold one_char_except_c. rewrite S. rewrite one_char_except_c_98_unfit by auto. exact I.
Qed.

Lemma good_middle_of : forall E cfg p1 p2 p3, good E p1 -> good E p2 -> good E p3 ->
  good E (middle_of cfg p1 p2 p3).
Proof.
  intros E cfg p1 p2 p3 H1 H2 H3 s ps. unfold middle_of. apply good_nth_of.
  repeat constructor; auto. apply good_transform_error_message; auto.
Qed.

Lemma good_entire_input : forall E cfg p m, good E p -> good E (entire_input cfg p m).
Proof.
  intros E cfg p m H. destruct m; simpl; apply good_first_of;
    repeat constructor; auto; try apply good_change_error_message; apply good_empty.
Qed.

Lemma good_foldr_ri : forall E cfg n p st f, good E p -> good E (foldr_reject_incomplete cfg n p st f).
Proof.
  intros. apply good_foldr_swp; auto. apply good_first_of. repeat constructor.
  - apply good_return.
  - apply good_fafce; auto.
Qed.

Lemma good_foldr_ri1 : forall E cfg n p st f, good E p -> good E (foldr_reject_incomplete1 cfg n p st f).
Proof.
  intros E cfg n p st f H s ps. unfold foldr_reject_incomplete1. gstep H s ps.
  apply good_foldr_ri; auto.
Qed.

(** *** The induction *)

Definition good_native (E : Prop) (e : pexpr) : Prop :=
  natives (good E) (fun f => keeps_errors f /\ (E -> keeps_positions f)) e.

Lemma Forall_map_in : forall (A B : Type) (P : B -> Prop) (f : A -> B) l,
  (forall x, In x l -> P (f x)) -> Forall P (map f l).
Proof. intros. apply Forall_forall. intros y Hy. apply in_map_iff in Hy as (x & <- & Hx). auto. Qed.

Lemma eval_good : forall E cfg env, program_every (good_native E) env ->
  forall n e, every (good_native E) e -> good E (eval cfg env n e).
Proof.
  intros E cfg env HE n. induction n as [n IHn] using lt_wf_ind.
  intros e. induction e as [e IH] using pexpr_children_ind. intros Hev.
  assert (HC : forall c, In c (children e) -> good E (eval cfg env n c)).
  { intros c Hc. apply IH; auto. eapply every_child; eauto. }
  apply every_here in Hev. clear IH.
  assert (HL : forall l, children e = l -> Forall (good E) (map (eval cfg env n) l)).
  { intros l <-. apply Forall_map_in. auto. }
  destruct e; simpl in HC, Hev; destruct n as [|n'];
    try (assert (X := HC _ (or_introl eq_refl)));
    try (assert (Y := HC _ (or_intror (or_introl eq_refl))));
    try (assert (Z := HC _ (or_intror (or_intror (or_introl eq_refl)))));
    try specialize (HL _ eq_refl);
    cbn [eval].
  all: try assumption.
  all: try solve [ apply good_return | apply good_fail | apply good_one_char | apply good_empty
    | apply good_accept_when; assumption | apply good_change_error_message; assumption
    | apply good_transform; assumption
    | apply good_transform_error; tauto
    | apply good_transform_error_message; assumption
    | apply good_always; assumption | apply good_look_ahead; assumption
    | apply good_optional; assumption | apply good_except; assumption
    | apply good_if; assumption | apply good_fafce; assumption
    | apply good_keyword
    | apply good_foldl; assumption | apply good_foldl1; assumption
    | apply good_foldl_ri; assumption | apply good_foldl_ri1; assumption
    | apply good_foldl_swp; assumption | apply good_foldl_ri_swp; assumption
    | apply good_foldr_swp; assumption | apply good_foldr; assumption
    | apply good_foldr1; assumption | apply good_foldr_ri; assumption
    | apply good_foldr_ri1; assumption | apply good_iterate; assumption
    | apply good_one_of; assumption | apply good_sequence; assumption
    | apply good_sequence_apply; assumption | apply good_nth_of; assumption
    | apply good_first_of; assumption | apply good_last_of; assumption
    | apply good_one_of_c | apply good_one_char_except_c
    | apply good_middle_of; assumption | apply good_entire_input; assumption ].
  - intros s ps. exact I.
  - apply IHn; auto.
Qed.

(** ** Fuel *)

Definition ap (a b : outcome) : Prop := a = OutOfFuel \/ a = b.
Definition apx (p q : pfun) : Prop := forall s ps, ap (p s ps) (q s ps).

Lemma ap_refl : forall a, ap a a.
Proof. right; auto. Qed.
#[export] Hint Resolve ap_refl : apx.

Lemma apx_refl : forall p, apx p p.
Proof. intros p s ps; auto with apx. Qed.

Ltac astep H s ps :=
  let E := fresh "E" in
  destruct (H s ps) as [E | E]; rewrite E; [left; reflexivity|];
  match goal with |- context [match ?q s ps with _ => _ end] => destruct (q s ps) end;
  auto with apx.

Lemma apx_accept_when : forall p q pr m, apx p q -> apx (accept_when p pr m) (accept_when q pr m).
Proof. intros p q pr m H s ps. unfold accept_when. astep H s ps. Qed.
Lemma apx_change_error_message : forall p q m, apx p q ->
  apx (change_error_message p m) (change_error_message q m).
Proof. intros p q m H s ps. unfold change_error_message. astep H s ps. Qed.
Lemma apx_transform : forall p q f, apx p q -> apx (transform p f) (transform q f).
Proof. intros p q f H s ps. unfold transform. astep H s ps. Qed.
Lemma apx_transform_error : forall p q f, apx p q -> apx (transform_error p f) (transform_error q f).
Proof. intros p q f H s ps. unfold transform_error. astep H s ps. Qed.
Lemma apx_transform_error_message : forall p q f, apx p q ->
  apx (transform_error_message p f) (transform_error_message q f).
Proof. intros p q f H s ps. unfold transform_error_message. astep H s ps. Qed.
Lemma apx_always : forall p q v, apx p q -> apx (always p v) (always q v).
Proof. intros p q v H s ps. unfold always. astep H s ps. Qed.
Lemma apx_look_ahead : forall p q, apx p q -> apx (look_ahead p) (look_ahead q).
Proof. intros p q H s ps. unfold look_ahead. astep H s ps. Qed.
Lemma apx_optional : forall p q v, apx p q -> apx (optional p v) (optional q v).
Proof. intros p q v H s ps. unfold optional. astep H s ps. Qed.
Lemma apx_except : forall p q v m, apx p q -> apx (except p v m) (except q v m).
Proof. intros p q v m H s ps. unfold except. astep H s ps. Qed.
Lemma apx_if : forall p q t f, apx p q -> apx (if_ p t f) (if_ q t f).
Proof. intros p q t f H s ps. unfold if_. astep H s ps. Qed.
Lemma apx_fafce : forall p q, apx p q ->
  apx (fail_at_first_char_expected p) (fail_at_first_char_expected q).
Proof. intros p q H s ps. unfold fail_at_first_char_expected. astep H s ps. Qed.

Lemma apx_foldl : forall p q f, apx p q -> forall n n' st, (n <= n')%nat ->
  apx (foldl n p st f) (foldl n' q st f).
Proof.
  intros p q f H. induction n; intros n' st L s ps; [left; auto|].
  destruct n' as [|n']; [lia|]. cbn [foldl]. astep H s ps.
  destruct st; auto with apx. apply IHn; lia.
Qed.
Lemma apx_foldl1 : forall p q f n n' st, apx p q -> (n <= n')%nat ->
  apx (foldl1 n p st f) (foldl1 n' q st f).
Proof.
  intros p q f n n' st H L s ps. unfold foldl1. astep H s ps. apply apx_foldl; auto.
Qed.
Lemma apx_foldl_ri : forall p q f, apx p q -> forall n n' st, (n <= n')%nat ->
  apx (foldl_reject_incomplete n p st f) (foldl_reject_incomplete n' q st f).
Proof.
  intros p q f H. induction n; intros n' st L s ps; [left; auto|].
  destruct n' as [|n']; [lia|]. cbn [foldl_reject_incomplete]. astep H s ps.
  destruct st; auto with apx. apply IHn; lia.
Qed.
Lemma apx_foldl_ri1 : forall p q f n n' st, apx p q -> (n <= n')%nat ->
  apx (foldl_reject_incomplete1 n p st f) (foldl_reject_incomplete1 n' q st f).
Proof.
  intros p q f n n' st H L s ps. unfold foldl_reject_incomplete1. astep H s ps.
  apply apx_foldl_ri; auto.
Qed.
Lemma apx_foldl_swp : forall p q sp sq f n n', apx p q -> apx sp sq -> (n <= n')%nat ->
  apx (foldl_start_with_parser n p sp f) (foldl_start_with_parser n' q sq f).
Proof.
  intros p q sp sq f n n' H H2 L s ps. unfold foldl_start_with_parser. astep H2 s ps.
  apply apx_foldl; auto.
Qed.
Lemma apx_foldl_ri_swp : forall p q sp sq f n n', apx p q -> apx sp sq -> (n <= n')%nat ->
  apx (foldl_reject_incomplete_start_with_parser n p sp f)
      (foldl_reject_incomplete_start_with_parser n' q sq f).
Proof.
  intros p q sp sq f n n' H H2 L s ps. unfold foldl_reject_incomplete_start_with_parser.
  astep H2 s ps. apply apx_foldl_ri; auto.
Qed.
Lemma apx_foldr_swp : forall p q sp sq f, apx p q -> apx sp sq -> forall n n', (n <= n')%nat ->
  apx (foldr_start_with_parser n p sp f) (foldr_start_with_parser n' q sq f).
Proof.
  intros p q sp sq f H H2. induction n; intros n' L s ps; [left; auto|].
  destruct n' as [|n']; [lia|]. cbn [foldr_start_with_parser]. astep H s ps.
  astep (IHn n' ltac:(lia)) rem p0.
Qed.
Lemma apx_foldr : forall p q st f n n', apx p q -> (n <= n')%nat ->
  apx (foldr n p st f) (foldr n' q st f).
Proof. intros. apply apx_foldr_swp; auto using apx_refl. Qed.
Lemma apx_foldr1 : forall p q st f n n', apx p q -> (n <= n')%nat ->
  apx (foldr1 n p st f) (foldr1 n' q st f).
Proof.
  intros p q st f n n' H L s ps. unfold foldr1. astep H s ps. apply apx_foldr; auto.
Qed.
Lemma apx_iterate_impl : forall p q, apx p q -> forall n n' k acc, (n <= n')%nat ->
  apx (iterate_impl n k p acc) (iterate_impl n' k q acc).
Proof.
  intros p q H. induction n; intros n' k acc L s ps; [left; auto|].
  destruct n' as [|n']; [lia|]. cbn [iterate_impl].
  destruct (k =? 0); auto with apx. astep H s ps.
  destruct (push_back acc r); auto with apx. apply IHn; lia.
Qed.
Lemma apx_iterate : forall p q n n' k, apx p q -> (n <= n')%nat ->
  apx (iterate_c n p k) (iterate_c n' q k).
Proof. intros. apply apx_iterate_impl; auto. Qed.

Lemma apx_one_of_11 : forall l l', Forall2 apx l l' -> apx (one_of_11 l) (one_of_11 l').
Proof.
  induction 1 as [|p q l l' H F IH]; intros s ps; cbn [one_of_11]; auto with apx.
  astep H s ps; astep IH s ps.
Qed.
Lemma apx_fwd_op : forall l l' s ps, Forall2 apx l l' -> forall o o', ap o o' ->
  ap (fold_left (one_of_fwd_op s ps) l o) (fold_left (one_of_fwd_op s ps) l' o').
Proof.
  induction 1 as [|p q l l' H F IH]; intros o o' A; cbn [fold_left]; auto.
  apply IH. destruct A as [-> | ->]; [left; auto|].
  unfold one_of_fwd_op. destruct o'; auto with apx; astep H s ps.
Qed.
Lemma Forall2_length : forall (A B : Type) (R : A -> B -> Prop) l l',
  Forall2 R l l' -> length l = length l'.
Proof. induction 1; simpl; auto. Qed.
Lemma apx_one_of : forall cfg l l', Forall2 apx l l' -> apx (one_of cfg l) (one_of cfg l').
Proof.
  intros cfg l l' F s ps. unfold one_of.
  destruct (cfg_std cfg); try (apply apx_one_of_11; auto).
  unfold one_of_98. rewrite (Forall2_length _ _ _ _ _ F).
  destruct (Nat.leb _ _); auto with apx. apply apx_fwd_op; auto with apx.
Qed.
Lemma apx_sequence_11 : forall l l', Forall2 apx l l' -> apx (sequence_11 l) (sequence_11 l').
Proof.
  induction 1 as [|p q l l' H F IH]; intros s ps; cbn [sequence_11]; auto with apx.
  astep H s ps. apply apx_transform; auto.
Qed.
Lemma apx_sequence : forall cfg l l', Forall2 apx l l' -> apx (sequence cfg l) (sequence cfg l').
Proof.
  intros cfg l l' F s ps. unfold sequence.
  destruct (cfg_std cfg); try (apply apx_sequence_11; auto).
  unfold sequence_98. rewrite (Forall2_length _ _ _ _ _ F).
  destruct (_ && _)%bool; auto with apx. rewrite !sequence_impl_11. apply apx_sequence_11; auto.
Qed.
Lemma apx_sequence_apply : forall cfg t l l', Forall2 apx l l' ->
  apx (sequence_apply cfg t l) (sequence_apply cfg t l').
Proof.
  intros cfg t l l' F s ps. unfold sequence_apply. rewrite (Forall2_length _ _ _ _ _ F).
  destruct (_ && _)%bool; auto with apx. apply apx_transform, apx_sequence; auto.
Qed.
Lemma apx_skip_remaining : forall r l l', Forall2 apx l l' ->
  apx (nth_of_c_skip_remaining r l) (nth_of_c_skip_remaining r l').
Proof.
  induction 1 as [|p q l l' H F IH]; intros s ps; cbn [nth_of_c_skip_remaining]; auto with apx.
  astep H s ps.
Qed.
Lemma apx_nth_of_impl : forall l l', Forall2 apx l l' -> forall k,
  apx (nth_of_c_11_impl k l) (nth_of_c_11_impl k l').
Proof.
  induction 1 as [|p q l l' H F IH]; intros k s ps; cbn [nth_of_c_11_impl]; auto with apx.
  astep H s ps. destruct (k =? 0); [apply apx_skip_remaining; auto|apply IH].
Qed.
Lemma apx_nth_of_11 : forall l l' k, Forall2 apx l l' ->
  apx (nth_of_c_11 k l) (nth_of_c_11 k l').
Proof.
  intros l l' k F s ps. unfold nth_of_c_11. rewrite (Forall2_length _ _ _ _ _ F).
  pose proof (apx_nth_of_impl _ _ F k s ps) as X.
  inversion F; subst; auto with apx. destruct (_ && _); auto with apx.
Qed.
Lemma apx_nth_of : forall cfg k l l', Forall2 apx l l' ->
  apx (nth_of_c cfg k l) (nth_of_c cfg k l').
Proof.
  intros cfg k l l' F s ps. unfold nth_of_c.
  destruct (cfg_std cfg); try (apply apx_nth_of_11; auto).
  unfold nth_of_c_98. rewrite (Forall2_length _ _ _ _ _ F).
  destruct (Nat.ltb _ _); auto with apx. rewrite !nth_of_cN_11. apply apx_nth_of_11; auto.
Qed.
Lemma apx_first_of : forall cfg l l', Forall2 apx l l' -> apx (first_of cfg l) (first_of cfg l').
Proof.
  intros cfg l l' F s ps. pose proof (apx_nth_of cfg 0 l l' F s ps) as X.
  unfold first_of, first_of_98, nth_of_c in *.
  pose proof (apx_nth_of_impl _ _ F 0 s ps) as Y.
  destruct (cfg_std cfg); auto; inversion F; subst; simpl; auto with apx.
Qed.
Lemma apx_last_of : forall cfg l l', Forall2 apx l l' -> apx (last_of cfg l) (last_of cfg l').
Proof.
  intros cfg l l' F s ps. unfold last_of.
  pose proof (apx_nth_of_impl _ _ F (Z.of_nat (length l) - 1) s ps) as Y.
  pose proof (apx_nth_of_11 _ _ (Z.of_nat (length l) - 1) F s ps) as X.
  rewrite (Forall2_length _ _ _ _ _ F) in X, Y.
  destruct (cfg_std cfg).
  - unfold last_of_98. rewrite (Forall2_length _ _ _ _ _ F).
    destruct (Nat.ltb _ _); auto with apx. rewrite !nth_of_cN_11. auto.
  - inversion F; subst; auto with apx. unfold last_of_11.
    rewrite (Forall2_length _ _ _ _ _ F). auto.
  - inversion F; subst; auto with apx. unfold last_of_11.
    rewrite (Forall2_length _ _ _ _ _ F). auto.
Qed.
Ltac f2 := repeat first [apply Forall2_nil | apply Forall2_cons].
Lemma apx_middle_of : forall cfg p1 p2 p3 q1 q2 q3, apx p1 q1 -> apx p2 q2 -> apx p3 q3 ->
  apx (middle_of cfg p1 p2 p3) (middle_of cfg q1 q2 q3).
Proof.
  intros cfg p1 p2 p3 q1 q2 q3 H1 H2 H3 s ps. unfold middle_of.
  apply apx_nth_of. f2; auto. apply apx_transform_error_message; auto.
Qed.
Lemma apx_entire_input : forall cfg p q m, apx p q ->
  apx (entire_input cfg p m) (entire_input cfg q m).
Proof.
  intros cfg p q m H. destruct m; simpl; apply apx_first_of; f2; auto using apx_refl.
Qed.
Lemma apx_foldr_ri : forall cfg n n' p q st f, apx p q -> (n <= n')%nat ->
  apx (foldr_reject_incomplete cfg n p st f) (foldr_reject_incomplete cfg n' q st f).
Proof.
  intros. apply apx_foldr_swp; auto. apply apx_first_of. f2; auto using apx_refl.
  apply apx_fafce; auto.
Qed.
Lemma apx_foldr_ri1 : forall cfg n n' p q st f, apx p q -> (n <= n')%nat ->
  apx (foldr_reject_incomplete1 cfg n p st f) (foldr_reject_incomplete1 cfg n' q st f).
Proof.
  intros cfg n n' p q st f H L s ps. unfold foldr_reject_incomplete1. astep H s ps.
  apply apx_foldr_ri; auto.
Qed.

Lemma Forall2_map_in : forall (A B : Type) (R : B -> B -> Prop) (f g : A -> B) l,
  (forall x, In x l -> R (f x) (g x)) -> Forall2 R (map f l) (map g l).
Proof.
  induction l; intros H; simpl; constructor.
  - apply H; left; auto.
  - apply IHl. intros; apply H; right; auto.
Qed.

Lemma eval_apx : forall cfg env n n' e, (n <= n')%nat ->
  apx (eval cfg env n e) (eval cfg env n' e).
Proof.
  intros cfg env n. induction n as [n IHn] using lt_wf_ind.
  intros n' e L. induction e as [e IH] using pexpr_children_ind.
  assert (HL : forall l, children e = l ->
    Forall2 apx (map (eval cfg env n) l) (map (eval cfg env n') l)).
  { intros l <-. apply Forall2_map_in. auto. }
  destruct e; simpl in IH;
    try (assert (X := IH _ (or_introl eq_refl)));
    try (assert (Y := IH _ (or_intror (or_introl eq_refl))));
    try (assert (Z := IH _ (or_intror (or_intror (or_introl eq_refl)))));
    try specialize (HL _ eq_refl).
  all: destruct n as [|n]; destruct n' as [|n']; try lia; cbn [eval].
  all: try (apply apx_refl).
  all: try solve [ assumption
    | apply apx_accept_when; assumption | apply apx_change_error_message; assumption
    | apply apx_transform; assumption
    | apply apx_transform_error; assumption
    | apply apx_transform_error_message; assumption
    | apply apx_always; assumption | apply apx_look_ahead; assumption
    | apply apx_optional; assumption | apply apx_except; assumption
    | apply apx_if; assumption | apply apx_fafce; assumption
    | apply apx_foldl; assumption | apply apx_foldl1; assumption
    | apply apx_foldl_ri; assumption | apply apx_foldl_ri1; assumption
    | apply apx_foldl_swp; assumption | apply apx_foldl_ri_swp; assumption
    | apply apx_foldr_swp; assumption | apply apx_foldr; assumption
    | apply apx_foldr1; assumption | apply apx_foldr_ri; assumption
    | apply apx_foldr_ri1; assumption | apply apx_iterate; assumption
    | apply apx_one_of; assumption | apply apx_sequence; assumption
    | apply apx_sequence_apply; assumption | apply apx_nth_of; assumption
    | apply apx_first_of; assumption | apply apx_last_of; assumption
    | apply apx_middle_of; assumption | apply apx_entire_input; assumption ].
  - intros s ps; left; auto.
  - apply IHn; lia.
Qed.
