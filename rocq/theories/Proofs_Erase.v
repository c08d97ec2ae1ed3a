(** Two evaluations of an expression with different messages. *)

From Coq Require Import ZArith List Bool Lia.
From Verif Require Import Base Util Combinators Variadic Parsers Deep Spec SpecDeep SpecErase
  Proofs_Pos Proofs_Fold Proofs_Variadic Proofs_Parsers Proofs_Deep Proofs_Rel.
Import ListNotations.
Open Scope Z_scope.

Notation mrel := same_parser_but_message.

Lemma sbm_trans : forall a b c, same_but_message a b -> same_but_message b c ->
  same_but_message a c.
Proof. destruct a, b, c; simpl; congruence. Qed.

Lemma mrel_refl : forall p, mrel p p.
Proof. intros p s ps. apply same_but_message_refl. Qed.
Lemma mrel_sym : forall p q, mrel p q -> mrel q p.
Proof. intros p q H s ps. apply sbm_sym, H. Qed.
Lemma mrel_trans : forall p q r, mrel p q -> mrel q r -> mrel p r.
Proof. intros p q r H K s ps. eapply sbm_trans; [apply H|apply K]. Qed.

(** Look at the two outcomes at a place. *)
Ltac mstep H s ps :=
  let G := fresh "G" in
  pose proof (H s ps) as G;
  match type of G with same_but_message ?a ?b => destruct a eqn:?, b eqn:? end;
  simpl in G;
  try discriminate G; try injection G as ? ? ?; subst; simpl; auto.

Lemma mrel_fail : forall m m', mrel (fail m) (fail m').
Proof. intros m m' s ps. simpl. reflexivity. Qed.
Lemma mrel_accept_when : forall p q pr m m', mrel p q ->
  mrel (accept_when p pr m) (accept_when q pr m').
Proof.
  intros p q pr m m' H s ps. unfold accept_when. mstep H s ps.
  destruct (pr _) as [[|]|]; simpl; auto.
Qed.
Lemma mrel_change_error_message : forall p q m m', mrel p q ->
  mrel (change_error_message p m) (change_error_message q m').
Proof. intros p q m m' H s ps. unfold change_error_message. mstep H s ps. Qed.
Lemma mrel_transform_error_message : forall p q f, mrel p q -> (forall m, f m <> None) ->
  mrel (transform_error_message p f) q.
Proof.
  intros p q f H F s ps. unfold transform_error_message. mstep H s ps.
  specialize (F m). destruct (f m); [reflexivity|congruence].
Qed.
Lemma mrel_transform : forall p q f, mrel p q -> mrel (transform p f) (transform q f).
Proof.
  intros p q f H s ps. unfold transform. mstep H s ps. destruct (f _); reflexivity.
Qed.
Lemma mrel_transform_error : forall p q f, mrel p q -> ignores_message f ->
  mrel (transform_error p f) (transform_error q f).
Proof.
  intros p q f H F s ps. unfold transform_error. mstep H s ps.
Qed.
Lemma mrel_always : forall p q v, mrel p q -> mrel (always p v) (always q v).
Proof. intros p q v H s ps. unfold always. mstep H s ps. Qed.
Lemma mrel_look_ahead : forall p q, mrel p q -> mrel (look_ahead p) (look_ahead q).
Proof. intros p q H s ps. unfold look_ahead. mstep H s ps. Qed.
Lemma mrel_optional : forall p q v, mrel p q -> mrel (optional p v) (optional q v).
Proof. intros p q v H s ps. unfold optional. mstep H s ps. Qed.
Lemma mrel_except : forall p q v m m', mrel p q -> mrel (except p v m) (except q v m').
Proof. intros p q v m m' H s ps. unfold except. mstep H s ps. Qed.
Lemma mrel_if : forall p q t f, mrel p q -> mrel (if_ p t f) (if_ q t f).
Proof. intros p q t f H s ps. unfold if_. mstep H s ps. Qed.
Lemma mrel_fafce : forall p q, mrel p q ->
  mrel (fail_at_first_char_expected p) (fail_at_first_char_expected q).
Proof.
  intros p q H s ps. unfold fail_at_first_char_expected. mstep H s ps.
  destruct (pos_equal_to _ _); simpl; auto.
Qed.
Lemma mrel_foldl : forall p q f, mrel p q -> forall n st, mrel (foldl n p st f) (foldl n q st f).
Proof.
  intros p q f H. induction n; intros st s ps; cbn [foldl]; [reflexivity|].
  mstep H s ps; destruct st; simpl; auto. apply IHn.
Qed.
Lemma mrel_foldl1 : forall p q f n st, mrel p q -> mrel (foldl1 n p st f) (foldl1 n q st f).
Proof.
  intros p q f n st H s ps. unfold foldl1. mstep H s ps. apply mrel_foldl; auto.
Qed.
Lemma mrel_foldl_ri : forall p q f, mrel p q -> forall n st,
  mrel (foldl_reject_incomplete n p st f) (foldl_reject_incomplete n q st f).
Proof.
  intros p q f H. induction n; intros st s ps; cbn [foldl_reject_incomplete]; [reflexivity|].
  mstep H s ps.
  - destruct st; [|reflexivity]. apply IHn.
  - destruct (pos_equal_to _ _); [destruct st|]; reflexivity.
Qed.
Lemma mrel_foldl_ri1 : forall p q f n st, mrel p q ->
  mrel (foldl_reject_incomplete1 n p st f) (foldl_reject_incomplete1 n q st f).
Proof.
  intros p q f n st H s ps. unfold foldl_reject_incomplete1. mstep H s ps.
  apply mrel_foldl_ri; auto.
Qed.
Lemma mrel_foldl_swp : forall p q sp sq f n, mrel p q -> mrel sp sq ->
  mrel (foldl_start_with_parser n p sp f) (foldl_start_with_parser n q sq f).
Proof.
  intros p q sp sq f n H H2 s ps. unfold foldl_start_with_parser. mstep H2 s ps.
  apply mrel_foldl; auto.
Qed.
Lemma mrel_foldl_ri_swp : forall p q sp sq f n, mrel p q -> mrel sp sq ->
  mrel (foldl_reject_incomplete_start_with_parser n p sp f)
       (foldl_reject_incomplete_start_with_parser n q sq f).
Proof.
  intros p q sp sq f n H H2 s ps. unfold foldl_reject_incomplete_start_with_parser.
  mstep H2 s ps. apply mrel_foldl_ri; auto.
Qed.
Lemma mrel_foldr_swp : forall p q sp sq f, mrel p q -> mrel sp sq -> forall n,
  mrel (foldr_start_with_parser n p sp f) (foldr_start_with_parser n q sq f).
Proof.
  intros p q sp sq f H H2. induction n; intros s ps; cbn [foldr_start_with_parser]; [reflexivity|].
  mstep H s ps.
  match goal with |- context [foldr_start_with_parser n p sp f ?a ?b] => mstep IHn a b end.
  destruct (f _ _); reflexivity.
Qed.
Lemma mrel_foldr : forall p q st f n, mrel p q -> mrel (foldr n p st f) (foldr n q st f).
Proof. intros. apply mrel_foldr_swp; auto. apply mrel_refl. Qed.
Lemma mrel_foldr1 : forall p q st f n, mrel p q -> mrel (foldr1 n p st f) (foldr1 n q st f).
Proof.
  intros p q st f n H s ps. unfold foldr1. mstep H s ps. apply mrel_foldr; auto.
Qed.
Lemma mrel_iterate_impl : forall p q, mrel p q -> forall n k acc,
  mrel (iterate_impl n k p acc) (iterate_impl n k q acc).
Proof.
  intros p q H. induction n; intros k acc s ps; cbn [iterate_impl]; [reflexivity|].
  destruct (k =? 0); [apply mrel_refl|].
  mstep H s ps. destruct (push_back _ _); [apply IHn|reflexivity].
Qed.
Lemma mrel_iterate : forall p q n k, mrel p q -> mrel (iterate_c n p k) (iterate_c n q k).
Proof. intros. apply mrel_iterate_impl; auto. Qed.

Lemma mrel_one_of_11 : forall l l', Forall2 mrel l l' -> mrel (one_of_11 l) (one_of_11 l').
Proof.
  induction 1 as [|p q l l' H F IH]; intros s ps; cbn [one_of_11]; [apply mrel_fail|].
  mstep H s ps; mstep IH s ps. unfold later_result. destruct (pos_less _ _); reflexivity.
Qed.
Lemma mrel_sequence_11 : forall l l', Forall2 mrel l l' -> mrel (sequence_11 l) (sequence_11 l').
Proof.
  induction 1 as [|p q l l' H F IH]; intros s ps; cbn [sequence_11]; [apply mrel_refl|].
  mstep H s ps. apply mrel_transform; auto.
Qed.
Lemma mrel_skip_remaining : forall r l l', Forall2 mrel l l' ->
  mrel (nth_of_c_skip_remaining r l) (nth_of_c_skip_remaining r l').
Proof.
  induction 1 as [|p q l l' H F IH]; intros s ps; cbn [nth_of_c_skip_remaining]; [apply mrel_refl|].
  mstep H s ps.
Qed.
Lemma mrel_nth_of_impl : forall l l', Forall2 mrel l l' -> forall k,
  mrel (nth_of_c_11_impl k l) (nth_of_c_11_impl k l').
Proof.
  induction 1 as [|p q l l' H F IH]; intros k s ps; cbn [nth_of_c_11_impl]; [reflexivity|].
  mstep H s ps. destruct (k =? 0); [apply mrel_skip_remaining; auto|apply IH].
Qed.
Lemma mrel_nth_of_11 : forall l l' k, Forall2 mrel l l' ->
  mrel (nth_of_c_11 k l) (nth_of_c_11 k l').
Proof.
  intros l l' k F s ps. unfold nth_of_c_11. rewrite (Forall2_length _ _ _ _ _ F).
  pose proof (mrel_nth_of_impl _ _ F k s ps) as X.
  inversion F; subst; [apply mrel_fail|]. destruct (_ && _); auto. apply mrel_fail.
Qed.
Lemma mrel_first_of_11 : forall l l', Forall2 mrel l l' -> mrel (first_of_11 l) (first_of_11 l').
Proof.
  intros l l' F s ps. pose proof (mrel_nth_of_impl _ _ F 0 s ps) as X.
  inversion F; subst; [apply mrel_fail|]. exact X.
Qed.
Lemma mrel_last_of_11 : forall l l', Forall2 mrel l l' -> mrel (last_of_11 l) (last_of_11 l').
Proof.
  intros l l' F s ps.
  pose proof (mrel_nth_of_impl _ _ F (Z.of_nat (length l) - 1) s ps) as X.
  rewrite (Forall2_length _ _ _ _ _ F) in X at 2.
  inversion F; subst; [apply mrel_fail|]. exact X.
Qed.

(** The configured variadic combinators. *)
Lemma mrel_variadic : forall X X11 fit cfg1 cfg2 l l',
  variadic X X11 fit -> compat cfg1 cfg2 fit (length l) -> length l = length l' ->
  mrel (X11 l) (X11 l') -> mrel (X cfg1 l) (X cfg2 l').
Proof.
  intros X X11 fit cfg1 cfg2 l l' V C L P s ps.
  destruct (V cfg1 (length l)) as [A1 B1], (V cfg2 (length l)) as [A2 B2].
  destruct C as [<- | [F1 F2]].
  - destruct B1 as [F | I1].
    + eapply sbm_trans; [apply A1; auto|]. eapply sbm_trans; [apply P|]. apply sbm_sym. apply A1; auto.
    + rewrite !I1; auto. reflexivity.
  - eapply sbm_trans; [apply A1; auto|]. eapply sbm_trans; [apply P|]. apply sbm_sym. apply A2; auto.
Qed.

Lemma mrel_sequence : forall cfg1 cfg2 l l', compat cfg1 cfg2 seq_fit (length l) ->
  Forall2 mrel l l' -> mrel (sequence cfg1 l) (sequence cfg2 l').
Proof.
  intros. eapply mrel_variadic; eauto using variadic_sequence, Forall2_length, mrel_sequence_11.
Qed.
Lemma mrel_nth_of : forall cfg1 cfg2 k l l', compat cfg1 cfg2 fits_sequence (length l) ->
  Forall2 mrel l l' -> mrel (nth_of_c cfg1 k l) (nth_of_c cfg2 k l').
Proof.
  intros. eapply (mrel_variadic (fun cfg => nth_of_c cfg k));
    eauto using variadic_nth_of, Forall2_length, mrel_nth_of_11.
Qed.
Lemma mrel_first_of : forall cfg1 cfg2 l l', compat cfg1 cfg2 fits_sequence (length l) ->
  Forall2 mrel l l' -> mrel (first_of cfg1 l) (first_of cfg2 l').
Proof.
  intros. eapply mrel_variadic; eauto using variadic_first_of, Forall2_length, mrel_first_of_11.
Qed.
Lemma mrel_last_of : forall cfg1 cfg2 l l', compat cfg1 cfg2 fits_sequence (length l) ->
  Forall2 mrel l l' -> mrel (last_of cfg1 l) (last_of cfg2 l').
Proof.
  intros. eapply mrel_variadic; eauto using variadic_last_of, Forall2_length, mrel_last_of_11.
Qed.
Lemma mrel_one_of : forall cfg1 cfg2 l l', compat cfg1 cfg2 fits_one_of (length l) ->
  Forall2 mrel l l' -> mrel (one_of cfg1 l) (one_of cfg2 l').
Proof.
  intros. eapply mrel_variadic; eauto using variadic_one_of, Forall2_length, mrel_one_of_11.
Qed.
Lemma mrel_sequence_apply : forall cfg1 cfg2 t l l', compat cfg1 cfg2 apply_fit (length l) ->
  Forall2 mrel l l' -> mrel (sequence_apply cfg1 t l) (sequence_apply cfg2 t l').
Proof.
  intros. eapply (mrel_variadic (fun cfg => sequence_apply cfg t));
    eauto using variadic_sequence_apply, Forall2_length.
  cbv beta. rewrite (Forall2_length _ _ _ _ _ H0). apply mrel_transform, mrel_sequence_11; auto.
Qed.

Lemma prel_mrel : forall p q, prel p q -> mrel p q.
Proof.
  intros p q H s ps. specialize (H s ps ps). unfold orel in H. unfold same_but_message.
  destruct (p s ps), (q s ps); try contradiction; auto.
  - destruct H as (-> & -> & w & _ & -> & ->). reflexivity.
  - destruct H as (w & _ & -> & ->). reflexivity.
Qed.

Lemma mrel_middle_of : forall cfg1 cfg2 p1 p2 p3 q1 q2 q3, compat cfg1 cfg2 fits_sequence 3 ->
  mrel p1 q1 -> mrel p2 q2 -> mrel p3 q3 ->
  mrel (middle_of cfg1 p1 p2 p3) (middle_of cfg2 q1 q2 q3).
Proof.
  intros cfg1 cfg2 p1 p2 p3 q1 q2 q3 C H1 H2 H3 s ps. unfold middle_of.
  apply mrel_nth_of; auto. constructor; auto. constructor; auto. constructor; auto.
  apply mrel_transform_error_message; [|discriminate].
  apply mrel_sym, mrel_transform_error_message; [|discriminate]. apply mrel_sym; auto.
Qed.
Lemma mrel_entire_input : forall cfg1 cfg2 p q m m', compat cfg1 cfg2 fits_sequence 2 ->
  mrel p q -> mrel (entire_input cfg1 p m) (entire_input cfg2 q m').
Proof.
  assert (M : forall m, mrel (change_error_message (empty VVoid) m) (empty VVoid)).
  { intros m [|c s] ps; reflexivity. }
  assert (E : forall cfg p m, exists e, mrel e (empty VVoid)
    /\ entire_input cfg p m = first_of cfg [p; e]).
  { intros cfg p m. destruct m; simpl;
      try (exists (empty VVoid); split; [apply mrel_refl|reflexivity]);
      eexists; (split; [|reflexivity]); apply M. }
  intros cfg1 cfg2 p q m m' C H.
  destruct (E cfg1 p m) as (e1 & A1 & ->), (E cfg2 q m') as (e2 & A2 & ->).
  apply mrel_first_of; auto. constructor; auto. constructor; auto.
  eapply mrel_trans; [exact A1|]. apply mrel_sym; auto.
Qed.
Lemma mrel_foldr_ri : forall cfg1 cfg2 n p q st f, compat cfg1 cfg2 fits_sequence 2 -> mrel p q ->
  mrel (foldr_reject_incomplete cfg1 n p st f) (foldr_reject_incomplete cfg2 n q st f).
Proof.
  intros. apply mrel_foldr_swp; auto. apply mrel_first_of; auto.
  constructor; [apply mrel_refl|]. constructor; auto. apply mrel_fafce; auto.
Qed.
Lemma mrel_foldr_ri1 : forall cfg1 cfg2 n p q st f, compat cfg1 cfg2 fits_sequence 2 -> mrel p q ->
  mrel (foldr_reject_incomplete1 cfg1 n p st f) (foldr_reject_incomplete1 cfg2 n q st f).
Proof.
  intros cfg1 cfg2 n p q st f C H s ps. unfold foldr_reject_incomplete1.
  mstep H s ps. apply mrel_foldr_ri; auto.
Qed.

(** ** The induction *)

Definition blind_ok (cfg1 cfg2 : config) (e : pexpr) : Prop :=
  message_blind e /\ (cfg1 = cfg2 \/ (fits cfg1 e /\ fits cfg2 e)).

Lemma eval_erase : forall cfg1 cfg2 env env',
  program_every (blind_ok cfg1 cfg2) env -> (forall k, env' k = erase (env k)) ->
  forall n e, every (blind_ok cfg1 cfg2) e ->
  mrel (eval cfg1 env n e) (eval cfg2 env' n (erase e)).
Proof.
  intros cfg1 cfg2 env env' HE E' n. induction n as [n IHn] using lt_wf_ind.
  intros e. induction e as [e IH] using pexpr_children_ind. intros Hev.
  assert (HC : forall c, In c (children e) ->
    mrel (eval cfg1 env n c) (eval cfg2 env' n (erase c))).
  { intros c Hc. apply IH; auto. eapply every_child; eauto. }
  apply every_here in Hev as ((Nat & Tot) & Fit). clear IH.
  assert (HL : forall l, children e = l ->
    Forall2 mrel (map (eval cfg1 env n) l) (map (eval cfg2 env' n) (map erase l))).
  { intros l <-. rewrite map_map. apply Forall2_map_in. auto. }
  destruct e; simpl in HC, Nat, Tot, Fit; destruct n as [|n'];
    try (assert (X := HC _ (or_introl eq_refl)));
    try (assert (Y := HC _ (or_intror (or_introl eq_refl))));
    try (assert (Z := HC _ (or_intror (or_intror (or_introl eq_refl)))));
    try specialize (HL _ eq_refl);
    cbn [eval erase].
  all: try solve [ assumption | apply mrel_refl | apply mrel_fail
    | apply mrel_accept_when; assumption | apply mrel_change_error_message; assumption
    | apply mrel_transform; assumption
    | apply mrel_transform_error; assumption
    | apply mrel_transform_error_message; assumption
    | apply mrel_always; assumption | apply mrel_look_ahead; assumption
    | apply mrel_optional; assumption | apply mrel_except; assumption
    | apply mrel_if; assumption | apply mrel_fafce; assumption
    | apply mrel_foldl; assumption | apply mrel_foldl1; assumption
    | apply mrel_foldl_ri; assumption | apply mrel_foldl_ri1; assumption
    | apply mrel_foldl_swp; assumption | apply mrel_foldl_ri_swp; assumption
    | apply mrel_foldr_swp; assumption | apply mrel_foldr; assumption
    | apply mrel_foldr1; assumption
    | apply mrel_foldr_ri; assumption
    | apply mrel_foldr_ri1; assumption | apply mrel_iterate; assumption
    | apply mrel_one_of; [rewrite map_length|]; assumption
    | apply mrel_nth_of; [rewrite map_length|]; assumption
    | apply mrel_first_of; [rewrite map_length|]; assumption
    | apply mrel_last_of; [rewrite map_length|]; assumption
    | apply mrel_sequence_apply; [rewrite map_length|]; assumption
    | apply prel_mrel, prel_one_of_c; assumption
    | apply prel_mrel, prel_one_char_except_c; assumption
    | apply mrel_middle_of; assumption | apply mrel_entire_input; assumption ].
  - intros s ps. rewrite E'. apply IHn; auto.
  - apply mrel_sequence; auto. rewrite map_length.
    destruct Fit as [->|[[F1 N] [F2 _]]]; [left; auto|right]. unfold seq_fit, fits_sequence in *.
    destruct l; [congruence|]. simpl in *. split; intros Q; [specialize (F1 Q)|specialize (F2 Q)]; lia.
  - apply mrel_sequence; auto. rewrite map_length.
    destruct Fit as [->|[[F1 N] [F2 _]]]; [left; auto|right]. unfold seq_fit, fits_sequence in *.
    destruct l; [congruence|]. simpl in *. split; intros Q; [specialize (F1 Q)|specialize (F2 Q)]; lia.
Qed.
