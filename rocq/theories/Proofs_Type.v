(** Well-typed parser programs are never ill-formed. *)

From Coq Require Import ZArith List Bool Lia.
From Verif Require Import Base Util Combinators Variadic Parsers Deep Spec SpecDeep SpecType
  Proofs_Pos Proofs_Fold Proofs_Variadic Proofs_Parsers Proofs_Parsers2 Proofs_Deep
  Proofs_Final3 Proofs_Term.
Import ListNotations.
Open Scope Z_scope.

Scheme typed_mind := Minimality for typed Sort Prop
  with typed_all_mind := Minimality for typed_all Sort Prop.
Combined Scheme typed_mutind from typed_mind, typed_all_mind.

Definition okout (A : ty) (o : outcome) : Prop :=
  match o with
  | Accept r _ _ => A r
  | Illformed => False
  | _ => True
  end.

Definition okp (A : ty) (p : pfun) : Prop := forall s ps, okout A (p s ps).

Lemma okout_sub : forall (A B : ty) o, okout A o -> (forall v, A v -> B v) -> okout B o.
Proof. intros A B [] H S; simpl in *; auto. Qed.

Ltac okstep H s ps :=
  let X := fresh "X" in
  assert (X := H s ps); unfold okout in X;
  match type of X with context [match ?o with _ => _ end] => destruct o eqn:?; simpl in X end;
  simpl; auto; try contradiction.

Lemma ok_foldl : forall A S p f, okp A p -> maps2 S A S f ->
  forall n st, S st -> okp S (foldl n p (Some st) f).
Proof.
  intros A S p f H M. induction n; intros st HS s ps; cbn [foldl]; [exact I|].
  okstep H s ps. destruct (M _ _ HS X) as (u & -> & U). apply IHn; auto.
Qed.

Lemma ok_foldl_ri : forall A S p f, okp A p -> maps2 S A S f ->
  forall n st, S st -> okp S (foldl_reject_incomplete n p (Some st) f).
Proof.
  intros A S p f H M. induction n; intros st HS s ps; cbn [foldl_reject_incomplete]; [exact I|].
  okstep H s ps.
  - destruct (M _ _ HS X) as (u & -> & U). apply IHn; auto.
  - destruct (pos_equal_to ps p0); simpl; auto.
Qed.

Lemma ok_foldr_swp : forall A S p sp f, okp A p -> okp S sp -> maps2 S A S f ->
  forall n, okp S (foldr_start_with_parser n p sp f).
Proof.
  intros A S p sp f H H2 M. induction n; intros s ps; cbn [foldr_start_with_parser]; [exact I|].
  okstep H s ps. okstep IHn rem p0.
  destruct (M _ _ X0 X) as (u & -> & U). auto.
Qed.

Lemma ok_return : forall (A : ty) v, A v -> okp A (return_ v).
Proof. intros A v H s ps. exact H. Qed.

Lemma ok_iterate : forall A p, okp A p -> forall n k acc, Forall A acc ->
  okp (fun v => exists l, v = VSeq l /\ Forall A l /\ Z.of_nat (length l) = k + Z.of_nat (length acc))
    (iterate_impl n k p (VSeq acc)).
Proof.
  intros A p H. induction n; intros k acc F s ps; cbn [iterate_impl]; [exact I|].
  destruct (Z.eqb_spec k 0).
  - simpl. exists acc. repeat split; auto. lia.
  - okstep H s ps.
    eapply okout_sub; [apply (IHn (k - 1) (acc ++ [r]))|].
    + apply Forall_app; auto.
    + intros v (l & -> & F' & L). exists l. repeat split; auto.
      rewrite app_length in L. cbn [length] in L. lia.
Qed.

Inductive oks : list pfun -> list ty -> Prop :=
| oks_nil : oks [] []
| oks_cons : forall p T l Ts, okp T p -> oks l Ts -> oks (p :: l) (T :: Ts).

Lemma oks_length : forall l Ts, oks l Ts -> length l = length Ts.
Proof. induction 1; simpl; auto. Qed.

Lemma ok_sequence_11 : forall l Ts, oks l Ts -> okp (seq_of Ts) (sequence_11 l).
Proof.
  induction 1 as [|p T l Ts H F IH]; intros s ps; cbn [sequence_11].
  - simpl. exists []. auto.
  - okstep H s ps. unfold transform. okstep IH rem p0.
    destruct X0 as (vs & -> & F2). simpl. exists (r :: vs). auto.
Qed.

Lemma ok_sequence : forall cfg l Ts, fits_sequence cfg (length l) -> l <> [] -> oks l Ts ->
  okp (seq_of Ts) (sequence cfg l).
Proof. intros cfg l Ts F N O s ps. rewrite sequence_cfg by auto. apply ok_sequence_11; auto. Qed.

Lemma nth_error_oks : forall l Ts k A, oks l Ts -> nth_error Ts k = Some A -> (k < length l)%nat.
Proof.
  intros l Ts k A O E. rewrite (oks_length _ _ O). apply nth_error_Some. congruence.
Qed.

(** [nth_of] in terms of [sequence]. *)
Lemma ok_nth_of : forall cfg l Ts k A, fits_sequence cfg (length l) -> oks l Ts ->
  nth_error Ts k = Some A -> okp A (nth_of_c cfg (Z.of_nat k) l).
Proof.
  intros cfg l Ts k A F O E s ps.
  assert (K := nth_error_oks _ _ _ _ O E).
  assert (NE : l <> []) by (destruct l; [simpl in K; lia | discriminate]).
  assert (X := ok_sequence cfg l Ts F NE O s ps).
  destruct (nth_of_c cfg (Z.of_nat k) l s ps) as [r rem q| | |] eqn:N; simpl; auto.
  - apply nth_of_cfg_accept in N as (rs & R & NT); auto.
    assert (S : sequence cfg l s ps = Accept (VSeq rs) rem q)
      by (apply sequence_cfg_accept; eauto).
    rewrite S in X. destruct X as (vs & Q & F2). inversion Q; subst vs. clear Q.
    clear - E NT F2. revert k E NT. induction F2; intros [|k] E NT; simpl in *; try discriminate; eauto.
    congruence.
  - destruct (nth_of_cfg_failure cfg l k s ps F K) as (_ & I1 & _).
    destruct (sequence_cfg_failure cfg l s ps F NE) as (_ & I2 & _).
    assert (S : sequence cfg l s ps = Illformed) by (apply I2, I1; auto).
    rewrite S in X. exact X.
Qed.

Lemma ok_one_of : forall cfg l A, fits_one_of cfg (length l) -> oks l (repeat A (length l)) ->
  okp A (one_of cfg l).
Proof.
  intros cfg l A F O s ps.
  assert (X : okp A (one_of_11 l)).
  { clear F s ps. remember (repeat A (length l)) as Ts eqn:E. revert E.
    induction O as [|p T l Ts H O IH]; intros E s ps; [exact I|].
    simpl in E. inversion E; subst. cbn [one_of_11]. assert (I1 := IH eq_refl s ps). clear IH.
    okstep H s ps; destruct (one_of_11 l s ps); simpl in *; auto.
    unfold later_result. match goal with |- context [if ?b then _ else _] => destruct b end; exact I. }
  specialize (X s ps). destruct (one_of_cfg cfg l F) as [-> | E]; auto.
  rewrite E. pose proof (one_of_98_11 l s ps) as B.
  destruct (one_of_98_impl l s ps), (one_of_11 l s ps); simpl in *; auto; try discriminate; congruence.
Qed.

Lemma ok_class : forall P m1 m2 p, char_class_parser P m1 m2 p ->
  (forall c, {P c} + {~ P c}) -> okp (fun v => exists c, v = VChar c /\ P c) p.
Proof.
  intros P m1 m2 p (A & B & C) D [|c s] ps.
  - rewrite C. exact I.
  - destruct (D c).
    + rewrite (A c s ps (next_pos c ps)); auto; [|apply walk1; auto]. simpl. eauto.
    + rewrite B by auto. exact I.
Qed.

Lemma typed_ok : forall cfg G env, (forall k, typed cfg G (env k) (G k)) ->
  forall n,
    (forall e T, typed cfg G e T -> okp T (eval cfg env n e))
    /\ (forall l Ts, typed_all cfg G l Ts -> oks (map (eval cfg env n) l) Ts).
Proof.
  intros cfg G env HE n. induction n as [n IHn] using lt_wf_ind.
  apply (typed_mutind cfg G (fun e T => okp T (eval cfg env n e))
           (fun l Ts => oks (map (eval cfg env n) l) Ts)); intros; auto.
  1: { intros s ps. eapply okout_sub; [apply H0 | auto]. }
  all: try (intros s ps; rewrite eval_eq).
  - destruct (p s ps) eqn:E; simpl; eauto. eapply H; eauto.
  - destruct n; [exact I|]. apply IHn; auto.
  - exact H.
  - exact I.
  - destruct s; simpl; eauto.
  - destruct s; simpl; auto.
  - unfold accept_when. okstep H0 s ps. specialize (H1 _ X).
    destruct (pr r) as [[|]|] eqn:E; simpl; auto.
  - unfold change_error_message. okstep H0 s ps.
  - unfold transform. okstep H0 s ps. destruct (H1 _ X) as (w & -> & W). auto.
  - unfold transform_error. okstep H0 s ps.
    destruct (f m p0) eqn:E; simpl; eauto. eapply H1; eauto.
  - unfold transform_error_message. okstep H0 s ps.
    specialize (H1 m). destruct (f m); simpl; auto.
  - unfold always. okstep H0 s ps.
  - unfold look_ahead. okstep H0 s ps.
  - unfold optional. okstep H0 s ps.
  - unfold except. okstep H0 s ps.
  - unfold if_. okstep H0 s ps.
  - unfold fail_at_first_char_expected. okstep H0 s ps. destruct (pos_equal_to ps p0); simpl; auto.
  - destruct (keyword_finishes kw r s ps) as [(v & s' & q & E) | (m & q & E)]; rewrite E; simpl; auto.
    apply keyword_accept in E as (_ & -> & _). auto.
  - eapply ok_foldl; eauto.
  - unfold foldl1. okstep H0 s ps. eapply ok_foldl; eauto.
  - eapply ok_foldl_ri; eauto.
  - unfold foldl_reject_incomplete1. okstep H0 s ps. eapply ok_foldl_ri; eauto.
  - unfold foldl_start_with_parser. okstep H2 s ps.
    rewrite (type_of_some r) by (intros ->; contradiction). eapply ok_foldl; eauto.
  - unfold foldl_reject_incomplete_start_with_parser. okstep H2 s ps.
    rewrite (type_of_some r) by (intros ->; contradiction). eapply ok_foldl_ri; eauto.
  - eapply ok_foldr_swp; eauto.
  - eapply ok_foldr_swp; eauto. apply ok_return; auto.
  - unfold foldr1. okstep H0 s ps. eapply ok_foldr_swp; eauto. apply ok_return; auto.
  - eapply ok_foldr_swp; eauto. intros s1 ps1. rewrite first_of_2 by auto. simpl.
    unfold fail_at_first_char_expected. okstep H1 s1 ps1. destruct (pos_equal_to ps1 p0); simpl; auto.
  - unfold foldr_reject_incomplete1. okstep H1 s ps.
    eapply ok_foldr_swp; eauto. intros s1 ps1. rewrite first_of_2 by auto. simpl.
    unfold fail_at_first_char_expected. okstep H1 s1 ps1. destruct (pos_equal_to ps1 p1); simpl; auto.
  - eapply okout_sub; [apply (ok_iterate A); auto|]. intros v (l & -> & F & L).
    exists l. repeat split; auto. simpl in L. lia.
  - apply ok_one_of; rewrite map_length; auto.
  - apply ok_sequence; auto; [rewrite map_length; auto|]. destruct l; [congruence|discriminate].
  - unfold sequence_apply. rewrite map_length.
    assert (NE : map (eval cfg env n) l <> []) by (destruct l; [simpl in H; lia|discriminate]).
    destruct (Nat.leb_spec 1 (length l)); [|lia].
    destruct (Nat.ltb_spec (length l) (limit_sequence cfg)); [|lia]. simpl.
    assert (X := ok_sequence cfg (map (eval cfg env n) l) Ts
      ltac:(intros _; rewrite map_length; lia) NE H1 s ps).
    unfold transform. destruct (sequence cfg (map (eval cfg env n) l) s ps) as [r rem q| | |]; simpl in *; auto.
    destruct X as (vs & -> & F2).
    assert (LL : length vs = length l).
    { apply Forall2_length in F2. apply oks_length in H1. rewrite map_length in H1. symmetry. etransitivity; [exact H1|exact F2]. }
    rewrite <- LL, sequence_apply_transform_spec. simpl. eauto.
  - eapply ok_nth_of; eauto. rewrite map_length; auto.
  - rewrite nth_of_c_cfg by (rewrite map_length; auto). unfold nth_of_c_11.
    destruct (map (eval cfg env n) l) eqn:E; [exact I|]. rewrite <- E, map_length.
    destruct (Z.leb_spec 0 k), (Z.ltb_spec k (Z.of_nat (length l))); simpl; auto. exfalso. auto.
  - assert (NE : l <> []) by (intros ->; inversion H1).
    rewrite (first_of_nth_of cfg _) by (rewrite map_length; auto).
    apply (ok_nth_of cfg _ (T :: Ts) 0); auto. rewrite map_length; auto.
  - assert (LL := oks_length _ _ H1). rewrite map_length, app_length in LL. simpl in LL.
    rewrite (last_of_nth_of cfg _).
    + replace (Z.of_nat (length (map (eval cfg env n) l)) - 1) with (Z.of_nat (length Ts))
        by (rewrite map_length; lia).
      apply (ok_nth_of cfg _ (Ts ++ [T])); auto; [rewrite map_length; auto|].
      rewrite nth_error_app2 by auto. replace (length Ts - length Ts)%nat with 0%nat by lia. auto.
    + rewrite map_length; auto.
    + destruct l; [simpl in LL; lia|discriminate].
  - eapply ok_class; [apply one_of_c_class; auto|apply in_dec_char].
  - eapply ok_class; [apply one_char_except_c_class; auto|apply not_in_dec_char].
  - rewrite middle_of_spec by auto. okstep H1 s ps. okstep H3 rem p. okstep H5 rem0 p0.
  - rewrite entire_input_spec by auto. okstep H1 s ps. destruct rem; simpl; auto.
  - constructor.
  - simpl. constructor; auto.
Qed.
