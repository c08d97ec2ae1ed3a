(** Proofs about compile-time strings. *)

From Coq Require Import ZArith List Bool Lia.
From Verif Require Import Base Strings.
Import ListNotations.
Open Scope Z_scope.

(** [lia] up to the names of the type of characters *)
Ltac slia := unfold str, char in *; lia.

Lemma same_chars_iff : forall a b, same_chars a b = true <-> a = b.
Proof.
  induction a as [|x a IH]; destruct b as [|y b]; cbn; split; intro H;
    try discriminate; auto.
  - apply andb_prop in H. destruct H as [H1 H2].
    apply Z.eqb_eq in H1. apply IH in H2. now subst.
  - injection H as -> ->. rewrite Z.eqb_refl. apply IH. reflexivity.
Qed.

Lemma same_chars_refl : forall a, same_chars a a = true.
Proof. intro a. now apply same_chars_iff. Qed.

Lemma at_c_11_spec : forall s n,
  at_c_11 s n = if n <? 0 then None else nth_error s (Z.to_nat n).
Proof.
  induction s as [|c s IH]; intro n; cbn [at_c_11].
  - destruct (n <? 0); [reflexivity|]. now destruct (Z.to_nat n).
  - destruct (Z.eqb_spec n 0) as [->|Hn]; [reflexivity|].
    rewrite IH. destruct (Z.ltb_spec n 0), (Z.ltb_spec (n - 1) 0); try slia; auto.
    replace (Z.to_nat n) with (S (Z.to_nat (n - 1))) by slia. reflexivity.
Qed.

Lemma pop_back_11_app : forall s c, pop_back_11 (s ++ [c]) = Some s.
Proof.
  induction s as [|x s IH]; intro c; [reflexivity|].
  cbn [app pop_back_11]. rewrite IH.
  destruct (s ++ [c]) eqn:E; [now destruct s|reflexivity].
Qed.

(** Iteration from any point of a string, for any representation. *)
Lemma iterate_chars_spec : forall (S : Type) (same : S -> S -> bool) (at_c : S -> Z -> option char)
  (s : S) (rest before : str),
  (forall a, same a a = true) ->
  (forall k c, nth_error (before ++ rest) k = Some c -> at_c s (Z.of_nat k) = Some c) ->
  iterate_chars same at_c (length rest) (mkit s (Z.of_nat (length before)))
    (mkit s (Z.of_nat (length before + length rest))) = Some rest.
Proof.
  intros S same at_c s rest.
  induction rest as [|c rest IH]; intros before Hsame Hat; cbn [iterate_chars length].
  - unfold it_equal; cbn [it_str it_pos]. rewrite Hsame, Nat.add_0_r, Z.eqb_refl. reflexivity.
  - unfold it_equal; cbn [it_str it_pos]. rewrite Hsame.
    destruct (Z.eqb_spec (Z.of_nat (length before))
      (Z.of_nat (length before + Datatypes.S (length rest)))) as [E|_]; [slia|].
    cbn [andb]. unfold it_deref; cbn [it_str it_pos].
    rewrite (Hat (length before) c)
      by (rewrite nth_error_app2, Nat.sub_diag by slia; reflexivity).
    unfold it_next; cbn [it_str it_pos].
    specialize (IH (before ++ [c]) Hsame).
    rewrite <- app_assoc in IH. specialize (IH Hat).
    rewrite app_length in IH. cbn [length] in IH.
    replace (Z.of_nat (length before) + 1) with (Z.of_nat (length before + 1)) by slia.
    replace (length before + Datatypes.S (length rest))%nat
      with (length before + 1 + length rest)%nat by slia.
    rewrite IH. reflexivity.
Qed.

Lemma iterate_more : forall (S : Type) same at_c n m (i e : string_iterator S) l,
  (n <= m)%nat -> iterate_chars same at_c n i e = Some l ->
  iterate_chars same at_c m i e = Some l.
Proof.
  intros S same at_c. induction n as [|n IH]; intros m i e l Hle H.
  - destruct m; cbn in *; destruct (it_equal same i e); auto; discriminate.
  - destruct m as [|m]; [slia|]. cbn [iterate_chars] in *.
    destruct (it_equal same i e); auto.
    destruct (it_deref at_c i); [|discriminate].
    destruct (iterate_chars same at_c n (it_next i) e) eqn:E; [|discriminate].
    now rewrite (IH m (it_next i) e _ ltac:(slia) E).
Qed.

Lemma iterate_11 : forall s n, (length s <= n)%nat ->
  iterate_chars same_chars at_c_11 n (begin_11 s) (end_11 s) = Some s.
Proof.
  intros s n Hn. eapply iterate_more; [exact Hn|].
  apply (iterate_chars_spec _ same_chars at_c_11 s s []).
  - apply same_chars_refl.
  - intros k c Hk. rewrite at_c_11_spec. cbn [app] in Hk.
    destruct (Z.ltb_spec (Z.of_nat k) 0); [slia|]. now rewrite Nat2Z.id.
Qed.

(** The string classes as parsers see them: the [mpl::empty], [mpl::front] and
    [mpl::pop_front] of a string behave as those of a list. *)
Lemma view_11 : forall s,
  match s with
  | [] => empty_11 s = Some true
  | c :: s' => empty_11 s = Some false /\ front_11 s = Some c /\ pop_front_11 s = Some s'
  end.
Proof.
  intros [|c s]; unfold empty_11, it_equal, begin_11, end_11, size_11; cbn [it_str it_pos].
  - reflexivity.
  - rewrite same_chars_refl. repeat split.
Qed.

(** ** The C++98 string *)

(** The strings the padded representation can hold: the last character is not
    [no_char]. *)
Definition representable (s : str) : Prop :=
  forall s', s <> s' ++ [no_char].

Lemma representable_nil : representable [].
Proof. intros s' H. now destruct s'. Qed.

Lemma representable_cons : forall c s, representable (c :: s) -> representable s.
Proof. intros c s H s' ->. now apply (H (c :: s')). Qed.

Lemma representable_last : forall s c, c <> no_char -> representable (s ++ [c]).
Proof. intros s c Hc s' H. apply app_inj_tail in H. destruct H; auto. Qed.

Lemma representable_app : forall s c s', representable s -> s = s' ++ [c] -> c <> no_char.
Proof. intros s c s' H -> ->. now apply (H s'). Qed.

Lemma representable_chars : forall s, (forall c, In c s -> c <> no_char) -> representable s.
Proof. intros s H s' ->. apply (H no_char); [|reflexivity]. apply in_or_app. right. now left. Qed.

Lemma all_no_char_repeat : forall n, all_no_char (repeat no_char n) = true.
Proof. induction n; auto. Qed.

Lemma all_no_char_iff : forall l, all_no_char l = true <-> l = repeat no_char (length l).
Proof.
  induction l as [|c l IH]; cbn [all_no_char repeat length]; [easy|].
  rewrite andb_true_iff, Z.eqb_eq, IH. split.
  - intros [-> H]. congruence.
  - intro H. injection H as H1 H2. auto.
Qed.

Lemma repeat_app_last : forall (A : Type) (x : A) n, repeat x n ++ [x] = x :: repeat x n.
Proof. induction n; cbn; congruence. Qed.

Lemma repeat_S_last : forall (A : Type) (x : A) n, repeat x (S n) = repeat x n ++ [x].
Proof. intros A x n. now rewrite repeat_app_last. Qed.

Lemma all_no_char_padded : forall s n, representable s ->
  all_no_char (s ++ repeat no_char n) = true -> s = [].
Proof.
  intros s n Hs H. apply all_no_char_iff in H.
  destruct s as [|c s] using rev_ind; [reflexivity|]. clear IHs.
  exfalso. assert (Hc : In c ((s ++ [c]) ++ repeat no_char n)).
  { apply in_or_app. left. apply in_or_app. right. now left. }
  rewrite H in Hc. apply repeat_spec in Hc. subst c. now apply (Hs s).
Qed.

Lemma size_98_from_padded : forall s n k, representable s ->
  size_98_from k (s ++ repeat no_char n) =
  match n with O => None | S _ => Some (Z.of_nat (k + length s)) end.
Proof.
  induction s as [|c s IH]; intros n k Hs.
  - cbn [app length]. destruct n as [|n]; [reflexivity|].
    cbn [repeat size_98_from]. change (no_char :: repeat no_char n) with (repeat no_char (S n)).
    rewrite all_no_char_repeat. do 2 f_equal. slia.
  - cbn [app size_98_from length].
    destruct (all_no_char (c :: s ++ repeat no_char n)) eqn:E.
    + apply (all_no_char_padded (c :: s) n Hs) in E. discriminate.
    + rewrite IH by (eapply representable_cons; exact Hs).
      destruct n; [reflexivity|]. do 2 f_equal. slia.
Qed.

Lemma size_98_padded : forall lim s, representable s -> (length s <= lim)%nat ->
  size_98 (string_98 lim s) =
  if (length s <? lim)%nat then Some (Z.of_nat (length s)) else None.
Proof.
  intros lim s Hs Hlen. unfold size_98, string_98. rewrite size_98_from_padded by exact Hs.
  destruct (Nat.ltb_spec (length s) lim).
  - destruct (lim - length s)%nat eqn:E; [slia|reflexivity].
  - replace (lim - length s)%nat with O by slia. reflexivity.
Qed.

Lemma string_98_length : forall lim s, (length s <= lim)%nat -> length (string_98 lim s) = lim.
Proof. intros. unfold string_98. rewrite app_length, repeat_length. slia. Qed.

Lemma string_98_inj : forall lim a b, representable a -> representable b ->
  (length a <= lim)%nat -> (length b <= lim)%nat ->
  string_98 lim a = string_98 lim b -> a = b.
Proof.
  intros lim a b Ha Hb La Lb H.
  assert (E : length a = length b).
  { pose proof (size_98_padded lim a Ha La) as Sa.
    pose proof (size_98_padded lim b Hb Lb) as Sb.
    rewrite H in Sa. rewrite Sa in Sb.
    destruct (Nat.ltb_spec (length a) lim), (Nat.ltb_spec (length b) lim); try discriminate; try slia.
    injection Sb as Sb. slia. }
  unfold string_98 in H. rewrite E in H. now apply app_inv_tail in H.
Qed.

Lemma nth_error_repeat_char : forall n m, (n < m)%nat ->
  nth_error (repeat no_char m) n = Some no_char.
Proof.
  induction n as [|n IH]; intros [|m] H; cbn; try slia; auto. apply IH. slia.
Qed.

Lemma at_c_98_padded : forall lim s n, (length s <= lim)%nat ->
  at_c_98 (string_98 lim s) n =
  if (0 <=? n) && (n <? Z.of_nat lim) then
    if n <? Z.of_nat (length s) then nth_error s (Z.to_nat n) else Some no_char
  else None.
Proof.
  intros lim s n Hlen. unfold at_c_98. rewrite string_98_length by exact Hlen.
  destruct (Z.leb_spec 0 n); [|reflexivity].
  destruct (Z.ltb_spec n (Z.of_nat lim)); [|reflexivity]. cbn [andb]. unfold string_98.
  destruct (Z.ltb_spec n (Z.of_nat (length s))).
  - now rewrite nth_error_app1 by slia.
  - rewrite nth_error_app2 by slia.
    apply nth_error_repeat_char. slia.
Qed.

Lemma string_98_again : forall lim s n, string_98 lim (s ++ repeat no_char n) =
  if (length s + n <=? lim)%nat then string_98 lim s else s ++ repeat no_char n.
Proof.
  intros lim s n. unfold string_98. rewrite app_length, repeat_length.
  destruct (Nat.leb_spec (length s + n) lim).
  - rewrite <- app_assoc, <- repeat_app. do 2 f_equal. slia.
  - replace (lim - (length s + n))%nat with O by slia. apply app_nil_r.
Qed.

Lemma firstn_repeat_le : forall (A : Type) (x : A) n m, (n <= m)%nat ->
  firstn n (repeat x m) = repeat x n.
Proof.
  induction n as [|n IH]; intros [|m] H; cbn; try reflexivity; try slia.
  f_equal. apply IH. slia.
Qed.

Lemma skipn_repeat : forall (A : Type) (x : A) n m, skipn n (repeat x m) = repeat x (m - n).
Proof. induction n as [|n IH]; intros [|m]; cbn; auto. Qed.

Lemma push_back_98_padded : forall lim s c, representable s -> (length s < lim)%nat ->
  push_back_c_98 lim (string_98 lim s) c = Some (string_98 lim (s ++ [c])).
Proof.
  intros lim s c Hs Hlen. unfold push_back_c_98.
  rewrite size_98_padded by (auto; slia).
  destruct (Nat.ltb_spec (length s) lim); [|slia].
  unfold update_c_98.
  destruct (Z.leb_spec 0 (Z.of_nat (length s))); [|slia].
  destruct (Z.ltb_spec (Z.of_nat (length s)) (Z.of_nat lim)); [|slia].
  cbn [andb]. rewrite Nat2Z.id. f_equal.
  unfold string_98 at 2 3.
  rewrite firstn_app, firstn_all, Nat.sub_diag. cbn [firstn]. rewrite app_nil_r.
  rewrite skipn_app.
  rewrite (skipn_all2 s) by slia. cbn [app]. rewrite skipn_repeat.
  rewrite firstn_repeat_le by slia.
  change (c :: repeat no_char (lim - 1 - (length s + 1)))
    with ([c] ++ repeat no_char (lim - 1 - (length s + 1))).
  rewrite app_assoc, string_98_again, app_length. cbn [length].
  destruct (Nat.leb_spec (length s + 1 + (lim - 1 - (length s + 1))) lim); [reflexivity|slia].
Qed.

Lemma pop_back_98_padded : forall lim s c, representable (s ++ [c]) -> (length s + 1 < lim)%nat ->
  pop_back_98 lim (string_98 lim (s ++ [c])) = Some (string_98 lim s).
Proof.
  intros lim s c Hs Hlen. unfold pop_back_98.
  rewrite size_98_padded by (auto; rewrite app_length; cbn; slia).
  rewrite app_length. cbn [length].
  destruct (Nat.ltb_spec (length s + 1) lim); [|slia].
  replace (Z.of_nat (length s + 1) - 1) with (Z.of_nat (length s)) by slia.
  unfold update_c_98.
  destruct (Z.leb_spec 0 (Z.of_nat (length s))); [|slia].
  destruct (Z.ltb_spec (Z.of_nat (length s)) (Z.of_nat lim)); [|slia].
  cbn [andb]. rewrite Nat2Z.id. f_equal.
  assert (F : firstn (length s) (string_98 lim (s ++ [c])) = s).
  { unfold string_98. rewrite <- app_assoc, firstn_app, firstn_all, Nat.sub_diag.
    cbn [firstn]. now rewrite app_nil_r. }
  assert (K : skipn (length s + 1) (string_98 lim (s ++ [c])) =
              repeat no_char (lim - (length s + 1))).
  { unfold string_98. rewrite skipn_app, (skipn_all2 (s ++ [c])), app_length
      by (rewrite app_length; cbn; slia).
    cbn [length]. rewrite Nat.sub_diag. reflexivity. }
  rewrite F, K. cbn [app].
  rewrite firstn_repeat_le by slia.
  change (no_char :: repeat no_char (lim - 1 - (length s + 1)))
    with (repeat no_char (S (lim - 1 - (length s + 1)))).
  rewrite string_98_again.
  match goal with |- context [(?a <=? lim)%nat] => destruct (Nat.leb_spec a lim) end;
    [reflexivity|slia].
Qed.

Lemma push_front_98_padded : forall lim s c, (length s < lim)%nat ->
  push_front_c_98 lim (string_98 lim s) c = string_98 lim (c :: s).
Proof.
  intros lim s c Hlen. unfold push_front_c_98, string_98. cbn [app length]. f_equal.
  rewrite firstn_app, firstn_all2 by slia. f_equal.
  rewrite firstn_repeat_le by slia. f_equal. slia.
Qed.

Lemma push_front_98_full : forall lim s c d, (length s + 1 = lim)%nat ->
  push_front_c_98 lim (string_98 lim (s ++ [d])) c = string_98 lim (c :: s).
Proof.
  intros lim s c d Hlen. unfold push_front_c_98, string_98. cbn [app length].
  rewrite app_length. cbn [length].
  replace (lim - (length s + 1))%nat with O by slia. replace (lim - S (length s))%nat with O by slia.
  cbn [repeat]. rewrite !app_nil_r. f_equal.
  replace (lim - 1)%nat with (length s) by slia.
  rewrite firstn_app, firstn_all, Nat.sub_diag. cbn. now rewrite app_nil_r.
Qed.

Lemma pop_front_98_padded : forall lim c s, (length s < lim)%nat ->
  pop_front_98 (string_98 lim (c :: s)) = string_98 lim s.
Proof.
  intros lim c s Hlen. unfold pop_front_98, string_98. cbn [app skipn length].
  rewrite <- app_assoc, <- repeat_S_last. do 2 f_equal. slia.
Qed.

Lemma pop_front_98_empty : forall lim, (0 < lim)%nat ->
  pop_front_98 (string_98 lim []) = string_98 lim [].
Proof.
  intros [|lim] H; [slia|]. unfold pop_front_98, string_98. cbn [app length Nat.sub repeat skipn].
  now rewrite repeat_app_last.
Qed.

Lemma c_str_98_padded : forall lim s, representable s -> (length s <= lim)%nat ->
  c_str_98 (string_98 lim s) = s ++ [0].
Proof.
  intros lim s Hs Hlen. unfold c_str_98. rewrite size_98_padded by auto.
  destruct (Nat.ltb_spec (length s) lim).
  - rewrite Nat2Z.id. unfold string_98. rewrite firstn_app, firstn_all, Nat.sub_diag.
    cbn [firstn]. now rewrite app_nil_r.
  - unfold string_98. replace (lim - length s)%nat with O by slia. cbn [repeat].
    now rewrite app_nil_r.
Qed.

Lemma iterate_98 : forall lim s n, representable s -> (length s < lim)%nat -> (length s <= n)%nat ->
  exists e, end_98 (string_98 lim s) = Some e /\
  iterate_chars same_chars at_c_98 n (begin_98 (string_98 lim s)) e = Some s.
Proof.
  intros lim s n Hs Hlen Hn. unfold end_98. rewrite size_98_padded by (auto; slia).
  destruct (Nat.ltb_spec (length s) lim); [|slia].
  eexists. split; [reflexivity|]. eapply iterate_more; [exact Hn|].
  apply (iterate_chars_spec _ same_chars at_c_98 (string_98 lim s) s []).
  - apply same_chars_refl.
  - intros k c Hk. cbn [app] in Hk. rewrite at_c_98_padded by slia.
    assert (L : (k < length s)%nat) by (apply nth_error_Some; congruence).
    destruct (Z.leb_spec 0 (Z.of_nat k)); [|slia].
    destruct (Z.ltb_spec (Z.of_nat k) (Z.of_nat lim)); [|slia].
    destruct (Z.ltb_spec (Z.of_nat k) (Z.of_nat (length s))); [|slia].
    cbn [andb]. now rewrite Nat2Z.id.
Qed.

Lemma view_98 : forall lim s, representable s -> (length s < lim)%nat ->
  match s with
  | [] => empty_98 (string_98 lim s) = Some true
  | c :: s' =>
      empty_98 (string_98 lim s) = Some false /\
      front_98 (string_98 lim s) = Some c /\
      pop_front_98 (string_98 lim s) = string_98 lim s'
  end.
Proof.
  intros lim s Hs Hlen.
  assert (E : empty_98 (string_98 lim s) = Some (Z.of_nat (length s) =? 0)).
  { unfold empty_98, end_98. rewrite size_98_padded by (auto; slia).
    destruct (Nat.ltb_spec (length s) lim); [|slia].
    unfold it_equal, begin_98; cbn [it_str it_pos]. rewrite same_chars_refl. cbn [andb].
    now rewrite Z.eqb_sym. }
  destruct s as [|c s]; [exact E|].
  split; [|split].
  - rewrite E. reflexivity.
  - unfold front_98, it_deref, begin_98; cbn [it_str it_pos].
    rewrite at_c_98_padded by slia.
    destruct (Z.ltb_spec 0 (Z.of_nat lim)); [|slia]. reflexivity.
  - apply pop_front_98_padded. cbn in Hlen. slia.
Qed.
