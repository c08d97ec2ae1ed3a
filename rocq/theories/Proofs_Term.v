(** Termination of well-founded parser programs. *)

From Coq Require Import ZArith List Bool Lia.
From Verif Require Import Base Util Combinators Variadic Parsers Deep Spec SpecDeep SpecTerm
  Proofs_Pos Proofs_Fold Proofs_Variadic Proofs_Parsers Proofs_Deep.
Import ListNotations.
Open Scope Z_scope.

(** The outcome of a parser on [s] is not [OutOfFuel], and an acceptance leaves
    a shorter text, or a not longer one if [b]. *)
Definition ctout (b : bool) (s : str) (o : outcome) : Prop :=
  match o with
  | Accept _ rem _ => if b then (length rem <= length s)%nat else (length rem < length s)%nat
  | OutOfFuel => False
  | _ => True
  end.

(** ... on all texts shorter than [L]. *)
Definition ct (b : bool) (L : nat) (p : pfun) : Prop :=
  forall s ps, (length s < L)%nat -> ctout b s (p s ps).

Lemma ctout_either : forall b s o o', either o o' -> ctout b s o' -> ctout b s o.
Proof.
  intros b s o o' [-> | H] G; [exact I|].
  destruct o, o'; simpl in *; try discriminate; try congruence; auto; try contradiction.
  destruct H as (_ & <- & _) || (inversion H; subst); auto.
Qed.

Lemma ctout_weak : forall b s o, ctout b s o -> ctout true s o.
Proof. intros [|] s [] H; simpl in *; auto; lia. Qed.

Lemma ct_weak : forall b L L' p, ct b L p -> (L' <= L)%nat -> ct b L' p.
Proof. intros b L L' p H G s ps K. apply H. lia. Qed.

Lemma ct_nul : forall b L p, ct b L p -> ct true L p.
Proof. intros b L p H s ps K. eapply ctout_weak. apply H; auto. Qed.

Lemma ctout_step : forall (b1 b2 : bool) (s s1 : str) o,
  (if b1 then (length s1 <= length s)%nat else (length s1 < length s)%nat) ->
  ctout b2 s1 o -> ctout (b1 && b2) s o.
Proof. intros [|] [|] s s1 []; simpl; auto; lia. Qed.

Lemma ct_or_l : forall b b' s o, ctout b s o -> ctout (b || b') s o.
Proof. intros [|] [|] s [] H; simpl in *; auto; lia. Qed.

Lemma ct_or_r : forall b b' s o, ctout b' s o -> ctout (b || b') s o.
Proof. intros [|] [|] s [] H; simpl in *; auto; lia. Qed.

Ltac cstep H s ps :=
  let G := fresh "G" in
  assert (G := H s ps); unfold ctout in G;
  match type of G with context [match ?o with _ => _ end] => destruct o eqn:?; simpl in G end;
  try specialize (G ltac:(eauto)); try exact I; auto; try contradiction.

Lemma ct_return : forall L v, ct true L (return_ v).
Proof. intros L v s ps H. simpl. auto. Qed.

Lemma ct_fail : forall b L m, ct b L (fail m).
Proof. intros b L m s ps H. exact I. Qed.

Lemma ct_one_char : forall b L, ct b L one_char.
Proof. intros [|] L [|c s] ps H; simpl; auto; lia. Qed.

Lemma ct_empty : forall L r, ct true L (empty r).
Proof. intros L r [|c s] ps H; simpl; auto. Qed.

Lemma ct_accept_when : forall b L p pr m, ct b L p -> ct b L (accept_when p pr m).
Proof.
  intros b L p pr m H s ps K. specialize (H s ps K). unfold accept_when.
  destruct (p s ps); auto. destruct (pr r) as [[|]|]; simpl; auto.
Qed.

Lemma ct_change_error_message : forall b L p m, ct b L p -> ct b L (change_error_message p m).
Proof.
  intros b L p m H s ps K. specialize (H s ps K). unfold change_error_message.
  destruct (p s ps); auto.
Qed.

Lemma ct_transform : forall b L p f, ct b L p -> ct b L (transform p f).
Proof.
  intros b L p f H s ps K. specialize (H s ps K). unfold transform.
  destruct (p s ps); auto. destruct (f r); simpl; auto.
Qed.

Lemma ct_transform_error : forall b L p f, ct b L p -> error_returns f -> keeps_errors f ->
  ct b L (transform_error p f).
Proof.
  intros b L p f H R E s ps K. specialize (H s ps K). unfold transform_error.
  destruct (p s ps); auto. destruct (f m p0) eqn:F; simpl; auto.
  - destruct (E _ _ _ _ _ F).
  - destruct (R _ _ F).
Qed.

Lemma ct_transform_error_message : forall b L p f, ct b L p -> ct b L (transform_error_message p f).
Proof.
  intros b L p f H s ps K. specialize (H s ps K). unfold transform_error_message.
  destruct (p s ps); auto. destruct (f m); simpl; auto.
Qed.

Lemma ct_always : forall b L p v, ct b L p -> ct b L (always p v).
Proof. intros b L p v H s ps K. specialize (H s ps K). unfold always. destruct (p s ps); auto. Qed.

Lemma ct_look_ahead : forall b L p, ct b L p -> ct true L (look_ahead p).
Proof. intros b L p H s ps K. specialize (H s ps K). unfold look_ahead. destruct (p s ps); simpl; auto. Qed.

Lemma ct_optional : forall b L p v, ct b L p -> ct true L (optional p v).
Proof.
  intros b L p v H s ps K. specialize (H s ps K). unfold optional.
  apply ctout_weak in H. destruct (p s ps); simpl; auto.
Qed.

Lemma ct_except : forall b L p v m, ct b L p -> ct true L (except p v m).
Proof. intros b L p v m H s ps K. specialize (H s ps K). unfold except. destruct (p s ps); simpl; auto. Qed.

Lemma ct_if : forall b L p t f, ct b L p -> ct true L (if_ p t f).
Proof. intros b L p t f H s ps K. specialize (H s ps K). unfold if_. destruct (p s ps); simpl; auto. Qed.

Lemma ct_fafce : forall b L p, ct b L p -> ct true L (fail_at_first_char_expected p).
Proof.
  intros b L p H s ps K. specialize (H s ps K). unfold fail_at_first_char_expected.
  destruct (p s ps); simpl; auto. destruct (pos_equal_to ps p0); simpl; auto.
Qed.

Lemma ct_lit_c : forall b L c, ct b L (lit_c c).
Proof. intros. apply ct_accept_when, ct_change_error_message, ct_one_char. Qed.

Lemma ct_keyword : forall L kw r,
  ct (match kw with [] => true | _ => false end) L (keyword kw r).
Proof.
  intros L kw. revert L. induction kw as [|c kw IH]; intros L r s ps H; cbn [keyword].
  - apply (ct_return L); auto.
  - assert (G := ct_lit_c false L c s ps H). destruct (lit_c c s ps) as [r0 rem q| | |]; auto.
    simpl in G. assert (X := IH L r rem q ltac:(lia)). apply ctout_weak in X.
    apply (ctout_step false true s rem); auto.
Qed.

Lemma ct_foldl : forall L p f, ct false L p -> forall n st s ps, (length s < n)%nat ->
  (length s < L)%nat -> ctout true s (foldl n p st f s ps).
Proof.
  intros L p f H. induction n; intros st s ps N K; [lia|]. cbn [foldl].
  specialize (H s ps K). destruct (p s ps) as [r rem q| | |]; simpl in *; auto.
  - destruct st; simpl; auto.
    apply (ctout_step true true s rem); [lia|]. apply IHn; lia.
  - destruct st; simpl; auto.
Qed.

Lemma ct_foldl1 : forall L p f n st, ct false L p -> (L <= n)%nat -> ct false L (foldl1 n p st f).
Proof.
  intros L p f n st H N s ps K. unfold foldl1. assert (G := H s ps K).
  destruct (p s ps) as [r rem q| | |] eqn:E; auto.
  destruct n; [lia|]. cbn [foldl]. rewrite E. simpl in G. destruct st; simpl; auto.
  apply (ctout_step false true s rem); [lia|]. apply (ct_foldl L); auto; lia.
Qed.

Lemma ct_foldl_ri : forall L p f, ct false L p -> forall n st s ps, (length s < n)%nat ->
  (length s < L)%nat -> ctout true s (foldl_reject_incomplete n p st f s ps).
Proof.
  intros L p f H. induction n; intros st s ps N K; [lia|]. cbn [foldl_reject_incomplete].
  specialize (H s ps K). destruct (p s ps) as [r rem q| | |]; simpl in *; auto.
  - destruct st; simpl; auto.
    apply (ctout_step true true s rem); [lia|]. apply IHn; lia.
  - destruct (pos_equal_to ps p0); simpl; auto. destruct st; simpl; auto.
Qed.

Lemma ct_foldl_ri1 : forall L p f n st, ct false L p -> (L <= n)%nat ->
  ct false L (foldl_reject_incomplete1 n p st f).
Proof.
  intros L p f n st H N s ps K. unfold foldl_reject_incomplete1. assert (G := H s ps K).
  destruct (p s ps) as [r rem q| | |] eqn:E; auto.
  destruct n; [lia|]. cbn [foldl_reject_incomplete]. rewrite E. simpl in G. destruct st; simpl; auto.
  apply (ctout_step false true s rem); [lia|]. apply (ct_foldl_ri L); auto; lia.
Qed.

(** [L - 1] if something was read. *)
Definition rest (b : bool) (L : nat) : nat := if b then L else pred L.

Lemma rest_lt : forall (b : bool) (L : nat) (s s1 : str), (length s < L)%nat ->
  (if b then (length s1 <= length s)%nat else (length s1 < length s)%nat) ->
  (length s1 < rest b L)%nat.
Proof. intros [|] L s s1; simpl; lia. Qed.

Lemma ct_foldl_swp : forall L b p sp f n, ct b L sp -> ct false (rest b L) p -> (L <= n)%nat ->
  ct b L (foldl_start_with_parser n p sp f).
Proof.
  intros L b p sp f n H H2 N s ps K. unfold foldl_start_with_parser. specialize (H s ps K).
  destruct (sp s ps) as [r rem q| | |]; auto. simpl in H.
  replace b with (b && true)%bool by (destruct b; auto).
  apply (ctout_step b true s rem); auto.
  assert (X := rest_lt _ _ _ _ K H).
  eapply ct_foldl; [exact H2 | | exact X].
  destruct b; simpl in *; lia.
Qed.

Lemma ct_foldl_ri_swp : forall L b p sp f n, ct b L sp -> ct false (rest b L) p -> (L <= n)%nat ->
  ct b L (foldl_reject_incomplete_start_with_parser n p sp f).
Proof.
  intros L b p sp f n H H2 N s ps K. unfold foldl_reject_incomplete_start_with_parser.
  specialize (H s ps K).
  destruct (sp s ps) as [r rem q| | |]; auto. simpl in H.
  replace b with (b && true)%bool by (destruct b; auto).
  apply (ctout_step b true s rem); auto.
  assert (X := rest_lt _ _ _ _ K H).
  eapply ct_foldl_ri; [exact H2 | | exact X].
  destruct b; simpl in *; lia.
Qed.

Lemma ct_foldr_swp_aux : forall L b p sp f, ct false L p -> ct b L sp -> forall n s ps,
  (length s < n)%nat -> (length s < L)%nat -> ctout b s (foldr_start_with_parser n p sp f s ps).
Proof.
  intros L b p sp f H H2. induction n; intros s ps N K; [lia|]. cbn [foldr_start_with_parser].
  specialize (H s ps K). destruct (p s ps) as [r rem q| | |]; simpl in *; auto.
  assert (X := IHn rem q ltac:(lia) ltac:(lia)).
  destruct (foldr_start_with_parser n p sp f rem q) as [v s2 q2| | |]; auto.
  destruct (f v r); simpl in *; auto. destruct b; lia.
Qed.

Lemma ct_foldr_swp : forall L b p sp f n, ct false L p -> ct b L sp -> (L <= n)%nat ->
  ct b L (foldr_start_with_parser n p sp f).
Proof. intros L b p sp f n H H2 N s ps K. eapply ct_foldr_swp_aux; eauto. lia. Qed.

Lemma ct_foldr : forall L p st f n, ct false L p -> (L <= n)%nat -> ct true L (foldr n p st f).
Proof. intros. apply ct_foldr_swp; auto. apply ct_return. Qed.

Lemma ct_foldr_swp_some : forall L p sp f n, ct false L p -> ct true L sp -> (L <= n)%nat ->
  forall s ps r rem q, (length s < L)%nat -> p s ps = Accept r rem q ->
  ctout false s (foldr_start_with_parser n p sp f s ps).
Proof.
  intros L p sp f n H H2 N s ps r rem q K E. destruct n; [lia|].
  cbn [foldr_start_with_parser]. specialize (H s ps K) as G. rewrite E in *. simpl in G.
  assert (X := ct_foldr_swp_aux L true p sp f H H2 n rem q ltac:(lia) ltac:(lia)).
  destruct (foldr_start_with_parser n p sp f rem q) as [v s2 q2| | |]; auto.
  destruct (f v r); simpl in *; auto. lia.
Qed.

Lemma ct_foldr1 : forall L p st f n, ct false L p -> (L <= n)%nat -> ct false L (foldr1 n p st f).
Proof.
  intros L p st f n H N s ps K. unfold foldr1. assert (G := H s ps K).
  destruct (p s ps) as [r rem q| | |] eqn:E; auto.
  eapply ct_foldr_swp_some; eauto. apply ct_return.
Qed.

Lemma ct_iterate_read : forall L p, ct false L p -> forall n k acc s ps,
  (length s < n)%nat -> (length s < L)%nat ->
  ctout (k =? 0) s (iterate_impl n k p acc s ps).
Proof.
  intros L p H. induction n; intros k acc s ps N K; [lia|]. cbn [iterate_impl].
  destruct (k =? 0); [simpl; auto|].
  specialize (H s ps K). destruct (p s ps) as [r rem q| | |]; simpl in *; auto.
  destruct (push_back acc r); simpl; auto.
  assert (X := IHn (k - 1) v rem q ltac:(lia) ltac:(lia)). apply ctout_weak in X.
  apply (ctout_step false true s rem); auto.
Qed.

Lemma ct_iterate_count : forall L p, ct true L p -> forall n k acc s ps,
  (Z.to_nat k < n)%nat -> 0 <= k -> (length s < L)%nat ->
  ctout true s (iterate_impl n k p acc s ps).
Proof.
  intros L p H. induction n; intros k acc s ps N P K; [lia|]. cbn [iterate_impl].
  destruct (Z.eqb_spec k 0); [simpl; auto|].
  specialize (H s ps K). destruct (p s ps) as [r rem q| | |]; simpl in *; auto.
  destruct (push_back acc r); simpl; auto.
  apply (ctout_step true true s rem); auto. apply IHn; lia.
Qed.

Lemma ct_iterate : forall L b p n k, ct b L p -> (L <= n)%nat ->
  (b = false \/ 0 <= k < Z.of_nat n) -> ct ((k =? 0) || b) L (iterate_c n p k).
Proof.
  intros L b p n k H N C s ps K. unfold iterate_c.
  destruct b.
  - rewrite orb_true_r. destruct C as [C|C]; [discriminate|].
    eapply ct_iterate_count; eauto; lia.
  - rewrite orb_false_r. eapply ct_iterate_read; eauto. lia.
Qed.

Lemma ct_one_of_11 : forall L (l : list (bool * pfun)),
  Forall (fun x => ct (fst x) L (snd x)) l -> ct (existsb fst l) L (one_of_11 (map snd l)).
Proof.
  intros L l F. induction F as [|[b p] l H F IH]; intros s ps K; cbn [one_of_11 map snd existsb fst].
  - exact I.
  - simpl in H. specialize (H s ps K). specialize (IH s ps K).
    destruct (p s ps) as [r rem q|m q| |]; auto.
    + destruct (one_of_11 (map snd l) s ps); auto; apply (ct_or_l b (existsb fst l) s (Accept r rem q)); auto.
    + destruct (one_of_11 (map snd l) s ps); auto.
      * apply (ct_or_r b (existsb fst l) s (Accept r rem p0)); auto.
      * unfold later_result. destruct (pos_less p0 q); exact I.
Qed.

Lemma ct_one_of : forall cfg L l, Forall (fun x => ct (fst x) L (snd x)) l ->
  ct (existsb fst l) L (one_of cfg (map snd l)).
Proof.
  intros cfg L l F s ps K. eapply ctout_either; [apply one_of_either|]. apply (ct_one_of_11 L l); auto.
Qed.

(** Parsers applied one after the other. *)
Fixpoint seqct (L : nat) (l : list (bool * pfun)) : Prop :=
  match l with
  | [] => True
  | (b, p) :: l' => ct b L p /\ seqct (rest b L) l'
  end.

Lemma ct_sequence_11 : forall l L, seqct L l -> ct (forallb fst l) L (sequence_11 (map snd l)).
Proof.
  induction l as [|[b p] l IH]; intros L F s ps K; cbn [sequence_11 map snd forallb fst].
  - simpl; auto.
  - destruct F as (H & F). specialize (H s ps K).
    destruct (p s ps) as [r rem q| | |]; auto. simpl in H.
    apply (ctout_step b _ s rem); auto.
    apply (ct_transform _ (rest b L)); [apply IH; auto|]. eapply rest_lt; eauto.
Qed.

Lemma ct_skip_remaining : forall l L r, seqct L l ->
  ct (forallb fst l) L (nth_of_c_skip_remaining r (map snd l)).
Proof.
  induction l as [|[b p] l IH]; intros L r0 F s ps K;
    cbn [nth_of_c_skip_remaining map snd forallb fst].
  - simpl; auto.
  - destruct F as (H & F). specialize (H s ps K).
    destruct (p s ps) as [r rem q| | |]; auto. simpl in H.
    apply (ctout_step b _ s rem); auto. apply (IH (rest b L)); auto. eapply rest_lt; eauto.
Qed.

Lemma ct_nth_of_c_11_impl : forall l L k, seqct L l ->
  ct (forallb fst l) L (nth_of_c_11_impl k (map snd l)).
Proof.
  induction l as [|[b p] l IH]; intros L k F s ps K;
    cbn [nth_of_c_11_impl map snd forallb fst].
  - simpl; auto.
  - destruct F as (H & F). specialize (H s ps K).
    destruct (p s ps) as [r rem q| | |]; auto. simpl in H.
    apply (ctout_step b _ s rem); auto.
    destruct (k =? 0).
    + apply (ct_skip_remaining l (rest b L)); auto. eapply rest_lt; eauto.
    + apply (IH (rest b L)); auto. eapply rest_lt; eauto.
Qed.

Lemma ct_sequence : forall cfg l L, seqct L l -> ct (forallb fst l) L (sequence cfg (map snd l)).
Proof.
  intros cfg l L F s ps K. eapply ctout_either; [apply sequence_either|].
  apply (ct_sequence_11 l L); auto.
Qed.

Lemma ct_sequence_apply : forall cfg t l L, seqct L l ->
  ct (forallb fst l) L (sequence_apply cfg t (map snd l)).
Proof.
  intros cfg t l L F s ps K. unfold sequence_apply. destruct (_ && _)%bool; [|exact I].
  apply (ct_transform _ L); auto. apply ct_sequence; auto.
Qed.

Lemma ct_nth_of : forall cfg k l L, seqct L l -> ct (forallb fst l) L (nth_of_c cfg k (map snd l)).
Proof.
  intros cfg k l L F s ps K. eapply ctout_either; [apply nth_of_either|].
  unfold nth_of_c_11. destruct (map snd l) eqn:E; [exact I|].
  destruct (_ && _)%bool; [|exact I]. rewrite <- E. apply (ct_nth_of_c_11_impl l L); auto.
Qed.

Lemma ct_first_of : forall cfg l L, seqct L l -> ct (forallb fst l) L (first_of cfg (map snd l)).
Proof.
  intros cfg l L F s ps K. eapply ctout_either; [apply first_of_either|].
  unfold first_of_11. destruct (map snd l) eqn:E; [exact I|]. rewrite <- E.
  apply (ct_nth_of_c_11_impl l L); auto.
Qed.

Lemma ct_last_of : forall cfg l L, seqct L l -> ct (forallb fst l) L (last_of cfg (map snd l)).
Proof.
  intros cfg l L F s ps K. eapply ctout_either; [apply last_of_either|].
  unfold last_of_11. destruct (map snd l) eqn:E; [exact I|]. rewrite <- E.
  apply (ct_nth_of_c_11_impl l L); auto.
Qed.

Lemma ct_class : forall P m1 m2 p, char_class_parser P m1 m2 p ->
  (forall c, {P c} + {~ P c}) -> forall b L, ct b L p.
Proof.
  intros P m1 m2 p (A & B & C) D b L [|c s] ps K.
  - rewrite C. exact I.
  - destruct (D c).
    + rewrite (A c s ps (next_pos c ps)); auto; [|apply walk1; auto].
      destruct b; simpl; lia.
    + rewrite B by auto. exact I.
Qed.

Lemma ct_one_of_c : forall b L cfg cs, ct b L (one_of_c cfg cs).
Proof.
  intros b L cfg cs.
  assert (G : fits_one_of_c cfg (length cs) -> ct b L (one_of_c cfg cs)).
  { intros F. eapply ct_class; [apply one_of_c_class; auto | apply in_dec_char]. }
  destruct (cfg_std cfg) eqn:S; try (apply G; unfold fits_one_of_c; congruence).
  destruct (lt_dec (length cs) (limit_one_of cfg)).
  - apply G. intros _; auto.
  - intros s ps K. unfold one_of_c. rewrite S. rewrite one_of_c_98_unfit by auto. exact I.
Qed.

Lemma ct_one_char_except_c : forall b L cfg cs, ct b L (one_char_except_c cfg cs).
Proof.
  intros b L cfg cs.
  assert (G : fits_one_char_except cfg (length cs) -> ct b L (one_char_except_c cfg cs)).
  { intros F. eapply ct_class; [apply one_char_except_c_class; auto | apply not_in_dec_char]. }
  destruct (cfg_std cfg) eqn:S; try (apply G; unfold fits_one_char_except; congruence).
  destruct (lt_dec (length cs) (limit_one_char_except cfg)).
  - apply G. intros _; auto.
  - intros s ps K. unfold one_char_except_c. rewrite S. rewrite one_char_except_c_98_unfit by auto. exact I.
Qed.

Lemma ct_middle_of : forall cfg b1 b2 b3 L p1 p2 p3,
  ct b1 L p1 -> ct b2 (rest b1 L) p2 -> ct b3 (rest b2 (rest b1 L)) p3 ->
  ct (b1 && b2 && b3) L (middle_of cfg p1 p2 p3).
Proof.
  intros cfg b1 b2 b3 L p1 p2 p3 H1 H2 H3 s ps K. unfold middle_of.
  set (f := fun m => Some (unpaired (line ps) (col ps) m)).
  assert (X := ct_nth_of cfg 1 [(b1, p1); (b2, p2); (b3, transform_error_message p3 f)] L).
  cbn [map snd forallb fst] in X. rewrite andb_true_r, andb_assoc in X. apply X; auto.
  simpl. repeat split; auto. apply ct_transform_error_message; auto.
Qed.

Lemma ct_entire_input : forall cfg b L p m, ct b L p -> ct b L (entire_input cfg p m).
Proof.
  intros cfg b L p m H.
  assert (G : forall q, ct true (rest b L) q -> ct b L (first_of cfg [p; q])).
  { intros q Hq. assert (X := ct_first_of cfg [(b, p); (true, q)] L).
    cbn [map snd forallb fst] in X. simpl in X. rewrite andb_true_r in X. apply X. auto. }
  destruct m; cbn [entire_input]; apply G; try (apply ct_change_error_message); apply ct_empty.
Qed.

Lemma ct_ri_start : forall cfg b L p st, ct b L p ->
  ct true L (first_of cfg [return_ st; fail_at_first_char_expected p]).
Proof.
  intros cfg b L p st H.
  assert (X := ct_first_of cfg [(true, return_ st); (true, fail_at_first_char_expected p)] L).
  cbn in X. apply X. repeat split; auto. apply ct_return. eapply ct_fafce; eauto.
Qed.

Lemma ct_foldr_ri : forall cfg L n p st f, ct false L p -> (L <= n)%nat ->
  ct true L (foldr_reject_incomplete cfg n p st f).
Proof. intros. apply ct_foldr_swp; auto. eapply ct_ri_start; eauto. Qed.

Lemma ct_foldr_ri1 : forall cfg L n p st f, ct false L p -> (L <= n)%nat ->
  ct false L (foldr_reject_incomplete1 cfg n p st f).
Proof.
  intros cfg L n p st f H N s ps K. unfold foldr_reject_incomplete1. assert (G := H s ps K).
  destruct (p s ps) as [r rem q| | |] eqn:E; auto.
  eapply ct_foldr_swp_some; eauto. eapply ct_ri_start; eauto.
Qed.

(** *** The induction *)

Section Program.
Variables (cfg : config) (nul : nat -> bool) (rank : nat -> nat) (R K : nat) (env : program).
Hypothesis WF : well_founded_program nul rank R K env.

Lemma left_ok_all : forall e, every (loops_read nul rank R K) e -> left_ok nul rank R e = true.
Proof.
  induction e as [e IH] using pexpr_children_ind. intros Hev.
  assert (HC : forall c, In c (children e) -> left_ok nul rank R c = true).
  { intros c Hc. apply IH; auto. eapply every_child; eauto. }
  apply every_here in Hev. clear IH.
  destruct e; simpl in HC, Hev;
    try (assert (X := HC _ (or_introl eq_refl)));
    try (assert (Y := HC _ (or_intror (or_introl eq_refl))));
    try (assert (Z := HC _ (or_intror (or_intror (or_introl eq_refl)))));
    cbn [left_ok]; auto;
    try (rewrite ?X, ?Y, ?Z; simpl; repeat match goal with |- context [if ?b then _ else _] => destruct b end; reflexivity).
  - apply Nat.ltb_lt. auto.
  - apply forallb_forall. auto.
  - clear Hev; induction l as [|c l IHl]; auto; rewrite HC by (simpl; auto); simpl;
      destruct (nullable nul c); auto; apply IHl; simpl in *; auto.
  - clear Hev; induction l as [|c l IHl]; auto; rewrite HC by (simpl; auto); simpl;
      destruct (nullable nul c); auto; apply IHl; simpl in *; auto.
  - clear Hev; induction l as [|c l IHl]; auto; rewrite HC by (simpl; auto); simpl;
      destruct (nullable nul c); auto; apply IHl; simpl in *; auto.
  - clear Hev; induction l as [|c l IHl]; auto; rewrite HC by (simpl; auto); simpl;
      destruct (nullable nul c); auto; apply IHl; simpl in *; auto.
  - clear Hev; induction l as [|c l IHl]; auto; rewrite HC by (simpl; auto); simpl;
      destruct (nullable nul c); auto; apply IHl; simpl in *; auto.
Qed.

Definition tagged (n : nat) (l : list pexpr) : list (bool * pfun) :=
  map (fun c => (nullable nul c, eval cfg env n c)) l.

Lemma tagged_snd : forall n l, map snd (tagged n l) = map (eval cfg env n) l.
Proof. intros. unfold tagged. rewrite map_map. reflexivity. Qed.

Lemma tagged_forallb : forall n l, forallb fst (tagged n l) = forallb (nullable nul) l.
Proof. induction l; simpl; auto. rewrite IHl. auto. Qed.

Lemma tagged_existsb : forall n l, existsb fst (tagged n l) = existsb (nullable nul) l.
Proof. induction l; simpl; auto. rewrite IHl. auto. Qed.

Definition seq_ok (r : nat) := fix seq_ok (l : list pexpr) : bool :=
  match l with
  | [] => true
  | c :: l' => left_ok nul rank r c && (if nullable nul c then seq_ok l' else true)
  end.

Definition fuel_ok (n L r : nat) : Prop := (L * (R + 1) + r + K < n)%nat.

Lemma fuel_pred : forall n L r, fuel_ok n L r -> fuel_ok n (pred L) R \/ L = 0%nat.
Proof. intros n [|L] r H; [right; auto|left]. unfold fuel_ok in *. simpl. nia. Qed.

Lemma fuel_L : forall n L r, fuel_ok n L r -> (L <= n)%nat.
Proof. intros n L r H. unfold fuel_ok in *. nia. Qed.

Lemma ct_0 : forall b p, ct b 0 p.
Proof. intros b p s ps H. lia. Qed.

Lemma seqct_0 : forall l, seqct 0 l.
Proof. induction l as [|[[|] p] l IH]; simpl; auto; split; auto; apply ct_0. Qed.

Lemma seqct_tagged : forall n l L r, fuel_ok n L r ->
  (forall c, In c l -> forall L r, fuel_ok n L r -> left_ok nul rank r c = true ->
     ct (nullable nul c) L (eval cfg env n c)) ->
  (forall c, In c l -> left_ok nul rank R c = true) ->
  seq_ok r l = true -> seqct L (tagged n l).
Proof.
  induction l as [|c l IH]; intros L r FO H A S; simpl; auto.
  simpl in S. apply andb_true_iff in S as (S1 & S2).
  split; [eapply H; eauto; simpl; auto|].
  assert (H' : forall c, In c l -> forall L r, fuel_ok n L r -> left_ok nul rank r c = true ->
     ct (nullable nul c) L (eval cfg env n c)) by (intros; eapply H; eauto; simpl; auto).
  assert (A' : forall c, In c l -> left_ok nul rank R c = true) by (intros; apply A; simpl; auto).
  destruct (nullable nul c); simpl.
  - eapply IH; eauto.
  - destruct (fuel_pred _ _ _ FO) as [FO' | ->]; [|apply seqct_0].
    eapply IH; eauto.
    clear - A'. induction l as [|d l IH]; auto. simpl. rewrite A' by (simpl; auto).
    destruct (nullable nul d); simpl; auto. apply IH. intros; apply A'; simpl; auto.
Qed.

Lemma eval_ct : forall n e, every (loops_read nul rank R K) e -> forall L r,
  fuel_ok n L r -> left_ok nul rank r e = true -> ct (nullable nul e) L (eval cfg env n e).
Proof.
  intros n. induction n as [n IHn] using lt_wf_ind.
  intros e. induction e as [e IH] using pexpr_children_ind. intros Hev.
  assert (HC : forall c, In c (children e) -> forall L r, fuel_ok n L r ->
     left_ok nul rank r c = true -> ct (nullable nul c) L (eval cfg env n c)).
  { intros c Hc. apply IH; auto. eapply every_child; eauto. }
  assert (HA : forall c, In c (children e) -> left_ok nul rank R c = true).
  { intros c Hc. apply left_ok_all. eapply every_child; eauto. }
  assert (HR : forall c, In c (children e) -> forall L r b, fuel_ok n L r ->
     (b = true -> left_ok nul rank r c = true) -> ct (nullable nul c) (rest b L) (eval cfg env n c)).
  { intros c Hc L r [|] FO LO; simpl.
    - eapply HC; eauto.
    - destruct (fuel_pred _ _ _ FO) as [FO' | ->]; [|apply ct_0]. eapply HC; eauto. }
  apply every_here in Hev. clear IH.
  intros L r FO LO. assert (NL := fuel_L _ _ _ FO).
  assert (HL : forall l, children e = l -> seq_ok r l = true -> seqct L (tagged n l)).
  { intros l <- S. eapply seqct_tagged; eauto. }
  destruct e; simpl in HC, HA, HR, Hev;
    try (assert (X := HC _ (or_introl eq_refl) L r FO));
    try (assert (Y := HC _ (or_intror (or_introl eq_refl)) L r FO));
    try specialize (HL _ eq_refl);
    cbn [left_ok] in LO; try specialize (X LO); try specialize (HL LO).
  all: try solve [destruct n; cbn [eval]; cbn [nullable]; first
    [ apply ct_return | apply ct_fail | apply ct_one_char | apply ct_empty
    | apply ct_accept_when; assumption | apply ct_change_error_message; assumption
    | apply ct_transform; assumption
    | apply ct_transform_error; tauto
    | apply ct_transform_error_message; assumption
    | apply ct_always; assumption | eapply ct_look_ahead; eassumption
    | eapply ct_optional; eassumption | eapply ct_except; eassumption
    | eapply ct_if; eassumption | eapply ct_fafce; eassumption
    | apply ct_keyword
    | apply ct_one_of_c | apply ct_one_char_except_c
    | apply ct_entire_input; assumption ] ].
  all: try solve [ rewrite Hev in X; destruct n; cbn [eval]; cbn [nullable]; try rewrite Hev; first
    [ intros s0 ps0 K0; eapply ct_foldl; eauto; lia
    | intros s0 ps0 K0; eapply ct_foldl_ri; eauto; lia
    | apply ct_foldl1; auto | apply ct_foldl_ri1; auto
    | apply ct_foldr; auto | apply ct_foldr1; auto
    | apply ct_foldr_ri; auto | apply ct_foldr_ri1; auto ] ].
  all: try match type of HL with seqct _ _ =>
    let go Q := (rewrite tagged_snd, tagged_forallb in Q; destruct n; exact Q) in
    first [ assert (Q := ct_sequence cfg _ L HL); go Q
          | assert (Q := ct_sequence_apply cfg t _ L HL); go Q
          | assert (Q := ct_nth_of cfg k _ L HL); go Q
          | assert (Q := ct_first_of cfg _ L HL); go Q
          | assert (Q := ct_last_of cfg _ L HL); go Q ] end.
  - (* PNative *)
    destruct Hev as (R1 & R2). intros s ps _. cbn [nullable].
    replace (eval cfg env n (PNative p)) with p by (destruct n; reflexivity).
    destruct (p s ps) eqn:E; simpl; auto.
    + eapply R2; eauto.
    + eapply R1; eauto.
  - (* PRef *)
    destruct n as [|n']; [unfold fuel_ok in FO; lia|].
    cbn [eval nullable]. apply Nat.ltb_lt in LO.
    assert (Z : ct (nullable nul (env k)) L (eval cfg env n' (env k))).
    { apply (IHn n' ltac:(lia) (env k) (wfp_local _ _ _ _ _ WF k) L (rank k)).
      - unfold fuel_ok in *. lia.
      - apply (wfp_left _ _ _ _ _ WF). }
    destruct (nul k) eqn:N; [eapply ct_nul; eauto|].
    rewrite (wfp_nul _ _ _ _ _ WF k N) in Z. auto.
  - (* foldl_start_with_parser *)
    apply andb_true_iff in LO as (L1 & L2).
    assert (P1 := HR e1 ltac:(auto) L r (nullable nul e2) FO).
    rewrite Hev in P1. specialize (Y L1).
    destruct n; cbn [eval nullable]; apply ct_foldl_swp; auto; apply P1; intros N; rewrite N in L2; auto.
  - apply andb_true_iff in LO as (L1 & L2).
    assert (P1 := HR e1 ltac:(auto) L r (nullable nul e2) FO).
    rewrite Hev in P1. specialize (Y L1).
    destruct n; cbn [eval nullable]; apply ct_foldl_ri_swp; auto; apply P1; intros N; rewrite N in L2; auto.
  - apply andb_true_iff in LO as (L1 & L2). specialize (X L1). specialize (Y L2). rewrite Hev in X.
    destruct n; cbn [eval nullable]; apply ct_foldr_swp; auto.
  - (* iterate *)
    assert (C : nullable nul e = false \/ 0 <= k < Z.of_nat n).
    { destruct Hev as [C|C]; [left; auto|right]. unfold fuel_ok in FO. lia. }
    destruct n; cbn [eval nullable]; apply ct_iterate; auto.
  - (* one_of *)
    cbn [nullable]. rewrite <- (tagged_existsb n).
    replace (eval cfg env n (POneOf l)) with (one_of cfg (map snd (tagged n l)))
      by (rewrite tagged_snd; destruct n; reflexivity).
    apply ct_one_of. unfold tagged. apply Forall_forall. intros x Hx.
    apply in_map_iff in Hx as (c & <- & Hc). simpl.
    rewrite forallb_forall in LO. eapply HC; eauto.
  - (* middle_of *)
    apply andb_true_iff in LO as (L1 & L2).
    assert (P2 := HR e2 ltac:(auto) L r (nullable nul e1) FO).
    assert (P3 : ct (nullable nul e3) (rest (nullable nul e2) (rest (nullable nul e1) L))
                   (eval cfg env n e3)).
    { destruct (nullable nul e1); simpl.
      - apply andb_true_iff in L2 as (L2 & L3). apply (HR e3 ltac:(auto) L r _ FO).
        intros N. rewrite N in L3. auto.
      - destruct (fuel_pred _ _ _ FO) as [FO' | ->].
        + apply (HR e3 ltac:(auto) (pred L) R _ FO'). auto.
        + destruct (nullable nul e2); apply ct_0. }
    replace (eval cfg env n (PMiddleOf e1 e2 e3))
      with (middle_of cfg (eval cfg env n e1) (eval cfg env n e2) (eval cfg env n e3))
      by (destruct n; reflexivity).
    apply ct_middle_of; auto.
    + apply P2. intros N. rewrite N in L2. apply andb_true_iff in L2 as (L2 & _). auto.
Qed.

Theorem eval_terminates : forall n e s ps r,
  every (loops_read nul rank R K) e -> left_ok nul rank r e = true ->
  ((length s + 1) * (R + 1) + r + K < n)%nat -> eval cfg env n e s ps <> OutOfFuel.
Proof.
  intros n e s ps r Hev LO N E.
  assert (X := eval_ct n e Hev (length s + 1) r N LO s ps ltac:(lia)).
  rewrite E in X. exact X.
Qed.

Theorem eval_reads : forall n e s ps r v rem q,
  every (loops_read nul rank R K) e -> left_ok nul rank r e = true ->
  ((length s + 1) * (R + 1) + r + K < n)%nat -> nullable nul e = false ->
  eval cfg env n e s ps = Accept v rem q -> (length rem < length s)%nat.
Proof.
  intros n e s ps r v rem q Hev LO N NU E.
  assert (X := eval_ct n e Hev (length s + 1) r N LO s ps ltac:(lia)).
  rewrite E, NU in X. exact X.
Qed.

End Program.

(** ** Left recursion *)

Definition done (o : outcome) : Prop :=
  match o with Accept _ _ _ | Reject _ _ => True | _ => False end.

Lemma done_either : forall a b, either a b -> done a -> done b.
Proof.
  intros a b [-> | H]; simpl; [tauto|]. destruct a, b; simpl in *; try discriminate; auto.
Qed.

Lemma done_one_of_11 : forall l p s ps, In p l -> done (one_of_11 l s ps) -> done (p s ps).
Proof.
  induction l as [|q l IH]; intros p s ps H D; [destruct H|].
  cbn [one_of_11] in D. destruct H as [<- | I].
  - destruct (q s ps); simpl; auto.
  - apply (IH p s ps I). destruct (q s ps); destruct (one_of_11 l s ps); simpl in *; auto.
Qed.

Lemma eval_eq : forall cfg env n e, eval cfg env n e =
    match e with
    | PNative p => p
    | PRef k =>
        match n with
        | O => fun _ _ => OutOfFuel
        | S n' => fun s ps => eval cfg env n' (env k) s ps
        end
    | PReturn v => return_ v
    | PFail m => fail m
    | POneChar => one_char
    | PEmpty r => empty r
    | PAcceptWhen p pr m => accept_when (eval cfg env n p) pr m
    | PChangeErrorMessage p m => change_error_message (eval cfg env n p) m
    | PTransform p f => transform (eval cfg env n p) f
    | PTransformError p f => transform_error (eval cfg env n p) f
    | PTransformErrorMessage p f => transform_error_message (eval cfg env n p) f
    | PAlways p v => always (eval cfg env n p) v
    | PLookAhead p => look_ahead (eval cfg env n p)
    | POptional p d => optional (eval cfg env n p) d
    | PExcept p v m => except (eval cfg env n p) v m
    | PIf p t f => if_ (eval cfg env n p) t f
    | PFailAtFirstCharExpected p => fail_at_first_char_expected (eval cfg env n p)
    | PKeyword kw r => keyword kw r
    | PFoldl p st f => foldl n (eval cfg env n p) st f
    | PFoldl1 p st f => foldl1 n (eval cfg env n p) st f
    | PFoldlRejectIncomplete p st f => foldl_reject_incomplete n (eval cfg env n p) st f
    | PFoldlRejectIncomplete1 p st f => foldl_reject_incomplete1 n (eval cfg env n p) st f
    | PFoldlStartWithParser p sp f => foldl_start_with_parser n (eval cfg env n p) (eval cfg env n sp) f
    | PFoldlRejectIncompleteStartWithParser p sp f =>
        foldl_reject_incomplete_start_with_parser n (eval cfg env n p) (eval cfg env n sp) f
    | PFoldrStartWithParser p sp f => foldr_start_with_parser n (eval cfg env n p) (eval cfg env n sp) f
    | PFoldr p st f => foldr n (eval cfg env n p) st f
    | PFoldr1 p st f => foldr1 n (eval cfg env n p) st f
    | PFoldrRejectIncomplete p st f => foldr_reject_incomplete cfg n (eval cfg env n p) st f
    | PFoldrRejectIncomplete1 p st f => foldr_reject_incomplete1 cfg n (eval cfg env n p) st f
    | PIterate p k => iterate_c n (eval cfg env n p) k
    | POneOf l => one_of cfg (map (eval cfg env n) l)
    | PSequence l => sequence cfg (map (eval cfg env n) l)
    | PSequenceApply t l => sequence_apply cfg t (map (eval cfg env n) l)
    | PNthOf k l => nth_of_c cfg k (map (eval cfg env n) l)
    | PFirstOf l => first_of cfg (map (eval cfg env n) l)
    | PLastOf l => last_of cfg (map (eval cfg env n) l)
    | POneOfC cs => one_of_c cfg cs
    | POneCharExceptC cs => one_char_except_c cfg cs
    | PMiddleOf p1 p2 p3 => middle_of cfg (eval cfg env n p1) (eval cfg env n p2) (eval cfg env n p3)
    | PEntireInput p m => entire_input cfg (eval cfg env n p) m
    end.
Proof. intros cfg env [|n] []; reflexivity. Qed.

Lemma done_lead : forall cfg env n e c, leads e c -> forall s ps,
  done (eval cfg env n e s ps) -> done (eval cfg env n c s ps).
Proof.
  intros cfg env n e c H s ps D.
  assert (Hd : forall l', done (sequence_11 (map (eval cfg env n) (c :: l')) s ps) ->
    done (eval cfg env n c s ps)).
  { intros l'. cbn [map sequence_11]. destruct (eval cfg env n c s ps); simpl; auto. }
  assert (Hn : forall k l', done (nth_of_c_11_impl k (map (eval cfg env n) (c :: l')) s ps) ->
    done (eval cfg env n c s ps)).
  { intros k l'. cbn [map nth_of_c_11_impl]. destruct (eval cfg env n c s ps); simpl; auto. }
  rewrite eval_eq in D.
  destruct e; simpl in H; try contradiction; try subst.
  all: try solve [
    unfold accept_when, change_error_message, transform, transform_error,
      transform_error_message, always, look_ahead, optional, except, if_,
      fail_at_first_char_expected, foldl1, foldl_reject_incomplete1, foldr1, foldr_reject_incomplete1,
      foldl_start_with_parser, foldl_reject_incomplete_start_with_parser in D;
    match type of D with context [match eval ?a ?b ?c ?o ?d ?g with _ => _ end] =>
      destruct (eval a b c o d g); simpl; auto end].
  all: try solve [destruct n; [destruct D|]; unfold foldr, foldr_reject_incomplete in D;
    cbn [foldl foldl_reject_incomplete foldr_start_with_parser] in D;
    match type of D with context [match eval ?a ?b ?c ?o ?d ?g with _ => _ end] =>
      destruct (eval a b c o d g); simpl; auto end].
  - destruct H as (NZ & ->). destruct n; [destruct D|].
    unfold iterate_c in D. cbn [iterate_impl] in D.
    destruct (Z.eqb_spec k 0); [contradiction|].
    destruct (eval cfg env (S n) e s ps); simpl; auto.
  - apply (done_one_of_11 (map (eval cfg env n) l)); [apply in_map; auto|].
    eapply done_either; [apply one_of_either|]. exact D.
  - destruct H as (l' & ->). apply (Hd l').
    eapply done_either; [apply sequence_either|]. exact D.
  - destruct H as (l' & ->). apply (Hd l').
    unfold sequence_apply in D. destruct (_ && _)%bool in D; [|destruct D].
    apply (done_either _ _ (sequence_either cfg _ _ _)). unfold transform in D.
    destruct (sequence cfg (map (eval cfg env n) (c :: l')) s ps); simpl; auto.
  - destruct H as (NZ & l' & ->). apply (Hn k l').
    assert (D' : done (nth_of_c_11 k (map (eval cfg env n) (c :: l')) s ps)).
    { eapply done_either; [apply nth_of_either|]. exact D. }
    unfold nth_of_c_11 in D'. cbn [map] in D' |- *.
    destruct (Z.leb_spec 0 k); [|lia]. destruct (Z.ltb_spec k (Z.of_nat (length (eval cfg env n c :: map (eval cfg env n) l')))).
    + exact D'.
    + simpl in *. rewrite map_length in *. lia.
  - destruct H as (l' & ->).
    assert (D' : done (first_of_11 (map (eval cfg env n) (c :: l')) s ps)).
    { eapply done_either; [apply first_of_either|]. exact D. }
    apply (Hn _ l' D').
  - destruct H as (l' & ->).
    assert (D' : done (last_of_11 (map (eval cfg env n) (c :: l')) s ps)).
    { eapply done_either; [apply last_of_either|]. exact D. }
    eapply (Hn _ l'); exact D'.
  - unfold middle_of in D. apply (done_either _ _ (nth_of_either _ _ _ _ _)) in D.
    cbn -[eval] in D. destruct (eval cfg env n e1 s ps); simpl; auto.
  - assert (X : forall q, done (first_of cfg [eval cfg env n e; q] s ps) -> done (eval cfg env n e s ps)).
    { intros q Q. apply (done_either _ _ (first_of_either _ _ _ _)) in Q. cbn -[eval] in Q.
      destruct (eval cfg env n e s ps); simpl; auto. }
    destruct m; cbn [entire_input] in D; eapply X; exact D.
Qed.

Lemma begins_done : forall cfg env e k, begins env e k -> forall n s ps,
  done (eval cfg env n e s ps) -> exists m, (m <= n)%nat /\ done (eval cfg env m (PRef k) s ps).
Proof.
  intros cfg env e k B. induction B as [k | j k B IH | e c k Le B IH]; intros n s ps D.
  - exists n. auto.
  - destruct n; [destruct D|]. cbn [eval] in D. destruct (IH _ _ _ D) as (m & ? & ?).
    exists m. split; auto.
  - apply (IH n). eapply done_lead; eauto.
Qed.

Lemma left_recursion_never : forall cfg env k, begins env (env k) k -> forall n s ps,
  ~ done (eval cfg env n (PRef k) s ps).
Proof.
  intros cfg env k B n. induction n as [n IH] using lt_wf_ind. intros s ps D.
  destruct n; [destruct D|]. cbn [eval] in D.
  destruct (begins_done _ _ _ _ B _ _ _ D) as (m & L & D').
  apply (IH m ltac:(lia) s ps D').
Qed.
