(** Lemmas about keyword, int_, token, spaces, middle_of, entire_input and the
    transforming combinators. *)

From Coq Require Import ZArith List Bool Lia.
From Verif Require Import Base Util Combinators Variadic Parsers Spec Proofs_Pos
  Proofs_Fold Proofs_Variadic Proofs_Parsers.
Import ListNotations.
Open Scope Z_scope.

(** ** Runs of a single character parser *)

Lemma walk_cons_inv : forall c w ps ps', walk ps (c :: w) ps' ->
  exists ps1, walk ps [c] ps1 /\ walk ps1 w ps'.
Proof.
  intros c w ps ps' H. apply walk_iff in H. exists (next_pos c ps). split.
  - apply walk1; auto.
  - apply walk_iff. auto.
Qed.

Lemma walk_cons : forall c w ps ps1 ps', walk ps [c] ps1 -> walk ps1 w ps' ->
  walk ps (c :: w) ps'.
Proof. intros. apply walk_iff. apply walk1 in H as ->. apply walk_iff in H0 as ->. auto. Qed.

Lemma walk_nil_iff : forall ps ps', walk ps [] ps' <-> ps' = ps.
Proof. intros. rewrite walk_iff. reflexivity. Qed.

Lemma walk_app : forall u w ps ps1 ps2, walk ps u ps1 -> walk ps1 w ps2 ->
  walk ps (u ++ w) ps2.
Proof.
  intros u w ps ps1 ps2 H1 H2. apply walk_iff in H1 as ->. apply walk_iff in H2 as ->.
  apply walk_iff. symmetry. apply adv_app.
Qed.

Lemma class_accept : forall P m1 m2 p, char_class_parser P m1 m2 p ->
  (forall c, {P c} + {~ P c}) ->
  forall s ps v s' ps', p s ps = Accept v s' ps' <->
    exists c, P c /\ s = c :: s' /\ v = VChar c /\ walk ps [c] ps'.
Proof.
  intros P m1 m2 p (A & B & C) D s ps v s' ps'. split.
  - intros H. destruct s as [|c s]; [rewrite C in H; discriminate|].
    destruct (D c) as [Pc|Nc]; [|rewrite B in H by auto; discriminate].
    assert (W : walk ps [c] (next_pos c ps)) by (apply walk1; auto).
    rewrite (A c s ps _ Pc W) in H. inversion H; subst. exists c; auto.
  - intros (c & Pc & -> & -> & W). apply A; auto.
Qed.

Lemma class_reject : forall P m1 m2 p, char_class_parser P m1 m2 p ->
  (forall c, {P c} + {~ P c}) ->
  forall s ps, rejects p s ps <-> not_starting_with P s.
Proof.
  intros P m1 m2 p (A & B & C) D s ps. split.
  - intros (m & pe & H). destruct s as [|c s]; simpl; auto. intros Pc.
    assert (W : walk ps [c] (next_pos c ps)) by (apply walk1; auto).
    rewrite (A c s ps _ Pc W) in H. discriminate.
  - intros N. destruct s as [|c s].
    + exists m1, ps; auto.
    + exists m2, ps; auto.
Qed.

Lemma class_finishes : forall P m1 m2 p, char_class_parser P m1 m2 p ->
  (forall c, {P c} + {~ P c}) -> forall s ps, finishes p s ps.
Proof.
  intros P m1 m2 p H D s ps.
  destruct s as [|c s].
  - right. apply (class_reject P m1 m2 p H D); simpl; auto.
  - destruct (D c).
    + left. do 3 eexists. eapply (class_accept P m1 m2 p H D).
      exists c. repeat split; auto. apply walk1; reflexivity.
    + right. apply (class_reject P m1 m2 p H D); simpl; auto.
Qed.

Lemma class_runs : forall P m1 m2 p, char_class_parser P m1 m2 p ->
  (forall c, {P c} + {~ P c}) ->
  forall rs s ps s' ps', runs p s ps rs s' ps' <->
    exists w, s = w ++ s' /\ Forall P w /\ rs = map VChar w /\ walk ps w ps'.
Proof.
  intros P m1 m2 p H D rs. induction rs as [|r rs IH]; intros s ps s' ps'; split.
  - intros R; inversion R; subst. exists []. repeat split; auto. constructor.
  - intros (w & -> & _ & E & W). destruct w; [|discriminate].
    apply walk_nil_iff in W as ->. constructor.
  - intros R. apply runs_cons_inv in R as (s1 & ps1 & E & R).
    apply (class_accept P m1 m2 p H D) in E as (c & Pc & -> & -> & W).
    apply IH in R as (w & -> & F & -> & W2).
    exists (c :: w). repeat split; auto. eapply walk_cons; eauto.
  - intros (w & -> & F & E & W). destruct w as [|c w]; [discriminate|].
    simpl in E; injection E; intros -> ->.
    apply walk_cons_inv in W as (ps1 & W1 & W2). inversion F; subst.
    econstructor.
    + apply (class_accept P m1 m2 p H D). exists c. repeat split; eauto.
    + apply IH. exists w; auto.
Qed.

(** ** spaces and token (C28) *)

Lemma space_dec : forall c, {space_char c} + {~ space_char c}.
Proof.
  intros. unfold space_char.
  destruct (Z.eq_dec c 32), (Z.eq_dec c 13), (Z.eq_dec c 10), (Z.eq_dec c 9); tauto.
Qed.

Lemma repeated_space_accept : forall n s ps v s' ps',
  repeated n space s ps = Accept v s' ps' <->
  exists w, s = w ++ s' /\ Forall space_char w /\ not_starting_with space_char s'
    /\ (length w < n)%nat /\ walk ps w ps' /\ v = VSeq (map VChar w).
Proof.
  intros. rewrite repeated_accept. split.
  - intros (rs & m & pe & -> & L & R & S).
    apply (class_runs _ _ _ _ space_class space_dec) in R as (w & -> & F & -> & W).
    exists w. rewrite map_length in L. repeat split; auto.
    eapply (class_reject _ _ _ _ space_class space_dec). exists m, pe; eauto.
  - intros (w & -> & F & N & L & W & ->).
    apply (class_reject _ _ _ _ space_class space_dec s' ps') in N as (m & pe & S).
    exists (map VChar w), m, pe. rewrite map_length. repeat split; auto.
    apply (class_runs _ _ _ _ space_class space_dec). exists w; auto.
Qed.

Lemma spaces_accept : forall n s ps v s' ps',
  spaces n s ps = Accept v s' ps' <->
  exists w, w <> [] /\ s = w ++ s' /\ Forall space_char w /\ not_starting_with space_char s'
    /\ (length w < n)%nat /\ walk ps w ps' /\ v = VSeq (map VChar w).
Proof.
  intros. unfold spaces. rewrite repeated1_accept. split.
  - intros (rs & m & pe & -> & Ne & L & R & S).
    apply (class_runs _ _ _ _ space_class space_dec) in R as (w & -> & F & -> & W).
    exists w. rewrite map_length in L. repeat split; auto.
    + intros ->; auto.
    + eapply (class_reject _ _ _ _ space_class space_dec). exists m, pe; eauto.
  - intros (w & Ne & -> & F & N & L & W & ->).
    apply (class_reject _ _ _ _ space_class space_dec s' ps') in N as (m & pe & S).
    exists (map VChar w), m, pe. rewrite map_length. repeat split; auto.
    + destruct w; [congruence|discriminate].
    + apply (class_runs _ _ _ _ space_class space_dec). exists w; auto.
Qed.

Lemma spaces_reject : forall n s ps m pe,
  spaces n s ps = Reject m pe <->
  pe = ps /\ ((s = [] /\ m = unexpected_end_of_input) \/
    (s <> [] /\ not_starting_with space_char s /\ m = whitespace_expected)).
Proof.
  intros. unfold spaces, repeated1. rewrite foldl1_reject.
  destruct space_class as (A & B & C). destruct s as [|c s].
  - rewrite C. split.
    + intros H; inversion H; subst. auto.
    + intros (-> & [[_ ->] | [N _]]); [auto|congruence].
  - destruct (space_dec c) as [Pc|Nc].
    + assert (W : walk ps [c] (next_pos c ps)) by (apply walk1; auto).
      rewrite (A c s ps _ Pc W). split; [discriminate|].
      intros (_ & [[N _] | (_ & N & _)]); [discriminate|]. destruct (N Pc).
    + rewrite B by auto. split.
      * intros H; inversion H; subst. split; auto. right; repeat split; auto; discriminate.
      * intros (-> & [[N _] | (_ & N & ->)]); [discriminate|]. auto.
Qed.

Lemma repeated_space_finishes : forall n s ps, (length s < n)%nat ->
  exists v s' ps', repeated n space s ps = Accept v s' ps'.
Proof.
  intros n s ps L.
  assert (X : exists w s', s = w ++ s' /\ Forall space_char w /\ not_starting_with space_char s').
  { clear L. induction s as [|c s IH].
    - exists [], []. repeat split; auto.
    - destruct (space_dec c).
      + destruct IH as (w & s' & -> & F & N). exists (c :: w), s'. repeat split; auto.
      + exists [], (c :: s). repeat split; auto. }
  destruct X as (w & s' & -> & F & N).
  exists (VSeq (map VChar w)), s', (adv ps w). apply repeated_space_accept.
  exists w. repeat split; auto.
  - rewrite app_length in L. lia.
  - apply walk_iff; auto.
Qed.

Lemma repeated_not_reject : forall n p s ps m pe, repeated n p s ps <> Reject m pe.
Proof. intros. apply foldl_not_reject. Qed.

Lemma token_accept : forall cfg n p s ps r s' ps', fits_sequence cfg 2 ->
  (token cfg n p s ps = Accept r s' ps' <->
   exists s1 ps1 w, p s ps = Accept r s1 ps1 /\ s1 = w ++ s' /\ Forall space_char w
     /\ not_starting_with space_char s' /\ (length w < n)%nat /\ walk ps1 w ps').
Proof.
  intros. unfold token. rewrite first_of_2 by auto. split.
  - destruct (p s ps) as [v s1 ps1 | | | ] eqn:E; try discriminate.
    destruct (repeated n space s1 ps1) as [v2 s2 ps2 | | | ] eqn:E2; try discriminate.
    intros Q; inversion Q; subst.
    apply repeated_space_accept in E2 as (w & -> & F & N & L & W & _).
    exists (w ++ s'), ps1, w. repeat split; auto.
  - intros (s1 & ps1 & w & -> & -> & F & N & L & W).
    assert (E2 : repeated n space (w ++ s') ps1 = Accept (VSeq (map VChar w)) s' ps').
    { apply repeated_space_accept. exists w; auto 7. }
    rewrite E2. auto.
Qed.

Lemma token_reject : forall cfg n p s ps m pe, fits_sequence cfg 2 ->
  (token cfg n p s ps = Reject m pe <-> p s ps = Reject m pe).
Proof.
  intros. unfold token. rewrite first_of_2 by auto.
  destruct (p s ps) as [v s1 ps1 | | | ] eqn:E; split; try discriminate; auto.
  destruct (repeated n space s1 ps1) eqn:E2; try discriminate.
  exfalso. eapply repeated_not_reject; eauto.
Qed.

(** ** keyword (C24) *)

Lemma keyword_accept : forall kw r s ps v s' ps',
  keyword kw r s ps = Accept v s' ps' <-> s = kw ++ s' /\ v = r /\ walk ps kw ps'.
Proof.
  induction kw as [|c kw IH]; intros r s ps v s' ps'.
  - simpl. unfold return_. rewrite walk_nil_iff. split; intros H.
    + inversion H; auto.
    + destruct H as (-> & -> & ->). auto.
  - cbn [keyword]. destruct (lit_c_class c) as (A & B & C). destruct s as [|d s].
    + rewrite C. split; [discriminate|]. intros (H & _); discriminate.
    + destruct (Z.eq_dec d c) as [->|N].
      * assert (W : walk ps [c] (next_pos c ps)) by (apply walk1; auto).
        rewrite (A c s ps _ eq_refl W). rewrite IH. split.
        -- intros (-> & -> & W2). repeat split; auto. eapply walk_cons; eauto.
        -- intros (H & -> & W2). simpl in H; injection H; intros ->. repeat split; auto.
           apply walk_cons_inv in W2 as (ps1 & W1 & W2). apply walk1 in W1 as ->. auto.
      * rewrite B by auto. split; [discriminate|]. intros (H & _). simpl in H. congruence.
Qed.

Lemma keyword_reject : forall kw r s ps m pe,
  keyword kw r s ps = Reject m pe <->
  exists u c kw' s1, kw = u ++ c :: kw' /\ s = u ++ s1
    /\ not_starting_with (fun d => d = c) s1 /\ m = literal_expected c /\ walk ps u pe.
Proof.
  induction kw as [|c kw IH]; intros r s ps m pe.
  - simpl. split; [discriminate|]. intros (u & c & kw' & s1 & H & _). destruct u; discriminate.
  - cbn [keyword]. destruct (lit_c_class c) as (A & B & C).
    assert (Direct : not_starting_with (fun d => d = c) s ->
      (Reject (literal_expected c) ps = Reject m pe <->
       exists u c' kw' s1, c :: kw = u ++ c' :: kw' /\ s = u ++ s1
         /\ not_starting_with (fun d => d = c') s1 /\ m = literal_expected c' /\ walk ps u pe)).
    { intros N. split.
      - intros H; inversion H; subst. exists [], c, kw, s. repeat split; auto.
        constructor.
      - intros (u & c' & kw' & s1 & E & -> & N1 & -> & W). destruct u as [|x u].
        + simpl in E; injection E; intros; subst. apply walk_nil_iff in W as ->. auto.
        + simpl in E; injection E; intros; subst. exfalso. apply N. auto. }
    destruct s as [|d s].
    + rewrite C. apply Direct. exact I.
    + destruct (Z.eq_dec d c) as [->|N].
      * assert (W : walk ps [c] (next_pos c ps)) by (apply walk1; auto).
        rewrite (A c s ps _ eq_refl W). rewrite IH. split.
        -- intros (u & c' & kw' & s1 & -> & -> & N1 & -> & W2).
           exists (c :: u), c', kw', s1. repeat split; auto. eapply walk_cons; eauto.
        -- intros (u & c' & kw' & s1 & E & E2 & N1 & -> & W2). destruct u as [|x u].
           ++ simpl in E, E2; injection E; intros; subst. simpl in N1. congruence.
           ++ simpl in E, E2; injection E; injection E2; intros; subst.
              exists u, c', kw', s1. repeat split; auto.
              apply walk_cons_inv in W2 as (ps1 & W1 & W2). apply walk1 in W1 as ->. auto.
      * rewrite B by auto. apply Direct. exact N.
Qed.

Lemma keyword_finishes : forall kw r s ps, finishes (keyword kw r) s ps.
Proof.
  induction kw as [|c kw IH]; intros r s ps.
  - left. do 3 eexists. reflexivity.
  - pose proof (IH r) as H. unfold finishes, accepts, rejects in *. cbn [keyword].
    destruct (class_finishes _ _ _ _ (lit_c_class c) (fun d => Z.eq_dec d c) s ps)
      as [(v & s1 & ps1 & ->) | (m & pe & ->)]; eauto.
Qed.

(** ** int_ (C26) *)

Lemma digit_val_accept : forall s ps v s' ps',
  digit_val s ps = Accept v s' ps' <->
  exists c, digit_char c /\ s = c :: s' /\ v = VInt (c - 48) /\ walk ps [c] ps'.
Proof.
  assert (K : forall c, digit_char c -> digit_to_int (VChar c) = Some (VInt (c - 48))).
  { intros c H. unfold digit_to_int, digit_to_int_c; cbn [as_int].
    unfold digit_char in H.
    repeat (match goal with |- context [?x =? ?y] => destruct (Z.eqb_spec x y) end;
            [subst; reflexivity|]). lia. }
  intros. unfold digit_val, transform. split.
  - destruct (digit s ps) as [r s1 ps1 | | | ] eqn:E; try discriminate.
    apply (class_accept _ _ _ _ digit_class digit_dec) in E as (c & Pc & -> & -> & W).
    rewrite K by auto. intros H; inversion H; subst. exists c; auto.
  - intros (c & Pc & -> & -> & W).
    assert (E : digit (c :: s') ps = Accept (VChar c) s' ps').
    { apply (class_accept _ _ _ _ digit_class digit_dec). exists c; auto. }
    rewrite E, K by auto. auto.
Qed.

Lemma digit_val_reject : forall s ps m pe,
  digit_val s ps = Reject m pe <->
  not_starting_with digit_char s /\ m = digit_expected /\ pe = ps.
Proof.
  intros. unfold digit_val, transform.
  destruct digit_class as (A & B & C). destruct s as [|c s].
  - rewrite C. simpl. split; [intros H; inversion H; auto | intros (_ & -> & ->); auto].
  - simpl. destruct (digit_dec c) as [Pc|Nc].
    + assert (W : walk ps [c] (next_pos c ps)) by (apply walk1; auto).
      rewrite (A c s ps _ Pc W). split; [|tauto].
      destruct (digit_to_int (VChar c)); discriminate.
    + rewrite B by auto. split; [intros H; inversion H; auto | intros (_ & -> & ->); auto].
Qed.

Lemma digit_val_finishes : forall s ps, finishes digit_val s ps.
Proof.
  intros [|c s] ps.
  - right. do 2 eexists. apply digit_val_reject. simpl; auto.
  - destruct (digit_dec c).
    + left. do 3 eexists. apply digit_val_accept. exists c. repeat split; auto; try apply d.
      apply walk1. reflexivity.
    + right. do 2 eexists. apply digit_val_reject. simpl; auto.
Qed.

Lemma digit_val_runs : forall rs s ps s' ps', runs digit_val s ps rs s' ps' <->
    exists w, s = w ++ s' /\ Forall digit_char w /\ rs = map (fun c => VInt (c - 48)) w
      /\ walk ps w ps'.
Proof.
  intros rs. induction rs as [|r rs IH]; intros s ps s' ps'; split.
  - intros R; inversion R; subst. exists []. repeat split; auto. constructor.
  - intros (w & -> & _ & E & W). destruct w; [|discriminate].
    apply walk_nil_iff in W as ->. constructor.
  - intros R. apply runs_cons_inv in R as (s1 & ps1 & E & R).
    apply digit_val_accept in E as (c & Pc & -> & -> & W).
    apply IH in R as (w & -> & F & -> & W2).
    exists (c :: w). repeat split; auto. eapply walk_cons; eauto.
  - intros (w & -> & F & E & W). destruct w as [|c w]; [discriminate|].
    simpl in E; injection E; intros -> ->.
    apply walk_cons_inv in W as (ps1 & W1 & W2). inversion F; subst.
    econstructor.
    + apply digit_val_accept. exists c. repeat split; eauto; apply H1.
    + apply IH. exists w; auto.
Qed.

Lemma decimal_acc_ge : forall w a, 0 <= a -> Forall digit_char w -> a <= decimal_acc a w.
Proof.
  induction w as [|c w IH]; intros a Ha F; simpl; [lia|].
  inversion F; subst. unfold digit_char in H1.
  specialize (IH (a * 10 + (c - 48)) ltac:(lia) H2). lia.
Qed.

Lemma lfold_next_digit : forall w a, 0 <= a <= int_max -> Forall digit_char w ->
  lfold next_digit (map (fun c => VInt (c - 48)) w) (VInt a) =
  if decimal_acc a w <=? int_max then Some (VInt (decimal_acc a w)) else None.
Proof.
  induction w as [|c w IH]; intros a Ha F.
  - simpl. replace (a <=? int_max) with true by lia. auto.
  - inversion F; subst. unfold digit_char in H1.
    cbn [map lfold]. unfold next_digit at 1. cbn [as_int].
    pose proof (decimal_acc_ge w (a * 10 + (c - 48)) ltac:(lia) H2) as G.
    cbn [decimal_acc].
    destruct (int_ok (a * 10) && int_ok (a * 10 + (c - 48))) eqn:K.
    + apply IH; auto. unfold int_ok, int_min, int_max in *. lia.
    + unfold int_ok, int_min, int_max in *.
      replace (decimal_acc (a * 10 + (c - 48)) w <=? 2147483647) with false by lia. auto.
Qed.

Lemma int_accept : forall n s ps v s' ps',
  int_ n s ps = Accept v s' ps' <->
  exists ds, ds <> [] /\ Forall digit_char ds /\ s = ds ++ s'
    /\ not_starting_with digit_char s' /\ walk ps ds ps' /\ (length ds < n)%nat
    /\ decimal ds <= int_max /\ v = VInt (decimal ds).
Proof.
  intros. unfold int_. rewrite foldl1_accept. split.
  - intros (rs & m & pe & Ne & L & R & S & F).
    apply digit_val_runs in R as (w & -> & D & -> & W).
    apply digit_val_reject in S as (N & _ & _). rewrite map_length in L.
    rewrite lfold_next_digit in F by (auto; unfold int_max; lia). exists w.
    destruct (decimal_acc 0 w <=? int_max) eqn:Q; [|discriminate].
    repeat split; auto.
    + intros ->; auto.
    + unfold decimal; lia.
    + inversion F; auto.
  - intros (ds & Ne & D & -> & N & W & L & M & ->).
    exists (map (fun c => VInt (c - 48)) ds), digit_expected, ps'.
    rewrite map_length. repeat split; auto.
    + destruct ds; [congruence|discriminate].
    + apply digit_val_runs. exists ds; auto.
    + apply digit_val_reject; auto.
    + rewrite lfold_next_digit by (auto; unfold int_max; lia). unfold decimal in *.
      replace (decimal_acc 0 ds <=? int_max) with true by lia. auto.
Qed.

Lemma int_reject : forall n s ps m pe,
  int_ n s ps = Reject m pe <->
  not_starting_with digit_char s /\ m = digit_expected /\ pe = ps.
Proof. intros. unfold int_. rewrite foldl1_reject. apply digit_val_reject. Qed.

Lemma foldl_next_digit_none : forall w n s' ps a, Forall digit_char w ->
  (length w < n)%nat -> not_starting_with digit_char s' ->
  0 <= a <= int_max -> int_max < decimal_acc a w ->
  foldl n digit_val (Some (VInt a)) next_digit (w ++ s') ps = Illformed.
Proof.
  intros w n s' ps a. revert n ps a.
  induction w as [|c w IH]; intros n ps a F L N Ha M; [simpl in M; lia|].
  destruct n as [|n]; [simpl in L; lia|].
  inversion F; subst. cbn [foldl].
  assert (E : digit_val ((c :: w) ++ s') ps = Accept (VInt (c - 48)) (w ++ s') (next_pos c ps)).
  { apply digit_val_accept. exists c. repeat split; auto; try apply H1. apply walk1; auto. }
  rewrite E. unfold next_digit at 1. cbn [as_int].
  cbn [decimal_acc] in M. cbn [length] in L.
  destruct (int_ok (a * 10) && int_ok (a * 10 + (c - 48))) eqn:K.
  - unfold digit_char in H1. apply IH; auto; try lia. unfold int_ok, int_min, int_max in *. lia.
  - destruct n; [lia|]. cbn [foldl].
    destruct (digit_val_finishes (w ++ s') (next_pos c ps))
      as [(? & ? & ? & ->) | (? & ? & ->)]; auto.
Qed.

Lemma int_overflow : forall n ds s' ps, ds <> [] -> Forall digit_char ds ->
  not_starting_with digit_char s' -> (length ds < n)%nat -> int_max < decimal ds ->
  int_ n (ds ++ s') ps = Illformed.
Proof.
  intros n ds s' ps Ne D N L M. unfold int_, foldl1.
  destruct ds as [|c ds]; [congruence|]. inversion D; subst.
  assert (E : digit_val ((c :: ds) ++ s') ps = Accept (VInt (c - 48)) (ds ++ s') (next_pos c ps)).
  { apply digit_val_accept. exists c. repeat split; auto; try apply H1. apply walk1; auto. }
  rewrite E. apply foldl_next_digit_none; auto. unfold int_max; lia.
Qed.

(** ** entire_input (C23) *)

Lemma entire_input_spec : forall cfg p m s ps, fits_sequence cfg 2 ->
  entire_input cfg p m s ps =
  match p s ps with
  | Accept r [] ps1 => Accept r [] ps1
  | Accept r (_ :: _) ps1 => Reject m ps1
  | o => o
  end.
Proof.
  intros cfg p m s ps F.
  rewrite (entire_input_first_of cfg p m VVoid F). rewrite first_of_2 by auto.
  destruct (p s ps) as [r [|c s1] ps1 | | | ]; reflexivity.
Qed.

(** ** middle_of (C29) *)

Lemma middle_of_spec : forall cfg p1 p2 p3 s ps, fits_sequence cfg 3 ->
  middle_of cfg p1 p2 p3 s ps =
  match p1 s ps with
  | Accept _ s1 ps1 =>
      match p2 s1 ps1 with
      | Accept r s2 ps2 =>
          match p3 s2 ps2 with
          | Accept _ s3 ps3 => Accept r s3 ps3
          | Reject m pe => Reject (unpaired (line ps) (col ps) m) pe
          | o => o
          end
      | o => o
      end
  | o => o
  end.
Proof.
  intros. unfold middle_of. rewrite nth_of_c_cfg by auto. unfold nth_of_c_11.
  cbn [length nth_of_c_11_impl nth_of_c_skip_remaining]. unfold transform_error_message.
  simpl. destruct (p1 s ps) as [r1 s1 ps1 | | | ]; auto.
  destruct (p2 s1 ps1) as [r2 s2 ps2 | | | ]; auto.
  destruct (p3 s2 ps2); auto.
Qed.

(** ** sequence_apply (C30) *)

Lemma sequence_apply_transform_spec : forall t rs,
  sequence_apply_transform t (length rs) (VSeq rs) = Some (t rs).
Proof.
  intros t rs. unfold sequence_apply_transform.
  assert (G : forall k done, (k <= length rs)%nat ->
    (fix args (k : nat) (done : list value) : option value :=
     match k with
     | O => Some (t done)
     | S k' => match at_c (VSeq rs) k' with
               | Some x => args k' (x :: done)
               | None => None
               end
     end) k done = Some (t (firstn k rs ++ done))).
  { induction k; intros done L; auto. cbn [at_c].
    destruct (nth_error rs k) as [x|] eqn:E.
    - rewrite IHk by lia. do 2 f_equal.
      replace (firstn (S k) rs) with (firstn k rs ++ [x]).
      + rewrite <- app_assoc; auto.
      + clear - E. revert rs E. induction k; intros [|y rs] E; try discriminate.
        * simpl in E; injection E; intros ->; auto.
        * simpl in E. cbn [firstn app]. f_equal. apply IHk; auto.
    - apply nth_error_None in E. lia. }
  rewrite G by auto. rewrite firstn_all, app_nil_r. auto.
Qed.

Lemma sequence_apply_spec : forall cfg t l s ps,
  (1 <= length l < limit_sequence cfg)%nat ->
  sequence_apply cfg t l s ps =
  match sequence cfg l s ps with
  | Accept (VSeq rs) s' ps' => Accept (t rs) s' ps'
  | o => o
  end.
Proof.
  intros cfg t l s ps L. unfold sequence_apply.
  replace (Nat.leb 1 (length l) && Nat.ltb (length l) (limit_sequence cfg))%bool with true.
  2:{ symmetry. apply andb_true_intro; split; [apply Nat.leb_le | apply Nat.ltb_lt]; lia. }
  unfold transform.
  assert (S : sequence cfg l s ps = sequence_11 l s ps).
  { apply sequence_cfg; [intros _; lia|]. destruct l; [simpl in L; lia|discriminate]. }
  rewrite S. destruct (sequence_11 l s ps) as [v s' ps' | | | ] eqn:E; auto.
  apply sequence_11_accept in E as (rs & -> & R).
  rewrite <- (in_row_length _ _ _ _ _ _ R). rewrite sequence_apply_transform_spec. auto.
Qed.
