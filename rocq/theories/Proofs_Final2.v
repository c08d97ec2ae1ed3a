(** Lemmas in the form used by Properties_Folds.v. *)

From Coq Require Import ZArith List Bool Lia.
From Verif Require Import Base Util Combinators Variadic Parsers Spec
  Proofs_Pos Proofs_Fold Proofs_Variadic Proofs_Parsers.
Import ListNotations.
Open Scope Z_scope.

Lemma foldl_illformed_o : forall n p st f s ps,
  foldl n p st f s ps = Illformed <->
  exists rs s1 ps1, (length rs < n)%nat /\ runs p s ps rs s1 ps1
    /\ (rs = [] \/ lfold_o f (removelast rs) st <> None)
    /\ (p s1 ps1 = Illformed \/ (finishes p s1 ps1 /\ lfold_o f rs st = None)).
Proof.
  induction n as [|n IH]; intros p st f s ps; cbn [foldl].
  { split; [discriminate|]. intros (rs & s1 & ps1 & L & _). lia. }
  destruct (p s ps) as [r s' ps' | m pe | | ] eqn:A.
  - destruct st as [v|].
    + rewrite IH. split; intros (rs & s1 & ps1 & L & R & X & Y).
      * exists (r :: rs), s1, ps1. splits.
        -- simpl; lia.
        -- econstructor; eauto.
        -- right. destruct rs as [|r2 rs]; [discriminate|].
           destruct X as [X | X]; [discriminate|].
           change (removelast (r :: r2 :: rs)) with (r :: removelast (r2 :: rs)). simpl.
           destruct (f v r); auto.
        -- destruct Y as [Y | [Y1 Y2]]; auto.
      * destruct rs as [|r2 rs].
        { inversion R; subst. rewrite A in Y. destruct Y as [Y | [_ Y]]; discriminate. }
        apply runs_cons_inv in R as (s2 & ps2 & B & R). rewrite A in B. inversion B; subst.
        exists rs, s1, ps1. splits; auto.
        -- simpl in L; lia.
        -- destruct rs as [|r3 rs]; auto. right.
           destruct X as [X | X]; [discriminate|].
           change (removelast (r2 :: r3 :: rs)) with (r2 :: removelast (r3 :: rs)) in X.
           simpl in X. simpl. destruct (f v r2); auto.
    + split; auto. intros _. exists [], s, ps. splits; auto.
      * simpl; lia.
      * constructor.
      * right; split; auto. left; exists r, s', ps'; auto.
  - destruct st as [v|]; split; try discriminate; auto.
    + intros (rs & s1 & ps1 & L & R & X & Y). destruct rs as [|r rs].
      * inversion R; subst. rewrite A in Y. destruct Y as [Y | [_ Y]]; discriminate.
      * apply runs_cons_inv in R as (s2 & ps2 & B & R). congruence.
    + intros _. exists [], s, ps. splits; auto.
      * simpl; lia.
      * constructor.
      * right; split; auto. right; exists m, pe; auto.
  - split; auto. intros _. exists [], s, ps. splits; auto; [simpl; lia | constructor].
  - split; try discriminate. intros (rs & s1 & ps1 & L & R & X & Y). destruct rs as [|r rs].
    + inversion R; subst. destruct Y as [Y | [[(a & b & c & Y) | (a & b & Y)] _]]; congruence.
    + apply runs_cons_inv in R as (s2 & ps2 & B & R). congruence.
Qed.

Lemma foldl_illformed : forall n p st f s ps,
  foldl n p (Some st) f s ps = Illformed <->
  exists rs s1 ps1, (length rs < n)%nat /\ runs p s ps rs s1 ps1
    /\ lfold f (removelast rs) st <> None
    /\ (p s1 ps1 = Illformed \/ (finishes p s1 ps1 /\ lfold f rs st = None)).
Proof.
  intros. rewrite foldl_illformed_o. simpl.
  split; intros (rs & s1 & ps1 & L & R & X & Y); exists rs, s1, ps1; splits; auto.
  destruct X as [-> | X]; auto. simpl. discriminate.
Qed.

Lemma foldl_ri_illformed_o : forall n p st f s ps,
  foldl_reject_incomplete n p st f s ps = Illformed <->
  exists rs s1 ps1, (length rs < n)%nat /\ runs p s ps rs s1 ps1
    /\ (rs = [] \/ lfold_o f (removelast rs) st <> None)
    /\ (p s1 ps1 = Illformed
        \/ ((accepts p s1 ps1 \/ exists m, p s1 ps1 = Reject m ps1) /\ lfold_o f rs st = None)).
Proof.
  induction n as [|n IH]; intros p st f s ps; cbn [foldl_reject_incomplete].
  { split; [discriminate|]. intros (rs & s1 & ps1 & L & _). lia. }
  destruct (p s ps) as [r s' ps' | m pe | | ] eqn:A.
  - destruct st as [v|].
    + rewrite IH. split; intros (rs & s1 & ps1 & L & R & X & Y).
      * exists (r :: rs), s1, ps1. splits.
        -- simpl; lia.
        -- econstructor; eauto.
        -- right. destruct rs as [|r2 rs]; [discriminate|].
           destruct X as [X | X]; [discriminate|].
           change (removelast (r :: r2 :: rs)) with (r :: removelast (r2 :: rs)). simpl.
           destruct (f v r); auto.
        -- destruct Y as [Y | [Y1 Y2]]; auto.
      * destruct rs as [|r2 rs].
        { inversion R; subst. rewrite A in Y. destruct Y as [Y | [_ Y]]; discriminate. }
        apply runs_cons_inv in R as (s2 & ps2 & B & R). rewrite A in B. inversion B; subst.
        exists rs, s1, ps1. splits; auto.
        -- simpl in L; lia.
        -- destruct rs as [|r3 rs]; auto. right.
           destruct X as [X | X]; [discriminate|].
           change (removelast (r2 :: r3 :: rs)) with (r2 :: removelast (r3 :: rs)) in X.
           simpl in X. simpl. destruct (f v r2); auto.
    + split; auto. intros _. exists [], s, ps. splits; auto.
      * simpl; lia.
      * constructor.
      * right; split; auto. left; exists r, s', ps'; auto.
  - assert (Z : forall rs s1 ps1, runs p s ps rs s1 ps1 -> rs = [] /\ s1 = s /\ ps1 = ps).
    { intros rs s1 ps1 R. destruct rs as [|r rs]; [inversion R; auto|].
      apply runs_cons_inv in R as (s2 & ps2 & B & R). congruence. }
    destruct (pos_equal_to ps pe) eqn:E.
    + apply pos_equal_to_iff in E. subst pe. destruct st as [v|]; split; try discriminate; auto.
      * intros (rs & s1 & ps1 & L & R & X & Y). apply Z in R as (-> & -> & ->).
        destruct Y as [Y | [_ Y]]; [congruence|discriminate].
      * intros _. exists [], s, ps. splits; auto; [simpl; lia | constructor |].
        right; split; auto. right; exists m; auto.
    + split; try discriminate. intros (rs & s1 & ps1 & L & R & X & Y). apply Z in R as (-> & -> & ->).
      destruct Y as [Y | [[(a & b & c & Y) | (a & Y)] _]]; try congruence.
      rewrite A in Y. inversion Y; subst. rewrite pos_equal_to_refl in E. discriminate.
  - split; auto. intros _. exists [], s, ps. splits; auto; [simpl; lia | constructor].
  - split; try discriminate. intros (rs & s1 & ps1 & L & R & X & Y). destruct rs as [|r rs].
    + inversion R; subst. destruct Y as [Y | [[(a & b & c & Y) | (a & Y)] _]]; congruence.
    + apply runs_cons_inv in R as (s2 & ps2 & B & R). congruence.
Qed.

Lemma foldl_ri_illformed : forall n p st f s ps,
  foldl_reject_incomplete n p (Some st) f s ps = Illformed <->
  exists rs s1 ps1, (length rs < n)%nat /\ runs p s ps rs s1 ps1
    /\ lfold f (removelast rs) st <> None
    /\ (p s1 ps1 = Illformed
        \/ ((accepts p s1 ps1 \/ exists m, p s1 ps1 = Reject m ps1) /\ lfold f rs st = None)).
Proof.
  intros. rewrite foldl_ri_illformed_o. simpl.
  split; intros (rs & s1 & ps1 & L & R & X & Y); exists rs, s1, ps1; splits; auto.
  destruct X as [-> | X]; auto. simpl. discriminate.
Qed.

Lemma foldr_swp_illformed : forall n p sp f s ps,
  foldr_start_with_parser n p sp f s ps = Illformed <->
  exists rs s1 ps1, (length rs < n)%nat /\ runs p s ps rs s1 ps1
    /\ (p s1 ps1 = Illformed
        \/ (rejects p s1 ps1 /\ sp s1 ps1 = Illformed)
        \/ (rejects p s1 ps1 /\ exists v s2 ps2, sp s1 ps1 = Accept v s2 ps2 /\ rfold f rs v = None)).
Proof.
  induction n as [|n IH]; intros p sp f s ps; cbn [foldr_start_with_parser].
  { split; [discriminate|]. intros (rs & s1 & ps1 & L & _). lia. }
  destruct (p s ps) as [r s' ps' | m pe | | ] eqn:A.
  - destruct (foldr_start_with_parser n p sp f s' ps') as [v s2 ps2 | m pe | | ] eqn:B.
    + apply foldr_swp_accept in B as (rs & s1 & ps1 & m & pe & v0 & L & R & P & Q & F).
      assert (U : forall rs' s1' ps1', runs p s ps rs' s1' ps1' -> ~ accepts p s1' ps1' ->
        rs' = r :: rs /\ s1' = s1 /\ ps1' = ps1).
      { intros rs' s1' ps1' R' N. eapply runs_stop_unique; eauto.
        - econstructor; eauto.
        - eapply reject_not_accepts; eauto. }
      destruct (f v r) as [vr|] eqn:Fv; split; try discriminate; auto.
      * intros (rs' & s1' & ps1' & L' & R' & Y).
        assert (N : ~ accepts p s1' ps1').
        { intros (a & b & c & X). destruct Y as [Y | [[(a' & b' & Y) _] | [(a' & b' & Y) _]]]; congruence. }
        destruct (U _ _ _ R' N) as (-> & -> & ->).
        destruct Y as [Y | [[_ Y] | [_ (v1 & s3 & ps3 & Y & Z)]]]; try congruence.
        rewrite Q in Y. inversion Y; subst. simpl in Z. rewrite F in Z. congruence.
      * intros _. exists (r :: rs), s1, ps1. splits.
        -- simpl; lia.
        -- econstructor; eauto.
        -- right; right. split; [exists m, pe; auto|]. exists v0, s2, ps2. split; auto.
           simpl. rewrite F. auto.
    + apply foldr_swp_reject in B as (rs & s1 & ps1 & m1 & pe1 & L & R & P & Q).
      split; try discriminate. intros (rs' & s1' & ps1' & L' & R' & Y).
      assert (N : ~ accepts p s1' ps1').
      { intros (a & b & c & X). destruct Y as [Y | [[(a' & b' & Y) _] | [(a' & b' & Y) _]]]; congruence. }
      assert (U : rs' = r :: rs /\ s1' = s1 /\ ps1' = ps1).
      { eapply runs_stop_unique; eauto.
        - econstructor; eauto.
        - eapply reject_not_accepts; eauto. }
      destruct U as (-> & -> & ->).
      destruct Y as [Y | [[_ Y] | [_ (v1 & s3 & ps3 & Y & Z)]]]; congruence.
    + split; auto. intros _. apply IH in B as (rs & s1 & ps1 & L & R & Y).
      exists (r :: rs), s1, ps1. splits; [simpl; lia | econstructor; eauto |].
      destruct Y as [Y | [Y | [Y (v & s2 & ps2 & Z & F)]]]; auto.
      right; right. split; auto. exists v, s2, ps2. split; auto. simpl. rewrite F; auto.
    + split; try discriminate. intros (rs' & s1' & ps1' & L' & R' & Y).
      destruct rs' as [|r' rs'].
      { inversion R'; subst. destruct Y as [Y | [[(a' & b' & Y) _] | [(a' & b' & Y) _]]]; congruence. }
      apply runs_cons_inv in R' as (s2 & ps2 & X & R'). rewrite A in X. inversion X; subst.
      (* the shorter fold gives a verdict *)
      destruct Y as [Y | [[Y1 Y2] | [Y1 (v & s3 & ps3 & Z & F)]]].
      * assert (foldr_start_with_parser n p sp f s2 ps2 = Illformed); [|congruence].
        apply IH. exists rs', s1', ps1'. splits; auto. simpl in L'; lia.
      * assert (foldr_start_with_parser n p sp f s2 ps2 = Illformed); [|congruence].
        apply IH. exists rs', s1', ps1'. splits; auto. simpl in L'; lia.
      * destruct (rfold f rs' v) as [vr|] eqn:Fr.
        -- destruct Y1 as (m & pe & Y1).
           assert (foldr_start_with_parser n p sp f s2 ps2 = Accept vr s3 ps3); [|congruence].
           apply foldr_swp_accept. exists rs', s1', ps1', m, pe, v. splits; auto. simpl in L'; lia.
        -- assert (foldr_start_with_parser n p sp f s2 ps2 = Illformed); [|congruence].
           apply IH. exists rs', s1', ps1'. splits; auto; [simpl in L'; lia|].
           right; right; split; auto. exists v, s3, ps3; auto.
  - assert (Z : forall rs s1 ps1, runs p s ps rs s1 ps1 -> rs = [] /\ s1 = s /\ ps1 = ps).
    { intros rs s1 ps1 R. destruct rs as [|r rs]; [inversion R; auto|].
      apply runs_cons_inv in R as (s2 & ps2 & B & R). congruence. }
    split.
    + intros Q. exists [], s, ps. splits; [simpl; lia | constructor |].
      right; left. split; auto. exists m, pe; auto.
    + intros (rs & s1 & ps1 & L & R & Y). apply Z in R as (-> & -> & ->).
      destruct Y as [Y | [[_ Y] | [_ (v & s2 & ps2 & Y & F)]]]; try congruence. discriminate F.
  - split; auto. intros _. exists [], s, ps. splits; auto; [simpl; lia | constructor].
  - split; try discriminate. intros (rs & s1 & ps1 & L & R & Y). destruct rs as [|r rs].
    + inversion R; subst. destruct Y as [Y | [[(a' & b' & Y) _] | [(a' & b' & Y) _]]]; congruence.
    + apply runs_cons_inv in R as (s2 & ps2 & B & R). congruence.
Qed.

Lemma foldr_illformed : forall n p st f s ps,
  foldr n p st f s ps = Illformed <->
  exists rs s1 ps1, (length rs < n)%nat /\ runs p s ps rs s1 ps1
    /\ (p s1 ps1 = Illformed \/ (rejects p s1 ps1 /\ rfold f rs st = None)).
Proof.
  intros. unfold foldr. rewrite foldr_swp_illformed. unfold return_.
  split; intros (rs & s1 & ps1 & L & R & Y); exists rs, s1, ps1; splits; auto.
  - destruct Y as [Y | [[_ Y] | [Y (v & s2 & ps2 & Z & F)]]]; auto; [discriminate|].
    inversion Z; subst. auto.
  - destruct Y as [Y | [Y1 Y2]]; auto. right; right; split; auto. exists st, s1, ps1; auto.
Qed.

(** ** start_with_parser *)

Lemma foldl_swp_accept : forall n p sp f s ps v rem ps',
  foldl_start_with_parser n p sp f s ps = Accept v rem ps' <->
  exists v0 s1 ps1 rs m pe, sp s ps = Accept v0 s1 ps1 /\ v0 <> VVoid
    /\ (length rs < n)%nat /\ runs p s1 ps1 rs rem ps'
    /\ p rem ps' = Reject m pe /\ lfold f rs v0 = Some v.
Proof.
  intros. unfold foldl_start_with_parser. destruct (sp s ps) eqn:A;
    try (split; [discriminate|]; intros (v0 & s1 & ps1 & rs & m' & pe & X & _); discriminate).
  rewrite foldl_type_accept. split.
  - intros (rs & m & pe & H). exists r, rem0, p0, rs, m, pe. tauto.
  - intros (v0 & s1 & ps1 & rs & m & pe & X & N & H). inversion X; subst. exists rs, m, pe. tauto.
Qed.

Lemma foldl_swp_reject : forall n p sp f s ps m pe,
  foldl_start_with_parser n p sp f s ps = Reject m pe <-> sp s ps = Reject m pe.
Proof.
  intros. unfold foldl_start_with_parser. destruct (sp s ps) eqn:A; try tauto.
  split; intros H; [|discriminate]. apply foldl_not_reject in H. tauto.
Qed.

Lemma foldl_ri_swp_accept : forall n p sp f s ps v rem ps',
  foldl_reject_incomplete_start_with_parser n p sp f s ps = Accept v rem ps' <->
  exists v0 s1 ps1 rs m, sp s ps = Accept v0 s1 ps1 /\ v0 <> VVoid
    /\ (length rs < n)%nat /\ runs p s1 ps1 rs rem ps'
    /\ p rem ps' = Reject m ps' /\ lfold f rs v0 = Some v.
Proof.
  intros. unfold foldl_reject_incomplete_start_with_parser. destruct (sp s ps) eqn:A;
    try (split; [discriminate|]; intros (v0 & s1 & ps1 & rs & m' & X & _); discriminate).
  rewrite foldl_ri_type_accept. split.
  - intros (rs & m & H). exists r, rem0, p0, rs, m. tauto.
  - intros (v0 & s1 & ps1 & rs & m & X & N & H). inversion X; subst. exists rs, m. tauto.
Qed.

Lemma foldl_ri_swp_reject : forall n p sp f s ps m pe,
  foldl_reject_incomplete_start_with_parser n p sp f s ps = Reject m pe <->
  sp s ps = Reject m pe
  \/ exists v0 s1 ps1 rs s2 ps2, sp s ps = Accept v0 s1 ps1 /\ (v0 = VVoid -> rs = [])
      /\ (length rs < n)%nat /\ runs p s1 ps1 rs s2 ps2
      /\ p s2 ps2 = Reject m pe /\ pe <> ps2 /\ lfold f (removelast rs) v0 <> None.
Proof.
  intros. unfold foldl_reject_incomplete_start_with_parser. destruct (sp s ps) eqn:A.
  - rewrite foldl_ri_type_reject. split.
    + intros (rs & s1 & ps1 & H). right. exists r, rem, p0, rs, s1, ps1. tauto.
    + intros [X | (v0 & s1 & ps1 & rs & s2 & ps2 & X & N & H)]; [discriminate|].
      inversion X; subst. exists rs, s2, ps2. tauto.
  - split; auto. intros [X | (v0 & s1 & ps1 & rs & s2 & ps2 & X & H)]; [auto|discriminate].
  - split; [discriminate|]. intros [X | (v0 & s1 & ps1 & rs & s2 & ps2 & X & H)]; discriminate.
  - split; [discriminate|]. intros [X | (v0 & s1 & ps1 & rs & s2 & ps2 & X & H)]; discriminate.
Qed.

(** ** The variants with 1 *)

Lemma ones : forall cfg n p s ps,
  (forall m pe, p s ps = Reject m pe ->
     (forall st f, foldl1 n p st f s ps = Reject m pe)
     /\ (forall st f, foldr1 n p st f s ps = Reject m pe)
     /\ repeated1 n p s ps = Reject m pe
     /\ (forall st f, foldl_reject_incomplete1 n p st f s ps = Reject m pe)
     /\ (forall st f, foldr_reject_incomplete1 cfg n p st f s ps = Reject m pe)
     /\ repeated_reject_incomplete1 n p s ps = Reject m pe)
  /\ (accepts p s ps ->
     (forall st f, foldl1 n p st f s ps = foldl n p st f s ps)
     /\ (forall st f, foldr1 n p st f s ps = foldr n p st f s ps)
     /\ repeated1 n p s ps = repeated n p s ps
     /\ (forall st f, foldl_reject_incomplete1 n p st f s ps
                      = foldl_reject_incomplete n p st f s ps)
     /\ (forall st f, foldr_reject_incomplete1 cfg n p st f s ps
                      = foldr_reject_incomplete cfg n p st f s ps)
     /\ repeated_reject_incomplete1 n p s ps = repeated_reject_incomplete n p s ps).
Proof.
  intros cfg n p s ps. split.
  - intros m pe H. splits; intros;
      unfold repeated1, repeated_reject_incomplete1, foldl1, foldr1, foldl_reject_incomplete1,
        foldr_reject_incomplete1; rewrite H; auto.
  - intros (r & s' & ps' & H). splits; intros;
      unfold repeated1, repeated_reject_incomplete1, foldl1, foldr1, foldl_reject_incomplete1,
        foldr_reject_incomplete1; rewrite H; auto.
Qed.

(** ** reject_incomplete *)

Lemma foldr_ri_end : forall cfg p st s ps, fits_sequence cfg 2 ->
  first_of cfg [return_ st; fail_at_first_char_expected p] s ps =
  match p s ps with
  | Reject m pe => if pos_equal_to ps pe then Accept st s ps else Reject m pe
  | Accept _ _ _ => Reject expected_to_fail ps
  | o => o
  end.
Proof.
  intros. rewrite first_of_2 by auto. unfold return_, fail_at_first_char_expected.
  destruct (p s ps); auto. destruct (pos_equal_to ps p0); auto.
Qed.

Lemma foldr_ri_accept : forall cfg n p st f s ps v rem ps', fits_sequence cfg 2 ->
  (foldr_reject_incomplete cfg n p st f s ps = Accept v rem ps' <->
   exists rs m, (length rs < n)%nat /\ runs p s ps rs rem ps'
     /\ p rem ps' = Reject m ps' /\ rfold f rs st = Some v).
Proof.
  intros cfg n p st f s ps v rem ps' H. unfold foldr_reject_incomplete. rewrite foldr_swp_accept.
  split.
  - intros (rs & s1 & ps1 & m & pe & v0 & L & R & P & Q & F).
    rewrite foldr_ri_end, P in Q by auto. destruct (pos_equal_to ps1 pe) eqn:E; [|discriminate].
    apply pos_equal_to_iff in E. inversion Q; subst. exists rs, m. auto.
  - intros (rs & m & L & R & P & F). exists rs, rem, ps', m, ps', st. splits; auto.
    rewrite foldr_ri_end, P, pos_equal_to_refl by auto. auto.
Qed.

Lemma foldr_ri_reject : forall cfg n p st f s ps m pe, fits_sequence cfg 2 ->
  (foldr_reject_incomplete cfg n p st f s ps = Reject m pe <->
   exists rs s1 ps1, (length rs < n)%nat /\ runs p s ps rs s1 ps1
     /\ p s1 ps1 = Reject m pe /\ pe <> ps1).
Proof.
  intros cfg n p st f s ps m pe H. unfold foldr_reject_incomplete. rewrite foldr_swp_reject.
  split.
  - intros (rs & s1 & ps1 & m1 & pe1 & L & R & P & Q).
    rewrite foldr_ri_end, P in Q by auto. destruct (pos_equal_to ps1 pe1) eqn:E; [discriminate|].
    inversion Q; subst. exists rs, s1, ps1. splits; auto.
    intros ->. rewrite pos_equal_to_refl in E. discriminate.
  - intros (rs & s1 & ps1 & L & R & P & N). exists rs, s1, ps1, m, pe. splits; auto.
    rewrite foldr_ri_end, P by auto. destruct (pos_equal_to ps1 pe) eqn:E; auto.
    apply pos_equal_to_iff in E. congruence.
Qed.

Lemma repeated_ri_accept : forall n p s ps v rem ps',
  repeated_reject_incomplete n p s ps = Accept v rem ps' <->
  exists rs m, v = VSeq rs /\ (length rs < n)%nat /\ runs p s ps rs rem ps'
    /\ p rem ps' = Reject m ps'.
Proof.
  intros. unfold repeated_reject_incomplete. rewrite foldl_ri_accept. split.
  - intros (rs & m & L & R & P & F). rewrite lfold_back_inserter in F. simpl in F. inversion F; subst.
    exists rs, m. auto.
  - intros (rs & m & -> & L & R & P). exists rs, m. splits; auto.
    rewrite lfold_back_inserter. auto.
Qed.

Lemma repeated_ri_reject : forall n p s ps m pe,
  repeated_reject_incomplete n p s ps = Reject m pe <->
  exists rs s1 ps1, (length rs < n)%nat /\ runs p s ps rs s1 ps1
    /\ p s1 ps1 = Reject m pe /\ pe <> ps1.
Proof.
  intros. unfold repeated_reject_incomplete. rewrite foldl_ri_reject. split.
  - intros (rs & s1 & ps1 & L & R & P & N & _). exists rs, s1, ps1. auto.
  - intros (rs & s1 & ps1 & L & R & P & N). exists rs, s1, ps1. splits; auto.
    rewrite lfold_back_inserter. discriminate.
Qed.

Lemma repeated_illformed : forall n p s ps,
  repeated n p s ps = Illformed <->
  exists rs s1 ps1, (length rs < n)%nat /\ runs p s ps rs s1 ps1 /\ p s1 ps1 = Illformed.
Proof.
  intros. unfold repeated. rewrite foldl_illformed. split.
  - intros (rs & s1 & ps1 & L & R & X & Y). exists rs, s1, ps1. splits; auto.
    destruct Y as [Y | [_ Y]]; auto. rewrite lfold_back_inserter in Y. discriminate.
  - intros (rs & s1 & ps1 & L & R & Y). exists rs, s1, ps1. splits; auto.
    rewrite lfold_back_inserter. discriminate.
Qed.

(** ** Termination *)

Lemma folds_terminate : forall cfg p, consuming p -> (forall s ps, p s ps <> OutOfFuel) ->
  fits_sequence cfg 2 ->
  forall n s ps, (length s < n)%nat ->
  (forall st f, foldl n p st f s ps <> OutOfFuel)
  /\ (forall st f, foldr n p st f s ps <> OutOfFuel)
  /\ repeated n p s ps <> OutOfFuel
  /\ (forall st f, foldl_reject_incomplete n p st f s ps <> OutOfFuel)
  /\ (forall st f, foldr_reject_incomplete cfg n p st f s ps <> OutOfFuel)
  /\ repeated_reject_incomplete n p s ps <> OutOfFuel
  /\ (forall st f, foldl1 n p st f s ps <> OutOfFuel)
  /\ (forall st f, foldr1 n p st f s ps <> OutOfFuel)
  /\ repeated1 n p s ps <> OutOfFuel.
Proof.
  intros cfg p C T F n s ps L.
  assert (A1 : forall st f, foldl n p st f s ps <> OutOfFuel) by (intros; apply foldl_terminates; auto).
  assert (A2 : forall st f, foldr n p st f s ps <> OutOfFuel)
    by (intros; apply foldr_swp_terminates; auto; unfold return_; discriminate).
  assert (A3 : forall st f, foldl_reject_incomplete n p st f s ps <> OutOfFuel)
    by (intros; apply foldl_ri_terminates; auto).
  splits; auto.
  - apply A1.
  - intros st f. apply foldr_swp_terminates; auto. intros s0 ps0. rewrite foldr_ri_end by auto.
    specialize (T s0 ps0). destruct (p s0 ps0); try congruence. destruct (pos_equal_to _ _); discriminate.
  - apply A3.
  - intros. unfold foldl1. specialize (T s ps). destruct (p s ps); auto.
  - intros. unfold foldr1. specialize (T s ps). destruct (p s ps); auto.
  - unfold repeated1, foldl1. specialize (T s ps). destruct (p s ps); auto.
Qed.

Lemma folds_diverge : forall cfg p rs s ps s1 ps1 r,
  runs p s ps rs s1 ps1 -> p s1 ps1 = Accept r s1 ps1 ->
  forall n,
  repeated n p s ps = OutOfFuel
  /\ (forall st f, foldr n p st f s ps = OutOfFuel)
  /\ (forall st f, foldr_reject_incomplete cfg n p st f s ps = OutOfFuel)
  /\ (forall st f, total_op f -> foldl n p (Some st) f s ps = OutOfFuel)
  /\ (forall st f, total_op f -> foldl_reject_incomplete n p (Some st) f s ps = OutOfFuel)
  /\ (forall st f, foldl n p st f s ps = OutOfFuel \/ foldl n p st f s ps = Illformed).
Proof.
  intros cfg p rs s ps s1 ps1 r R A n.
  assert (X : forall st f, foldl n p st f s ps = OutOfFuel \/ foldl n p st f s ps = Illformed)
    by (intros; eapply stuck_foldl; eauto).
  assert (N : forall f : mf2, total_op f -> forall a b, f a b <> None).
  { intros f T a b E. destruct (T a b) as [v V]. congruence. }
  splits; auto.
  - eapply stuck_repeated; eauto.
  - intros. eapply stuck_foldr; eauto.
  - intros. eapply stuck_foldr; eauto.
  - intros st f T. eapply stuck_foldl_total; eauto.
  - intros st f T.
    pose proof (stuck_foldl_ri p rs s ps s1 ps1 r R A n (Some st) f) as [Y | Y]; auto.
    exfalso. apply foldl_ri_illformed in Y as (rs' & s2 & ps2 & _ & R' & _ & Y).
    pose proof (stuck_runs p rs s ps s1 ps1 r R A _ _ _ R') as (a & b & c & Z).
    destruct Y as [Y | [_ Y]]; [congruence|].
    assert (G : forall l v, lfold f l v <> None).
    { induction l; simpl; intros; [discriminate|]. destruct (T v a0) as [v1 ->]. auto. }
    apply G in Y; auto.
Qed.
