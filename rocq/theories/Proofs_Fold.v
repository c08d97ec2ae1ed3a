(** Lemmas about the folds, repetition and iteration. *)

From Coq Require Import ZArith List Bool Lia.
From Verif Require Import Base Util Combinators Variadic Parsers Spec Proofs_Pos.
Import ListNotations.
Open Scope Z_scope.

Ltac splits := repeat match goal with |- _ /\ _ => split end.

(** ** Runs *)

Lemma runs_app : forall p rs1 s ps s1 ps1 rs2 s2 ps2,
  runs p s ps rs1 s1 ps1 -> runs p s1 ps1 rs2 s2 ps2 ->
  runs p s ps (rs1 ++ rs2) s2 ps2.
Proof.
  induction rs1; intros; inversion H; subst; simpl; auto.
  econstructor; eauto.
Qed.

Lemma runs_cons_inv : forall p r rs s ps s2 ps2,
  runs p s ps (r :: rs) s2 ps2 ->
  exists s1 ps1, p s ps = Accept r s1 ps1 /\ runs p s1 ps1 rs s2 ps2.
Proof. intros. inversion H; subst. eauto. Qed.

Lemma runs_snoc_inv : forall p rs r s ps s2 ps2,
  runs p s ps (rs ++ [r]) s2 ps2 ->
  exists s1 ps1, runs p s ps rs s1 ps1 /\ p s1 ps1 = Accept r s2 ps2.
Proof.
  induction rs; simpl; intros r s ps s2 ps2 H; apply runs_cons_inv in H as (s1 & ps1 & Hp & Hr).
  - inversion Hr; subst. do 2 eexists; split; [constructor | eauto].
  - apply IHrs in Hr as (s1' & ps1' & ? & ?).
    do 2 eexists; split; [econstructor|]; eauto.
Qed.

(** A run is determined by its length. *)
Lemma runs_same_length : forall p rs1 rs2 s ps s1 ps1 s2 ps2,
  length rs1 = length rs2 ->
  runs p s ps rs1 s1 ps1 -> runs p s ps rs2 s2 ps2 ->
  rs1 = rs2 /\ s1 = s2 /\ ps1 = ps2.
Proof.
  induction rs1; intros rs2 s ps s1 ps1 s2 ps2 L H1 H2; destruct rs2; try discriminate.
  - inversion H1; inversion H2; subst; auto.
  - apply runs_cons_inv in H1 as (s1' & ps1' & Hp1 & Hr1).
    apply runs_cons_inv in H2 as (s2' & ps2' & Hp2 & Hr2).
    rewrite Hp1 in Hp2; inversion Hp2; subst.
    edestruct IHrs1 as (-> & -> & ->); [ | exact Hr1 | exact Hr2 | ]; auto.
Qed.

(** Maximal runs are unique. *)
Lemma runs_stop_unique : forall p rs1 rs2 s ps s1 ps1 s2 ps2,
  runs p s ps rs1 s1 ps1 -> ~ accepts p s1 ps1 ->
  runs p s ps rs2 s2 ps2 -> ~ accepts p s2 ps2 ->
  rs1 = rs2 /\ s1 = s2 /\ ps1 = ps2.
Proof.
  induction rs1; intros rs2 s ps s1 ps1 s2 ps2 H1 N1 H2 N2.
  - inversion H1; subst. inversion H2; subst; auto.
    destruct N1. do 3 eexists; eauto.
  - inversion H1; subst. inversion H2; subst.
    + destruct N2. do 3 eexists; eauto.
    + match goal with A : p ?x ?y = _, B : p ?x ?y = _ |- _ => rewrite A in B; inversion B; subst end.
      edestruct IHrs1 as (-> & -> & ->); eauto.
Qed.

Lemma reject_not_accepts : forall (p : pfun) s ps m pe, p s ps = Reject m pe -> ~ accepts p s ps.
Proof. intros p s ps m pe H (r & s' & ps' & H'). congruence. Qed.

(** ** foldl *)

Lemma lfold_none_step : forall f rs v, lfold f rs v = None -> forall r, lfold f (rs ++ [r]) v = None.
Proof.
  induction rs; simpl; intros; [discriminate|].
  destruct (f v a); auto.
Qed.

(** Fold with a possibly ill-formed initial state. *)
Definition lfold_o (f : mf2) (rs : list value) (st : option value) : option value :=
  match st with Some v => lfold f rs v | None => None end.

Lemma foldl_accept_o : forall n p st f s ps v rem ps',
  foldl n p st f s ps = Accept v rem ps' <->
  exists rs m pe, (length rs < n)%nat /\ runs p s ps rs rem ps'
    /\ p rem ps' = Reject m pe /\ lfold_o f rs st = Some v.
Proof.
  induction n; intros p st f s ps v rem ps'.
  - simpl; split; [discriminate | intros (rs & m & pe & L & _); lia].
  - simpl. split.
    + intros H. destruct (p s ps) as [r s1 ps1 | m pe | |] eqn:E; try discriminate.
      * destruct st as [st|]; [|discriminate].
        apply IHn in H as (rs & m & pe & L & R & S & F).
        exists (r :: rs), m, pe. splits; auto; try (simpl; lia); try (econstructor; eauto; fail).
      * destruct st as [st|]; [|discriminate]. inversion H; subst.
        exists [], m, pe. splits; auto; try (simpl; lia). constructor.
    + intros (rs & m & pe & L & R & S & F). inversion R; subst.
      * rewrite S. destruct st; simpl in F; congruence.
      * rewrite H. destruct st as [st|]; [|discriminate].
        apply IHn. exists rs0, m, pe. splits; auto; try (simpl in L; lia).
Qed.

Lemma foldl_accept : forall n p st f s ps v rem ps',
  foldl n p (Some st) f s ps = Accept v rem ps' <->
  exists rs m pe, (length rs < n)%nat /\ runs p s ps rs rem ps'
    /\ p rem ps' = Reject m pe /\ lfold f rs st = Some v.
Proof. intros. apply foldl_accept_o. Qed.

Lemma foldl_not_reject : forall n p st f s ps m pe,
  foldl n p st f s ps <> Reject m pe.
Proof.
  induction n; simpl; intros; [discriminate|].
  destruct (p s ps); try discriminate; destruct st; try discriminate; auto.
Qed.

Lemma foldl1_accept : forall n p st f s ps v rem ps',
  foldl1 n p (Some st) f s ps = Accept v rem ps' <->
  exists rs m pe, rs <> [] /\ (length rs < n)%nat /\ runs p s ps rs rem ps'
    /\ p rem ps' = Reject m pe /\ lfold f rs st = Some v.
Proof.
  intros. unfold foldl1. destruct (p s ps) as [r s1 ps1 | m pe | |] eqn:E.
  - rewrite foldl_accept. split; intros (rs & m & pe & H).
    + exists rs, m, pe. split; [|tauto]. intros ->.
      destruct H as (_ & R & S & _). inversion R; subst. congruence.
    + exists rs, m, pe; tauto.
  - split; [discriminate|]. intros (rs & m' & pe' & N & L & R & _).
    inversion R; subst; [congruence|]. congruence.
  - split; [discriminate|]. intros (rs & m' & pe' & N & L & R & _).
    inversion R; subst; [congruence|]. congruence.
  - split; [discriminate|]. intros (rs & m' & pe' & N & L & R & _).
    inversion R; subst; [congruence|]. congruence.
Qed.

Lemma foldl1_reject : forall n p st f s ps m pe,
  foldl1 n p st f s ps = Reject m pe <-> p s ps = Reject m pe.
Proof.
  intros. unfold foldl1. destruct (p s ps) eqn:E; split; intros H; try discriminate; auto.
  apply foldl_not_reject in H. contradiction.
Qed.

(** ** repeated *)

Lemma lfold_back_inserter : forall rs l,
  lfold back_inserter rs (VSeq l) = Some (VSeq (l ++ rs)).
Proof.
  induction rs; simpl; intros.
  - rewrite app_nil_r; auto.
  - rewrite IHrs. rewrite <- app_assoc. auto.
Qed.

Lemma repeated_accept : forall n p s ps v rem ps',
  repeated n p s ps = Accept v rem ps' <->
  exists rs m pe, v = VSeq rs /\ (length rs < n)%nat /\ runs p s ps rs rem ps'
    /\ p rem ps' = Reject m pe.
Proof.
  intros. unfold repeated. rewrite foldl_accept.
  split; intros (rs & m & pe & H); exists rs, m, pe; rewrite lfold_back_inserter in *;
    simpl in *; intuition congruence.
Qed.

Lemma repeated1_accept : forall n p s ps v rem ps',
  repeated1 n p s ps = Accept v rem ps' <->
  exists rs m pe, v = VSeq rs /\ rs <> [] /\ (length rs < n)%nat
    /\ runs p s ps rs rem ps' /\ p rem ps' = Reject m pe.
Proof.
  intros. unfold repeated1. rewrite foldl1_accept.
  split; intros (rs & m & pe & H); exists rs, m, pe; rewrite lfold_back_inserter in *;
    simpl in *; intuition congruence.
Qed.

(** ** foldl_reject_incomplete *)

Lemma foldl_ri_accept_o : forall n p st f s ps v rem ps',
  foldl_reject_incomplete n p st f s ps = Accept v rem ps' <->
  exists rs m, (length rs < n)%nat /\ runs p s ps rs rem ps'
    /\ p rem ps' = Reject m ps' /\ lfold_o f rs st = Some v.
Proof.
  induction n; intros p st f s ps v rem ps'.
  - simpl; split; [discriminate | intros (rs & m & L & _); lia].
  - simpl. split.
    + intros H. destruct (p s ps) as [r s1 ps1 | m pe | |] eqn:E; try discriminate.
      * destruct st as [st|]; [|discriminate].
        apply IHn in H as (rs & m & L & R & S & F).
        exists (r :: rs), m. splits; auto; try (simpl; lia); try (econstructor; eauto; fail).
      * destruct (pos_equal_to ps pe) eqn:Q; [|discriminate].
        apply pos_equal_to_iff in Q. subst pe.
        destruct st as [st|]; [|discriminate]. inversion H; subst.
        exists [], m. splits; auto; try (simpl; lia). constructor.
    + intros (rs & m & L & R & S & F). inversion R; subst.
      * rewrite S, pos_equal_to_refl. destruct st; simpl in F; congruence.
      * rewrite H. destruct st as [st|]; [|discriminate].
        apply IHn. exists rs0, m. splits; auto; try (simpl in L; lia).
Qed.

Lemma foldl_ri_accept : forall n p st f s ps v rem ps',
  foldl_reject_incomplete n p (Some st) f s ps = Accept v rem ps' <->
  exists rs m, (length rs < n)%nat /\ runs p s ps rs rem ps'
    /\ p rem ps' = Reject m ps' /\ lfold f rs st = Some v.
Proof. intros. apply foldl_ri_accept_o. Qed.

(** The state before the last element has to be well-formed for the iteration
    to get to the end; the last one is not looked at on rejection. *)
Lemma foldl_ri_reject_o : forall n p st f s ps m pe,
  foldl_reject_incomplete n p st f s ps = Reject m pe <->
  exists rs s1 ps1, (length rs < n)%nat /\ runs p s ps rs s1 ps1
    /\ p s1 ps1 = Reject m pe /\ pe <> ps1
    /\ (rs = [] \/ lfold_o f (removelast rs) st <> None).
Proof.
  induction n; intros p st f s ps m pe.
  - simpl; split; [discriminate | intros (rs & s1 & ps1 & L & _); lia].
  - simpl. split.
    + intros H. destruct (p s ps) as [r s1 ps1 | m' pe' | |] eqn:E; try discriminate.
      * destruct st as [st|]; [|discriminate].
        apply IHn in H as (rs & s2 & ps2 & L & R & S & D & F).
        exists (r :: rs), s2, ps2. splits; auto; try (simpl; lia); try (econstructor; eauto; fail).
        -- right. destruct F as [-> | F]; [simpl; congruence|].
           destruct rs as [|r' rs]; [simpl; congruence|].
           change (removelast (r :: r' :: rs)) with (r :: removelast (r' :: rs)).
           simpl lfold_o. destruct (f st r); auto.
      * destruct (pos_equal_to ps pe') eqn:Q.
        -- destruct st; discriminate.
        -- inversion H; subst. exists [], s, ps. splits; auto; try (simpl; lia).
           ++ constructor.
           ++ intros ->. rewrite pos_equal_to_refl in Q; discriminate.
    + intros (rs & s1 & ps1 & L & R & S & D & F). inversion R; subst.
      * rewrite S. destruct (pos_equal_to ps1 pe) eqn:Q; auto.
        apply pos_equal_to_iff in Q. congruence.
      * rewrite H. destruct F as [F | F]; [discriminate|].
        destruct st as [st|].
        2:{ destruct F. reflexivity. }
        apply IHn. exists rs0, s1, ps1. splits; auto; try (simpl in L; lia).
        destruct rs0 as [|r' rs0]; auto.
Qed.

Lemma foldl_ri_reject : forall n p st f s ps m pe,
  foldl_reject_incomplete n p (Some st) f s ps = Reject m pe <->
  exists rs s1 ps1, (length rs < n)%nat /\ runs p s ps rs s1 ps1
    /\ p s1 ps1 = Reject m pe /\ pe <> ps1 /\ lfold f (removelast rs) st <> None.
Proof.
  intros. rewrite foldl_ri_reject_o.
  split; intros (rs & s1 & ps1 & L & R & S & D & F); exists rs, s1, ps1;
    splits; auto.
  destruct F as [-> | F]; [simpl; congruence | auto].
Qed.

(** ... when the state is the result of a parser *)
Lemma lfold_o_none : forall f rs, lfold_o f rs None = None.
Proof. reflexivity. Qed.
Lemma foldl_type_accept : forall n p v0 f s ps v rem ps',
  foldl n p (type_of v0) f s ps = Accept v rem ps' <->
  exists rs m pe, v0 <> VVoid /\ (length rs < n)%nat /\ runs p s ps rs rem ps'
    /\ p rem ps' = Reject m pe /\ lfold f rs v0 = Some v.
Proof.
  intros. rewrite foldl_accept_o. destruct (type_of_cases v0) as [->|(N & ->)].
  - split; [intros (rs & m & pe & _ & _ & _ & X); discriminate | intros (rs & m & pe & X & _); congruence].
  - split; intros (rs & m & pe & H); exists rs, m, pe; tauto.
Qed.
Lemma foldl_ri_type_accept : forall n p v0 f s ps v rem ps',
  foldl_reject_incomplete n p (type_of v0) f s ps = Accept v rem ps' <->
  exists rs m, v0 <> VVoid /\ (length rs < n)%nat /\ runs p s ps rs rem ps'
    /\ p rem ps' = Reject m ps' /\ lfold f rs v0 = Some v.
Proof.
  intros. rewrite foldl_ri_accept_o. destruct (type_of_cases v0) as [->|(N & ->)].
  - split; [intros (rs & m & _ & _ & _ & X); discriminate | intros (rs & m & X & _); congruence].
  - split; intros (rs & m & H); exists rs, m; tauto.
Qed.
Lemma foldl_ri_type_reject : forall n p v0 f s ps m pe,
  foldl_reject_incomplete n p (type_of v0) f s ps = Reject m pe <->
  exists rs s1 ps1, (v0 = VVoid -> rs = []) /\ (length rs < n)%nat /\ runs p s ps rs s1 ps1
    /\ p s1 ps1 = Reject m pe /\ pe <> ps1 /\ lfold f (removelast rs) v0 <> None.
Proof.
  intros. destruct (type_of_cases v0) as [->|(N & E)].
  - rewrite foldl_ri_reject_o. split; intros (rs & s1 & ps1 & H).
    + exists rs, s1, ps1. destruct H as (H1 & H2 & H3 & H4 & [->|H5]); [|cbn in H5; congruence].
      splits; auto. cbn. discriminate.
    + exists rs, s1, ps1. tauto.
  - rewrite E, foldl_ri_reject. split; intros (rs & s1 & ps1 & H); exists rs, s1, ps1; tauto.
Qed.

(** ** foldr *)

Lemma foldr_swp_accept : forall n p sp f s ps v rem ps',
  foldr_start_with_parser n p sp f s ps = Accept v rem ps' <->
  exists rs s1 ps1 m pe v0, (length rs < n)%nat /\ runs p s ps rs s1 ps1
    /\ p s1 ps1 = Reject m pe /\ sp s1 ps1 = Accept v0 rem ps'
    /\ rfold f rs v0 = Some v.
Proof.
  induction n; intros p sp f s ps v rem ps'.
  - simpl; split; [discriminate | intros (? & ? & ? & ? & ? & ? & L & _); lia].
  - simpl. split.
    + intros H. destruct (p s ps) as [r s1 ps1 | m pe | |] eqn:E; try discriminate.
      * destruct (foldr_start_with_parser n p sp f s1 ps1) eqn:E2; try discriminate.
        apply IHn in E2 as (rs & s2 & ps2 & m & pe & v0 & L & R & S & P & F).
        destruct (f r0 r) eqn:E3; try discriminate. inversion H; subst.
        exists (r :: rs), s2, ps2, m, pe, v0. splits; auto; try (simpl; lia); try (econstructor; eauto; fail).
        -- simpl. rewrite F; auto.
      * exists [], s, ps, m, pe, v. splits; auto; try (simpl; lia). constructor.
    + intros (rs & s1 & ps1 & m & pe & v0 & L & R & S & P & F). inversion R; subst.
      * rewrite S. simpl in F; congruence.
      * rewrite H. simpl in F. destruct (rfold f rs0 v0) eqn:E; [|discriminate].
        assert (E2 : foldr_start_with_parser n p sp f s2 ps2 = Accept v1 rem ps').
        { apply IHn. exists rs0, s1, ps1, m, pe, v0. splits; auto. simpl in L; lia. }
        rewrite E2, F. auto.
Qed.

Lemma foldr_swp_reject : forall n p sp f s ps m' pe',
  foldr_start_with_parser n p sp f s ps = Reject m' pe' <->
  exists rs s1 ps1 m pe, (length rs < n)%nat /\ runs p s ps rs s1 ps1
    /\ p s1 ps1 = Reject m pe /\ sp s1 ps1 = Reject m' pe'.
Proof.
  induction n; intros p sp f s ps m' pe'.
  - simpl; split; [discriminate | intros (? & ? & ? & ? & ? & L & _); lia].
  - simpl. split.
    + intros H. destruct (p s ps) as [r s1 ps1 | m pe | |] eqn:E; try discriminate.
      * destruct (foldr_start_with_parser n p sp f s1 ps1) eqn:E2; try discriminate.
        -- destruct (f r0 r); discriminate.
        -- inversion H; subst.
           apply IHn in E2 as (rs & s2 & ps2 & m & pe & L & R & S & P).
           exists (r :: rs), s2, ps2, m, pe. splits; auto; try (simpl; lia); try (econstructor; eauto; fail).
      * exists [], s, ps, m, pe. splits; auto; try (simpl; lia). constructor.
    + intros (rs & s1 & ps1 & m & pe & L & R & S & P). inversion R; subst.
      * rewrite S; auto.
      * rewrite H.
        assert (E2 : foldr_start_with_parser n p sp f s2 ps2 = Reject m' pe').
        { apply IHn. exists rs0, s1, ps1, m, pe. splits; auto. simpl in L; lia. }
        rewrite E2. auto.
Qed.

Lemma foldr_accept : forall n p st f s ps v rem ps',
  foldr n p st f s ps = Accept v rem ps' <->
  exists rs m pe, (length rs < n)%nat /\ runs p s ps rs rem ps'
    /\ p rem ps' = Reject m pe /\ rfold f rs st = Some v.
Proof.
  intros. unfold foldr. rewrite foldr_swp_accept. split.
  - intros (rs & s1 & ps1 & m & pe & v0 & L & R & S & P & F).
    unfold return_ in P. inversion P; subst. exists rs, m, pe; auto.
  - intros (rs & m & pe & L & R & S & F).
    exists rs, rem, ps', m, pe, st; auto.
Qed.

Lemma foldr_not_reject : forall n p st f s ps m pe, foldr n p st f s ps <> Reject m pe.
Proof.
  intros n p st f s ps m pe H. apply foldr_swp_reject in H.
  destruct H as (rs & s1 & ps1 & m1 & pe1 & _ & _ & _ & P). discriminate.
Qed.

Lemma foldr1_accept : forall n p st f s ps v rem ps',
  foldr1 n p st f s ps = Accept v rem ps' <->
  exists rs m pe, rs <> [] /\ (length rs < n)%nat /\ runs p s ps rs rem ps'
    /\ p rem ps' = Reject m pe /\ rfold f rs st = Some v.
Proof.
  intros. unfold foldr1. destruct (p s ps) as [r s1 ps1 | m pe | |] eqn:E.
  - rewrite foldr_accept. split; intros (rs & m & pe & H).
    + exists rs, m, pe. split; [|tauto]. intros ->.
      destruct H as (_ & R & S & _). inversion R; subst. congruence.
    + exists rs, m, pe; tauto.
  - split; [discriminate|]. intros (rs & m' & pe' & N & L & R & _).
    inversion R; subst; [congruence|]. congruence.
  - split; [discriminate|]. intros (rs & m' & pe' & N & L & R & _).
    inversion R; subst; [congruence|]. congruence.
  - split; [discriminate|]. intros (rs & m' & pe' & N & L & R & _).
    inversion R; subst; [congruence|]. congruence.
Qed.

Lemma foldr1_reject : forall n p st f s ps m pe,
  foldr1 n p st f s ps = Reject m pe <-> p s ps = Reject m pe.
Proof.
  intros. unfold foldr1. destruct (p s ps) eqn:E; split; intros H; try discriminate; auto.
  apply foldr_not_reject in H. contradiction.
Qed.

Lemma rfold_front_inserter : forall rs l,
  rfold front_inserter rs (VSeq l) = Some (VSeq (rs ++ l)).
Proof. induction rs; simpl; intros; auto. rewrite IHrs. auto. Qed.

(** [foldr] with the front inserter is [repeated], including the number of
    iterations and the uninstantiable cases. *)
Lemma foldl_back_foldr_front_gen : forall n p l s ps,
  foldl n p (Some (VSeq l)) back_inserter s ps =
  match foldr n p (VSeq []) front_inserter s ps with
  | Accept (VSeq rs) s' ps' => Accept (VSeq (l ++ rs)) s' ps'
  | o => o
  end.
Proof.
  induction n; intros; auto.
  unfold foldr. simpl. destruct (p s ps) as [r s1 ps1 | m pe | |] eqn:E; auto.
  - rewrite IHn. unfold foldr.
    destruct (foldr_start_with_parser n p (return_ (VSeq [])) front_inserter s1 ps1)
      as [v s2 ps2 | | | ] eqn:E2; auto.
    assert (exists rs, v = VSeq rs) as [rs ->].
    { apply foldr_accept in E2 as (rs & m & pe & _ & _ & _ & F).
      rewrite rfold_front_inserter in F. exists (rs ++ []). congruence. }
    simpl. rewrite <- app_assoc. auto.
  - simpl. rewrite app_nil_r. auto.
Qed.

Lemma foldl_back_foldr_front : forall n p s ps,
  repeated n p s ps = foldr n p (VSeq []) front_inserter s ps.
Proof.
  intros. unfold repeated. rewrite foldl_back_foldr_front_gen.
  destruct (foldr n p (VSeq []) front_inserter s ps) as [v s2 ps2 | | | ] eqn:E; auto.
  apply foldr_accept in E as (rs & m & pe & _ & _ & _ & F).
  rewrite rfold_front_inserter in F. inversion F; subst. auto.
Qed.

(** ** Termination and divergence *)

Lemma foldl_terminates : forall n p st f s ps,
  consuming p -> (forall s ps, p s ps <> OutOfFuel) ->
  (length s < n)%nat -> foldl n p st f s ps <> OutOfFuel.
Proof.
  induction n; intros p st f s ps C T L; [lia|]. simpl.
  destruct (p s ps) eqn:E; try congruence.
  - destruct st; [|congruence]. apply IHn; auto. apply C in E. lia.
  - destruct st; congruence.
Qed.

Lemma foldl_ri_terminates : forall n p st f s ps,
  consuming p -> (forall s ps, p s ps <> OutOfFuel) ->
  (length s < n)%nat -> foldl_reject_incomplete n p st f s ps <> OutOfFuel.
Proof.
  induction n; intros p st f s ps C T L; [lia|]. simpl.
  destruct (p s ps) eqn:E; try congruence.
  - destruct st; [|congruence]. apply IHn; auto. apply C in E. lia.
  - destruct (pos_equal_to ps p0); [destruct st|]; congruence.
Qed.

Lemma foldr_swp_terminates : forall n p sp f s ps,
  consuming p -> (forall s ps, p s ps <> OutOfFuel) ->
  (forall s ps, sp s ps <> OutOfFuel) ->
  (length s < n)%nat -> foldr_start_with_parser n p sp f s ps <> OutOfFuel.
Proof.
  induction n; intros p sp f s ps C T T' L; [lia|]. simpl.
  destruct (p s ps) eqn:E; try congruence; auto.
  - pose proof (C _ _ _ _ _ E).
    specialize (IHn p sp f rem p0 C T T' ltac:(lia)).
    destruct (foldr_start_with_parser n p sp f rem p0); try congruence.
    destruct (f r0 r); congruence.
Qed.

Lemma stuck_here : forall p rs r s ps s2 ps2,
  p s ps = Accept r s ps -> runs p s ps rs s2 ps2 -> s2 = s /\ ps2 = ps.
Proof.
  induction rs; intros r s ps s2 ps2 A R.
  - inversion R; auto.
  - apply runs_cons_inv in R as (s1 & ps1 & E & R).
    rewrite A in E. inversion E; subst. eauto.
Qed.

(** If a run gets to a place where [p] accepts without moving, every run ends
    at a place where [p] accepts. *)
Lemma stuck_runs : forall p rs s ps s1 ps1 r, runs p s ps rs s1 ps1 ->
  p s1 ps1 = Accept r s1 ps1 ->
  forall rs' s2 ps2, runs p s ps rs' s2 ps2 -> accepts p s2 ps2.
Proof.
  induction rs; intros s ps s1 ps1 r R A rs' s2 ps2 R'.
  - inversion R; subst. destruct (stuck_here _ _ _ _ _ _ _ A R') as [-> ->].
    exists r, s1, ps1; auto.
  - inversion R; subst. inversion R'; subst.
    + do 3 eexists; eauto.
    + match goal with A : p ?x ?y = _, B : p ?x ?y = _ |- _ => rewrite A in B; inversion B; subst end.
      eapply IHrs; eauto.
Qed.

Definition no_verdict (o : outcome) : Prop := o = OutOfFuel \/ o = Illformed.

Lemma stuck_foldl : forall p rs s ps s1 ps1 r, runs p s ps rs s1 ps1 ->
  p s1 ps1 = Accept r s1 ps1 ->
  forall n st f, no_verdict (foldl n p st f s ps).
Proof.
  intros p rs s ps s1 ps1 r R A n st f.
  destruct (foldl n p st f s ps) eqn:E; unfold no_verdict; auto; exfalso.
  - apply foldl_accept_o in E as (rs' & m & pe & _ & R' & S & _).
    eapply reject_not_accepts; [exact S|]. exact (stuck_runs _ _ _ _ _ _ _ R A _ _ _ R').
  - eapply foldl_not_reject; eauto.
Qed.

Lemma stuck_foldl_ri : forall p rs s ps s1 ps1 r, runs p s ps rs s1 ps1 ->
  p s1 ps1 = Accept r s1 ps1 ->
  forall n st f, no_verdict (foldl_reject_incomplete n p st f s ps).
Proof.
  intros p rs s ps s1 ps1 r R A n st f.
  destruct (foldl_reject_incomplete n p st f s ps) eqn:E; unfold no_verdict; auto; exfalso.
  - apply foldl_ri_accept_o in E as (rs' & m & _ & R' & S & _).
    eapply reject_not_accepts; [exact S|]. exact (stuck_runs _ _ _ _ _ _ _ R A _ _ _ R').
  - apply foldl_ri_reject_o in E as (rs' & s2 & ps2 & _ & R' & S & _).
    eapply reject_not_accepts; [exact S|]. exact (stuck_runs _ _ _ _ _ _ _ R A _ _ _ R').
Qed.

Lemma stuck_foldr : forall p rs s ps s1 ps1 r, runs p s ps rs s1 ps1 ->
  p s1 ps1 = Accept r s1 ps1 ->
  forall n sp f, foldr_start_with_parser n p sp f s ps = OutOfFuel.
Proof.
  intros p rs s ps s1 ps1 r R A n.
  revert rs s ps R. induction n; intros rs s ps R sp f; auto.
  simpl. inversion R; subst.
  - rewrite A. rewrite (IHn [] s1 ps1) by constructor. auto.
  - rewrite H. erewrite IHn; eauto.
Qed.

Lemma stuck_foldl_total : forall p rs s ps s1 ps1 r, runs p s ps rs s1 ps1 ->
  p s1 ps1 = Accept r s1 ps1 ->
  forall n st f, (forall a b, f a b <> None) ->
  foldl n p (Some st) f s ps = OutOfFuel.
Proof.
  intros p rs s ps s1 ps1 r R A n.
  revert rs s ps R. induction n; intros rs s ps R st f T; auto.
  simpl. inversion R; subst.
  - rewrite A. destruct (f st r) eqn:E; [|destruct (T _ _ E)].
    apply (IHn [] s1 ps1); auto.
  - rewrite H. destruct (f st r0) eqn:E; [|destruct (T _ _ E)].
    eapply IHn; eauto.
Qed.

Lemma stuck_repeated : forall p rs s ps s1 ps1 r, runs p s ps rs s1 ps1 ->
  p s1 ps1 = Accept r s1 ps1 -> forall n, repeated n p s ps = OutOfFuel.
Proof.
  intros. rewrite foldl_back_foldr_front. eapply stuck_foldr; eauto.
Qed.

