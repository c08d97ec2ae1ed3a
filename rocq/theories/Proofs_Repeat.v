(** Proofs about rewriting repetitions. *)

From Coq Require Import ZArith List Bool Lia.
From Verif Require Import Base Util Deep Spec SpecDeep SpecRules SpecReplace SpecLaws SpecRepeat
  Proofs_Rules Proofs_Laws.
Import ListNotations.
Open Scope Z_scope.

(** ** Folding lists *)

Lemma lfold_collect : forall rs l, lfold back_inserter rs (VSeq l) = Some (VSeq (l ++ rs)).
Proof.
  induction rs as [|r rs IH]; intros l; cbn [lfold]; [rewrite app_nil_r; reflexivity|].
  unfold back_inserter, push_back. rewrite IH, <- app_assoc. reflexivity.
Qed.

Lemma rfold_collect : forall rs, rfold front_inserter rs (VSeq []) = Some (VSeq rs).
Proof. induction rs as [|r rs IH]; cbn [rfold]; [|rewrite IH]; reflexivity. Qed.

Lemma lfold_fuse : forall h f f', fuses h f f' -> forall rs v,
  match lfold f rs v with Some w => h w | None => None end
  = match h v with Some w => lfold f' rs w | None => None end.
Proof.
  intros h f f' F. induction rs as [|r rs IH]; intros v; cbn [lfold].
  - destruct (h v); reflexivity.
  - specialize (F v r). unfold after in F.
    destruct (f v r) as [x|].
    + rewrite IH, F. destruct (h v); reflexivity.
    + destruct (h v); [rewrite <- F|]; reflexivity.
Qed.

Lemma rfold_fuse : forall h f f', fuses h f f' -> forall v v', h v = Some v' -> forall rs,
  match rfold f rs v with Some w => h w | None => None end = rfold f' rs v'.
Proof.
  intros h f f' F v v' E. induction rs as [|r rs IH]; cbn [rfold]; [exact E|].
  rewrite <- IH. destruct (rfold f rs v) as [x|]; [|reflexivity]. apply (F x r).
Qed.

Lemma lfold_each : forall g f rs xs v, Forall2 (fun r x => g r = Some x) rs xs ->
  lfold (each_by g f) rs v = lfold f xs v.
Proof.
  intros g f rs xs v H. revert v. induction H as [|r x rs xs E H IH]; intros v; cbn [lfold]; auto.
  unfold each_by at 1. rewrite E. destruct (f v x); auto.
Qed.

Lemma rfold_each : forall g f rs xs v, Forall2 (fun r x => g r = Some x) rs xs ->
  rfold (each_by g f) rs v = rfold f xs v.
Proof.
  intros g f rs xs v H. induction H as [|r x rs xs E H IH]; cbn [rfold]; auto.
  rewrite IH. destruct (rfold f xs v); auto. unfold each_by. rewrite E. reflexivity.
Qed.

Lemma lfold_each_defined : forall g f rs v w, lfold (each_by g f) rs v = Some w ->
  exists xs, Forall2 (fun r x => g r = Some x) rs xs.
Proof.
  intros g f. induction rs as [|r rs IH]; intros v w H; cbn [lfold] in H; [eauto|].
  unfold each_by at 1 in H. destruct (g r) as [x|] eqn:E; [|discriminate].
  destruct (f v x) as [u|]; [|discriminate]. apply IH in H as (xs & H). eauto.
Qed.

Lemma rfold_each_defined : forall g f rs v w, rfold (each_by g f) rs v = Some w ->
  exists xs, Forall2 (fun r x => g r = Some x) rs xs.
Proof.
  intros g f. induction rs as [|r rs IH]; intros v w H; cbn [rfold] in H; [eauto|].
  destruct (rfold (each_by g f) rs v) as [u|] eqn:E; [|discriminate].
  unfold each_by in H. destruct (g r) as [x|] eqn:E'; [|discriminate].
  destruct (IH _ _ E) as (xs & K). eauto.
Qed.

Lemma total_each : forall g, total1 g -> forall rs,
  exists xs, Forall2 (fun r x => g r = Some x) rs xs.
Proof.
  intros g T. induction rs as [|r rs (xs & H)]; [eauto|].
  destruct (T r) as (x & E). eauto.
Qed.

Lemma removelast_each : forall (A B : Type) (R : A -> B -> Prop) rs xs, Forall2 R rs xs ->
  Forall2 R (removelast rs) (removelast xs).
Proof.
  intros A B R rs xs H. induction H as [|r x rs xs E H IH]; cbn [removelast]; auto.
  destruct H; auto.
Qed.

Lemma rfold_step : forall f, order_irrelevant f -> forall rs v r,
  match rfold f rs v with Some x => f x r | None => None end
  = match f v r with Some x => rfold f rs x | None => None end.
Proof.
  intros f C. induction rs as [|y rs IH]; intros v r; cbn [rfold].
  - destruct (f v r); reflexivity.
  - destruct (rfold f rs v) as [x|] eqn:E.
    + specialize (C x r y). unfold after in C. rewrite <- C.
      specialize (IH v r). rewrite E in IH. rewrite IH. destruct (f v r); reflexivity.
    + specialize (IH v r). rewrite E in IH. destruct (f v r) as [z|]; [|reflexivity].
      rewrite <- IH. reflexivity.
Qed.

Lemma lfold_turn : forall f, order_irrelevant f -> forall rs v, lfold f rs v = rfold f rs v.
Proof.
  intros f C. induction rs as [|r rs IH]; intros v; cbn [lfold rfold]; [reflexivity|].
  rewrite (rfold_step f C). destruct (f v r); auto.
Qed.

Lemma lfold_assoc : forall f, associative f -> forall rs a b,
  match f a b with Some x => lfold f rs x | None => None end
  = match lfold f rs b with Some x => f a x | None => None end.
Proof.
  intros f A. induction rs as [|r rs IH]; intros a b; cbn [lfold].
  - destruct (f a b); reflexivity.
  - specialize (A a b r). destruct (f a b) as [x|]; destruct (f b r) as [y|].
    + rewrite A. apply IH.
    + rewrite A. reflexivity.
    + rewrite <- IH, <- A. reflexivity.
    + reflexivity.
Qed.

Lemma lfold_turn_swapped : forall f v, associative f -> (forall x, f v x = f x v) ->
  forall rs, lfold f rs v = rfold (swap f) rs v.
Proof.
  intros f v A E. induction rs as [|r rs IH]; cbn [lfold rfold]; [reflexivity|].
  rewrite E, (lfold_assoc f A), IH. unfold swap. destruct (rfold _ rs v); reflexivity.
Qed.

(** ** Repetitions *)

Section In_a_program.
Variable sd : std.
Variable env : program.
Notation gives := (gives sd env).
Notation many := (many sd env).
Notation rejected p s ps := (exists m pe, gives p s ps (Reject m pe)).

Lemma foldl_iff : forall p v f s ps o, gives (PFoldl p (Some v) f) s ps o <->
  exists rs s' ps' w, o = Accept w s' ps' /\ many p s ps rs s' ps' /\ rejected p s' ps'
    /\ lfold f rs v = Some w.
Proof.
  intros. split.
  - intros H. inversion H; subst. match goal with E : Some _ = Some _ |- _ => injection E as -> end.
    do 4 eexists. repeat split; eauto.
  - intros (rs & s' & ps' & w & -> & M & (m & pe & G) & E). eapply g_foldl; eauto.
Qed.

Lemma foldr_iff : forall p v f s ps o, gives (PFoldr p v f) s ps o <->
  exists rs s' ps' w, o = Accept w s' ps' /\ many p s ps rs s' ps' /\ rejected p s' ps'
    /\ rfold f rs v = Some w.
Proof.
  intros. split.
  - intros H. inversion H; subst. do 4 eexists. repeat split; eauto.
  - intros (rs & s' & ps' & w & -> & M & (m & pe & G) & E). eapply g_foldr; eauto.
Qed.

Lemma foldl1_iff : forall p v f s ps o, gives (PFoldl1 p (Some v) f) s ps o <->
  (exists m pe, o = Reject m pe /\ gives p s ps (Reject m pe))
  \/ exists r rs s' ps' w, o = Accept w s' ps' /\ many p s ps (r :: rs) s' ps'
       /\ rejected p s' ps' /\ lfold f (r :: rs) v = Some w.
Proof.
  intros. split.
  - intros H. inversion H; subst; [right|left; eauto].
    match goal with E : Some _ = Some _ |- _ => injection E as -> end.
    do 5 eexists. repeat split; eauto.
  - intros [(m & pe & -> & G)|(r & rs & s' & ps' & w & -> & M & (m & pe & G) & E)].
    + apply g_foldl1_fails. exact G.
    + eapply g_foldl1; eauto.
Qed.

Lemma foldr1_iff : forall p v f s ps o, gives (PFoldr1 p v f) s ps o <->
  (exists m pe, o = Reject m pe /\ gives p s ps (Reject m pe))
  \/ exists r rs s' ps' w, o = Accept w s' ps' /\ many p s ps (r :: rs) s' ps'
       /\ rejected p s' ps' /\ rfold f (r :: rs) v = Some w.
Proof.
  intros. split.
  - intros H. inversion H; subst; [right|left; eauto]. do 5 eexists. repeat split; eauto.
  - intros [(m & pe & -> & G)|(r & rs & s' & ps' & w & -> & M & (m & pe & G) & E)].
    + apply g_foldr1_fails. exact G.
    + eapply g_foldr1; eauto.
Qed.

Lemma repeated_iff : forall p s ps o, gives (PRepeated p) s ps o <->
  exists rs s' ps', o = Accept (VSeq rs) s' ps' /\ many p s ps rs s' ps' /\ rejected p s' ps'.
Proof.
  intros. unfold PRepeated. rewrite foldl_iff. split.
  - intros (rs & s' & ps' & w & -> & M & G & E). rewrite lfold_collect in E. cbn [app] in E.
    injection E as <-. eauto 6.
  - intros (rs & s' & ps' & -> & M & G). exists rs, s', ps', (VSeq rs).
    rewrite lfold_collect. auto.
Qed.

Lemma repeated1_iff : forall p s ps o, gives (PRepeated1 p) s ps o <->
  (exists m pe, o = Reject m pe /\ gives p s ps (Reject m pe))
  \/ exists r rs s' ps', o = Accept (VSeq (r :: rs)) s' ps' /\ many p s ps (r :: rs) s' ps'
       /\ rejected p s' ps'.
Proof.
  intros. unfold PRepeated1. rewrite foldl1_iff. split; (intros [H|H]; [left; exact H|right]).
  - destruct H as (r & rs & s' & ps' & w & -> & M & G & E). rewrite lfold_collect in E.
    cbn [app] in E. injection E as <-. eauto 8.
  - destruct H as (r & rs & s' & ps' & -> & M & G). exists r, rs, s', ps', (VSeq (r :: rs)).
    rewrite lfold_collect. auto.
Qed.

Lemma transform_iff : forall p f s ps o, gives (PTransform p f) s ps o <->
  (exists m pe, o = Reject m pe /\ gives p s ps (Reject m pe))
  \/ exists r s' ps' w, o = Accept w s' ps' /\ gives p s ps (Accept r s' ps') /\ f r = Some w.
Proof.
  intros. split.
  - intros H. inversion H; subst; [right; eauto 8|left; eauto].
  - intros [(m & pe & -> & G)|(r & s' & ps' & w & -> & G & E)].
    + apply g_transform_fails; auto.
    + eapply g_transform; eauto.
Qed.

Lemma many_transform : forall p g s ps xs s' ps', many (PTransform p g) s ps xs s' ps' <->
  exists rs, many p s ps rs s' ps' /\ Forall2 (fun r x => g r = Some x) rs xs.
Proof.
  intros p g. split.
  - revert s ps s' ps'. induction xs as [|x xs IH]; intros s ps s' ps' H; inversion H; subst.
    + exists []. split; constructor.
    + match goal with G : gives (PTransform _ _) _ _ _ |- _ => inversion G; subst end.
      match goal with M : SpecRules.many _ _ _ _ _ xs _ _ |- _ => apply IH in M as (rs & M & F) end.
      eexists (_ :: rs). split; [eapply many_more; eauto|]. constructor; auto.
  - intros (rs & M & F). revert s ps M. induction F as [|r x rs xs E F IH]; intros s ps M;
      inversion M; subst; [constructor|].
    eapply many_more; [eapply g_transform; eauto|]. auto.
Qed.

Lemma rejected_transform : forall p g s ps m pe,
  gives (PTransform p g) s ps (Reject m pe) <-> gives p s ps (Reject m pe).
Proof. intros. rewrite transform_iff. split; [|eauto]. intros [(m' & pe' & E & G)|(r & s' & ps' & w & E & _)]; congruence. Qed.
End In_a_program.

Lemma pair_turn_iff : forall sd env p q s ps rs s' ps', in_turn sd env [p; q] s ps rs s' ps' <->
  exists a b s1 ps1, rs = [a; b] /\ gives sd env p s ps (Accept a s1 ps1)
    /\ gives sd env q s1 ps1 (Accept b s' ps').
Proof.
  intros. split.
  - intros H. inversion H; subst.
    match goal with I : in_turn _ _ [q] _ _ _ _ _ |- _ => inversion I; subst end.
    match goal with I : in_turn _ _ [] _ _ _ _ _ |- _ => inversion I; subst end.
    do 4 eexists. eauto.
  - intros (a & b & s1 & ps1 & -> & G1 & G2). econstructor; [eauto|]. econstructor; [eauto|].
    constructor.
Qed.

Lemma pair_breaks_iff : forall sd env p q s ps m pe, breaks_off sd env [p; q] s ps m pe <->
  gives sd env p s ps (Reject m pe)
  \/ exists a s1 ps1, gives sd env p s ps (Accept a s1 ps1) /\ gives sd env q s1 ps1 (Reject m pe).
Proof.
  intros. split.
  - intros H. inversion H; subst; [left; auto|right].
    match goal with I : breaks_off _ _ [q] _ _ _ _ |- _ => inversion I; subst end;
      [eauto|]. match goal with I : breaks_off _ _ [] _ _ _ _ |- _ => inversion I end.
  - intros [G|(a & s1 & ps1 & G & K)]; [apply breaks_off_here; auto|].
    eapply breaks_off_later; [exact G|]. apply breaks_off_here. auto.
Qed.

(** A fold of changed elements: the same with another function. *)
Ltac each_left :=
  match goal with
  | H : Forall2 (fun r x => _ r = Some x) ?rs ?xs |- _ =>
      try rewrite (lfold_each _ _ _ _ _ H) in *; try rewrite (rfold_each _ _ _ _ _ H) in *
  end.

Lemma many_cons_transform : forall sd env p g s ps x xs s' ps',
  many sd env (PTransform p g) s ps (x :: xs) s' ps' ->
  exists r rs, many sd env p s ps (r :: rs) s' ps' /\ Forall2 (fun r x => g r = Some x) (r :: rs) (x :: xs).
Proof.
  intros. apply many_transform in H as (rs & M & F).
  destruct rs as [|r rs]; [inversion F|]. eauto.
Qed.

Lemma many_cons_transform_back : forall sd env p g s ps r rs s' ps' xs,
  many sd env p s ps (r :: rs) s' ps' -> Forall2 (fun r x => g r = Some x) (r :: rs) xs ->
  exists y ys, xs = y :: ys /\ many sd env (PTransform p g) s ps (y :: ys) s' ps'.
Proof.
  intros. destruct xs as [|y ys]; [inversion H0|]. exists y, ys. split; auto.
  apply many_transform. eauto.
Qed.

Lemma rejected_each : forall sd env p g s ps,
  (exists m pe, gives sd env (PTransform p g) s ps (Reject m pe))
  <-> exists m pe, gives sd env p s ps (Reject m pe).
Proof.
  intros. split; intros (m & pe & G); exists m, pe; apply (rejected_transform sd env p g); auto.
Qed.

Lemma fold_laws_hold : forall sd a b, fold_law a b -> equivalent sd a b.
Proof.
  intros sd a b L env s ps o. destruct L.
  - rewrite transform_iff, foldl_iff. split.
    + intros (rs & s' & ps' & w & -> & M & G & E). right. exists (VSeq rs), s', ps', w.
      split; [reflexivity|]. split; [|exact E]. apply repeated_iff. eauto 8.
    + intros [(m & pe & -> & G)|(r & s' & ps' & w & -> & G & E)];
        apply repeated_iff in G as (rs & s1 & ps1 & X & M & G); [discriminate|].
      injection X as -> -> ->. exists rs, s1, ps1, w. auto.
  - rewrite transform_iff, foldr_iff. split.
    + intros (rs & s' & ps' & w & -> & M & G & E). right. exists (VSeq rs), s', ps', w.
      split; [reflexivity|]. split; [|exact E]. apply repeated_iff. eauto 8.
    + intros [(m & pe & -> & G)|(r & s' & ps' & w & -> & G & E)];
        apply repeated_iff in G as (rs & s1 & ps1 & X & M & G); [discriminate|].
      injection X as -> -> ->. exists rs, s1, ps1, w. auto.
  - rewrite transform_iff, foldl1_iff. split.
    + intros [(m & pe & -> & G)|(r & rs & s' & ps' & w & -> & M & G & E)].
      * left. exists m, pe. split; auto. apply repeated1_iff. left. eauto.
      * right. exists (VSeq (r :: rs)), s', ps', w.
        split; [reflexivity|]. split; [|exact E]. apply repeated1_iff. right. eauto 10.
    + intros [(m & pe & -> & G)|(r & s' & ps' & w & -> & G & E)];
        apply repeated1_iff in G as [(m1 & pe1 & X & G)|(r1 & rs & s1 & ps1 & X & M & G)];
        try discriminate.
      * injection X as -> ->. left; eauto.
      * injection X as -> -> ->. right. exists r1, rs, s1, ps1, w. auto.
  - rewrite transform_iff, foldr1_iff. split.
    + intros [(m & pe & -> & G)|(r & rs & s' & ps' & w & -> & M & G & E)].
      * left. exists m, pe. split; auto. apply repeated1_iff. left. eauto.
      * right. exists (VSeq (r :: rs)), s', ps', w.
        split; [reflexivity|]. split; [|exact E]. apply repeated1_iff. right. eauto 10.
    + intros [(m & pe & -> & G)|(r & s' & ps' & w & -> & G & E)];
        apply repeated1_iff in G as [(m1 & pe1 & X & G)|(r1 & rs & s1 & ps1 & X & M & G)];
        try discriminate.
      * injection X as -> ->. left; eauto.
      * injection X as -> -> ->. right. exists r1, rs, s1, ps1, w. auto.
  - rewrite repeated_iff, foldr_iff. split.
    + intros (rs & s' & ps' & w & -> & M & G & E). rewrite rfold_collect in E.
      injection E as <-. eauto 6.
    + intros (rs & s' & ps' & -> & M & G). exists rs, s', ps', (VSeq rs).
      rewrite rfold_collect. auto.
  - (* left, each *)
    destruct st as [v|].
    2:{ split; intros H; inversion H; subst; discriminate. }
    rewrite !foldl_iff. split.
    + intros (xs & s' & ps' & w & -> & M & G & E).
      apply many_transform in M as (rs & M & F). rewrite rejected_each in G.
      exists rs, s', ps', w. rewrite (lfold_each _ _ _ _ _ F). repeat split; auto.
    + intros (rs & s' & ps' & w & -> & M & G & E).
      destruct (lfold_each_defined _ _ _ _ _ E) as (xs & F).
      rewrite (lfold_each _ _ _ _ _ F) in E. exists xs, s', ps', w.
      rewrite rejected_each. split; [reflexivity|]. split; [apply many_transform; eauto|auto].
  - rewrite !foldr_iff. split.
    + intros (xs & s' & ps' & w & -> & M & G & E).
      apply many_transform in M as (rs & M & F). rewrite rejected_each in G.
      exists rs, s', ps', w. rewrite (rfold_each _ _ _ _ _ F). repeat split; auto.
    + intros (rs & s' & ps' & w & -> & M & G & E).
      destruct (rfold_each_defined _ _ _ _ _ E) as (xs & F).
      rewrite (rfold_each _ _ _ _ _ F) in E. exists xs, s', ps', w.
      rewrite rejected_each. split; [reflexivity|]. split; [apply many_transform; eauto|auto].
  - destruct st as [v|].
    2:{ split; intros H; inversion H; subst; try discriminate; apply g_foldl1_fails;
          [rewrite <- rejected_transform|rewrite rejected_transform]; eauto. }
    rewrite !foldl1_iff. split.
    + intros [(m & pe & -> & G)|(x & xs & s' & ps' & w & -> & M & G & E)].
      * left. exists m, pe. split; auto. apply rejected_transform in G. exact G.
      * right. apply many_cons_transform in M as (r & rs & M & F). rewrite rejected_each in G.
        exists r, rs, s', ps', w. rewrite (lfold_each _ _ _ _ _ F). auto.
    + intros [(m & pe & -> & G)|(r & rs & s' & ps' & w & -> & M & G & E)].
      * left. exists m, pe. split; auto. apply rejected_transform. exact G.
      * right. destruct (lfold_each_defined _ _ _ _ _ E) as (xs & F).
        rewrite (lfold_each _ _ _ _ _ F) in E.
        destruct (many_cons_transform_back _ _ _ _ _ _ _ _ _ _ _ M F) as (y & ys & -> & M').
        exists y, ys, s', ps', w. rewrite rejected_each. auto.
  - rewrite !foldr1_iff. split.
    + intros [(m & pe & -> & G)|(x & xs & s' & ps' & w & -> & M & G & E)].
      * left. exists m, pe. split; auto. apply rejected_transform in G. exact G.
      * right. apply many_cons_transform in M as (r & rs & M & F). rewrite rejected_each in G.
        exists r, rs, s', ps', w. rewrite (rfold_each _ _ _ _ _ F). auto.
    + intros [(m & pe & -> & G)|(r & rs & s' & ps' & w & -> & M & G & E)].
      * left. exists m, pe. split; auto. apply rejected_transform. exact G.
      * right. destruct (rfold_each_defined _ _ _ _ _ E) as (xs & F).
        rewrite (rfold_each _ _ _ _ _ F) in E.
        destruct (many_cons_transform_back _ _ _ _ _ _ _ _ _ _ _ M F) as (y & ys & -> & M').
        exists y, ys, s', ps', w. rewrite rejected_each. auto.
  - (* left with a parser for the first value *)
    split; intros H; inversion H; subst; try (apply g_foldl_swp_fails; assumption).
    + match goal with M : many _ _ _ _ _ _ _ _ |- _ => apply many_transform in M as (rs' & M & F) end.
      match goal with G : gives _ _ (PTransform _ _) _ _ _ |- _ => apply rejected_transform in G end.
      eapply g_foldl_swp; eauto. rewrite (lfold_each _ _ _ _ _ F). auto.
    + match goal with E : lfold _ _ _ = _ |- _ =>
        destruct (lfold_each_defined _ _ _ _ _ E) as (xs & F);
        rewrite (lfold_each _ _ _ _ _ F) in E end.
      eapply g_foldl_swp; eauto.
      * apply many_transform. eauto.
      * apply rejected_transform. eauto.
  - split; intros H0; inversion H0; subst.
    + match goal with M : many _ _ _ _ _ _ _ _ |- _ => apply many_transform in M as (rs' & M & F) end.
      match goal with G : gives _ _ (PTransform _ _) _ _ _ |- _ => apply rejected_transform in G end.
      eapply g_foldr_swp; eauto. rewrite (rfold_each _ _ _ _ _ F). auto.
    + match goal with M : many _ _ _ _ _ _ _ _ |- _ => apply many_transform in M as (rs' & M & F) end.
      match goal with G : gives _ _ (PTransform _ _) _ _ _ |- _ => apply rejected_transform in G end.
      eapply g_foldr_swp_fails; eauto.
    + match goal with E : rfold _ _ _ = _ |- _ =>
        destruct (rfold_each_defined _ _ _ _ _ E) as (xs & F);
        rewrite (rfold_each _ _ _ _ _ F) in E end.
      eapply g_foldr_swp; eauto.
      * apply many_transform. eauto.
      * apply rejected_transform. eauto.
    + destruct (total_each g H rs) as (xs & F).
      eapply g_foldr_swp_fails; eauto.
      * apply many_transform. eauto.
      * apply rejected_transform. eauto.
  - (* reject_incomplete *)
    split; intros H0; inversion H0; subst.
    + match goal with M : many _ _ _ _ _ _ _ _ |- _ => apply many_transform in M as (rs' & M & F) end.
      match goal with G : gives _ _ (PTransform _ _) _ _ _ |- _ => apply rejected_transform in G end.
      eapply g_foldl_ri; eauto. rewrite (lfold_each _ _ _ _ _ F). auto.
    + match goal with M : many _ _ _ _ _ _ _ _ |- _ => apply many_transform in M as (rs' & M & F) end.
      match goal with G : gives _ _ (PTransform _ _) _ _ _ |- _ => apply rejected_transform in G end.
      eapply g_foldl_ri_incomplete; eauto.
      match goal with D : _ \/ _ |- _ => destruct D as [->|(v0 & v & E1 & E2)] end.
      * left. inversion F. reflexivity.
      * right. exists v0, v. split; auto.
        rewrite (lfold_each _ _ _ _ _ (removelast_each _ _ _ _ _ F)). auto.
    + match goal with E : lfold _ _ _ = _ |- _ =>
        destruct (lfold_each_defined _ _ _ _ _ E) as (xs & F);
        rewrite (lfold_each _ _ _ _ _ F) in E end.
      eapply g_foldl_ri; eauto.
      * apply many_transform. eauto.
      * apply rejected_transform. eauto.
    + destruct (total_each g H rs) as (xs & F).
      eapply g_foldl_ri_incomplete with (rs := xs); eauto.
      * apply many_transform. eauto.
      * apply rejected_transform. eauto.
      * match goal with D : _ \/ _ |- _ => destruct D as [->|(v0 & v & E1 & E2)] end.
        -- left. inversion F. reflexivity.
        -- right. exists v0, v. split; auto.
           rewrite (lfold_each _ _ _ _ _ (removelast_each _ _ _ _ _ F)) in E2. auto.
  - split; intros H0; inversion H0; subst.
    + match goal with M : many _ _ _ _ _ _ _ _ |- _ => apply many_transform in M as (rs' & M & F) end.
      match goal with G : gives _ _ (PTransform _ _) _ _ _ |- _ => apply rejected_transform in G end.
      eapply g_foldr_ri; eauto. rewrite (rfold_each _ _ _ _ _ F). auto.
    + match goal with M : many _ _ _ _ _ _ _ _ |- _ => apply many_transform in M as (rs' & M & F) end.
      match goal with G : gives _ _ (PTransform _ _) _ _ _ |- _ => apply rejected_transform in G end.
      eapply g_foldr_ri_incomplete; eauto.
    + match goal with E : rfold _ _ _ = _ |- _ =>
        destruct (rfold_each_defined _ _ _ _ _ E) as (xs & F);
        rewrite (rfold_each _ _ _ _ _ F) in E end.
      eapply g_foldr_ri; eauto.
      * apply many_transform. eauto.
      * apply rejected_transform. eauto.
    + destruct (total_each g H rs) as (xs & F).
      eapply g_foldr_ri_incomplete with (rs := xs); eauto.
      * apply many_transform. eauto.
      * apply rejected_transform. eauto.
  - (* fusion *)
    rewrite transform_iff. split.
    + intros [(m & pe & -> & G)|(r & s' & ps' & w & -> & G & E)];
        apply foldl_iff in G as (rs & s1 & ps1 & u & X & M & G & K); [discriminate|].
      injection X as -> -> ->. apply foldl_iff. exists rs, s1, ps1, w.
      pose proof (lfold_fuse _ _ _ H rs v) as Q. rewrite K, H0, E in Q. auto.
    + intros G. apply foldl_iff in G as (rs & s1 & ps1 & w & -> & M & G & K). right.
      pose proof (lfold_fuse _ _ _ H rs v) as Q. rewrite H0, K in Q.
      destruct (lfold f rs v) as [u|] eqn:E; [|discriminate].
      exists u, s1, ps1, w. split; [reflexivity|]. split; [|exact Q].
      apply foldl_iff. exists rs, s1, ps1, u. auto.
  - rewrite transform_iff. split.
    + intros [(m & pe & -> & G)|(r & s' & ps' & w & -> & G & E)];
        apply foldl1_iff in G as [(m1 & pe1 & X & G)|(r1 & rs & s1 & ps1 & u & X & M & G & K)];
        try discriminate; apply foldl1_iff.
      * injection X as -> ->. left. eauto.
      * injection X as -> -> ->. right. exists r1, rs, s1, ps1, w.
        pose proof (lfold_fuse _ _ _ H (r1 :: rs) v) as Q. rewrite K, H0, E in Q. auto.
    + intros G. apply foldl1_iff in G as [(m1 & pe1 & -> & G)|(r1 & rs & s1 & ps1 & w & -> & M & G & K)].
      * left. exists m1, pe1. split; auto. apply foldl1_iff. left. eauto.
      * right. pose proof (lfold_fuse _ _ _ H (r1 :: rs) v) as Q. rewrite H0, K in Q.
        destruct (lfold f (r1 :: rs) v) as [u|] eqn:E; [|discriminate].
        exists u, s1, ps1, w. split; [reflexivity|]. split; [|exact Q].
        apply foldl1_iff. right. exists r1, rs, s1, ps1, u. auto.
  - rewrite transform_iff. split.
    + intros [(m & pe & -> & G)|(r & s' & ps' & w & -> & G & E)];
        apply foldr_iff in G as (rs & s1 & ps1 & u & X & M & G & K); [discriminate|].
      injection X as -> -> ->. apply foldr_iff. exists rs, s1, ps1, w.
      pose proof (rfold_fuse _ _ _ H _ _ H0 rs) as Q. rewrite K, E in Q. auto.
    + intros G. apply foldr_iff in G as (rs & s1 & ps1 & w & -> & M & G & K). right.
      pose proof (rfold_fuse _ _ _ H _ _ H0 rs) as Q. rewrite K in Q.
      destruct (rfold f rs v) as [u|] eqn:E; [|discriminate].
      exists u, s1, ps1, w. split; [reflexivity|]. split; [|exact Q].
      apply foldr_iff. exists rs, s1, ps1, u. auto.
  - rewrite transform_iff. split.
    + intros [(m & pe & -> & G)|(r & s' & ps' & w & -> & G & E)];
        apply foldr1_iff in G as [(m1 & pe1 & X & G)|(r1 & rs & s1 & ps1 & u & X & M & G & K)];
        try discriminate; apply foldr1_iff.
      * injection X as -> ->. left. eauto.
      * injection X as -> -> ->. right. exists r1, rs, s1, ps1, w.
        pose proof (rfold_fuse _ _ _ H _ _ H0 (r1 :: rs)) as Q. rewrite K, E in Q. auto.
    + intros G. apply foldr1_iff in G as [(m1 & pe1 & -> & G)|(r1 & rs & s1 & ps1 & w & -> & M & G & K)].
      * left. exists m1, pe1. split; auto. apply foldr1_iff. left. eauto.
      * right. pose proof (rfold_fuse _ _ _ H _ _ H0 (r1 :: rs)) as Q. rewrite K in Q.
        destruct (rfold f (r1 :: rs) v) as [u|] eqn:E; [|discriminate].
        exists u, s1, ps1, w. split; [reflexivity|]. split; [|exact Q].
        apply foldr1_iff. right. exists r1, rs, s1, ps1, u. auto.
  - rewrite foldl_iff, foldr_iff.
    split; intros (rs & s1 & ps1 & w & -> & M & G & K); exists rs, s1, ps1, w;
      rewrite (lfold_turn f H) in *; auto.
  - rewrite foldl_iff, foldr_iff.
    split; intros (rs & s1 & ps1 & w & -> & M & G & K); exists rs, s1, ps1, w;
      rewrite (lfold_turn_swapped f v H H0) in *; auto.
  - (* unrolling *)
    split.
    + intros G. apply foldr_iff in G as (rs & s1 & ps1 & w & -> & M & G & K).
      destruct rs as [|r rs]; inversion M; subst.
      * cbn in K. injection K as <-. destruct G as (m & pe & G).
        eapply g_optional_default. apply g_transform_fails. apply g_sequence_fails.
        apply breaks_off_here. exact G.
      * cbn [rfold] in K. destruct (rfold f rs v) as [x|] eqn:E; [|discriminate].
        apply g_optional. eapply g_transform with (r := VSeq [r; x]); [|exact K].
        apply g_sequence. apply pair_turn_iff. do 4 eexists. split; [reflexivity|].
        split; [eassumption|]. apply foldr_iff. exists rs, s1, ps1, x. auto.
    + intros H. inversion H; subst;
        match goal with G : gives _ _ (PTransform _ _) _ _ _ |- _ => inversion G; subst end;
        match goal with G : gives _ _ (PSequence _) _ _ _ |- _ => inversion G; subst end.
      * match goal with I : in_turn _ _ _ _ _ _ _ _ |- _ =>
          apply pair_turn_iff in I as (a & b & s1 & ps1 & -> & G1 & G2) end.
        apply foldr_iff in G2 as (rs & s2 & ps2 & w & X & M & G & K). injection X as -> -> ->.
        apply foldr_iff. do 4 eexists. split; [reflexivity|].
        split; [eapply many_more; eauto|]. split; [exact G|]. cbn [rfold]. rewrite K. assumption.
      * match goal with B : breaks_off _ _ _ _ _ _ _ |- _ =>
          apply pair_breaks_iff in B as [G|(a & s1 & ps1 & _ & G)] end.
        -- apply foldr_iff. exists [], s, ps, v. repeat split; eauto. constructor.
        -- apply foldr_iff in G as (rs & s2 & ps2 & w & X & _). discriminate.
  - (* one more *)
    rewrite repeated1_iff, transform_iff. split.
    + intros [(m & pe & -> & G)|(r & rs & s1 & ps1 & -> & M & G)].
      * left. exists m, pe. split; auto. apply g_sequence_fails. apply breaks_off_here. auto.
      * right. inversion M; subst. exists (VSeq [r; VSeq rs]), s1, ps1, (VSeq (r :: rs)).
        split; [reflexivity|]. split; [|reflexivity]. apply g_sequence. apply pair_turn_iff.
        do 4 eexists. split; [reflexivity|]. split; [eassumption|]. apply repeated_iff. eauto 8.
    + intros [(m & pe & -> & G)|(x & s1 & ps1 & w & -> & G & E)]; inversion G; subst.
      * match goal with B : breaks_off _ _ _ _ _ _ _ |- _ =>
          apply pair_breaks_iff in B as [Q|(a & s1 & ps1 & _ & Q)] end; [left; eauto|].
        apply repeated_iff in Q as (rs & s2 & ps2 & X & _). discriminate.
      * match goal with I : in_turn _ _ _ _ _ _ _ _ |- _ =>
          apply pair_turn_iff in I as (a & b & s2 & ps2 & -> & G1 & G2) end.
        apply repeated_iff in G2 as (rs & s3 & ps3 & X & M & K). injection X as -> -> ->.
        cbn in E. injection E as <-. right. exists a, rs, s3, ps3.
        split; [reflexivity|]. split; [eapply many_more; eauto|exact K].
Qed.

(** ** Right recursion *)

Section Recursion.
Variable sd : std.
Variable env : program.
Variables (k : nat) (p : pexpr) (v : value) (f : mf2).
Notation rest := (PSequence [p; PRef k]).
Notation step := (PTransform (PSequence [p; PRef k]) (on_pair f)).
Notation folded := (PFoldr p v f).
Hypothesis K : env k = POptional step v.

Lemma recursion_sound :
  (forall e s ps o, gives sd env e s ps o ->
     (e = PRef k \/ e = POptional step v -> gives sd env folded s ps o)
     /\ (e = step -> match o with
          | Accept w s' ps' => gives sd env folded s ps (Accept w s' ps')
          | Reject _ _ => exists m pe, gives sd env p s ps (Reject m pe)
          | _ => True
          end)
     /\ (e = rest -> match o with
          | Accept w s' ps' => exists r x s1 ps1, w = VSeq [r; x]
              /\ gives sd env p s ps (Accept r s1 ps1) /\ gives sd env folded s1 ps1 (Accept x s' ps')
          | Reject _ _ => exists m pe, gives sd env p s ps (Reject m pe)
          | _ => True
          end))
  /\ (forall q s ps rs s' ps', many sd env q s ps rs s' ps' -> True)
  /\ (forall l s ps rs s' ps', in_turn sd env l s ps rs s' ps' ->
       (l = [p; PRef k] -> exists r x s1 ps1, rs = [r; x]
          /\ gives sd env p s ps (Accept r s1 ps1) /\ gives sd env folded s1 ps1 (Accept x s' ps'))
       /\ (l = [PRef k] -> exists x, rs = [x] /\ gives sd env folded s ps (Accept x s' ps'))
       /\ (l = [] -> rs = [] /\ s' = s /\ ps' = ps))
  /\ (forall l s ps m pe, breaks_off sd env l s ps m pe ->
       (l = [p; PRef k] -> exists m pe, gives sd env p s ps (Reject m pe))
       /\ (l = [PRef k] -> False)
       /\ (l = [] -> False))
  /\ (forall l s ps os, each sd env l s ps os -> True).
Proof.
  apply rules_mind; intros; try exact Logic.I.
  all: try (split; [intros [X|X]; try discriminate X|split; intros X; try discriminate X]).
  all: try (injection X; intros; subst).
  - (* a named parser *)
    match goal with H : _ /\ _ |- _ => destruct H as (H & _); apply H; right; exact K end.
  - (* transform accepts *)
    match goal with H : _ /\ _ /\ (_ -> exists _, _) |- _ =>
      destruct H as (_ & _ & H); destruct (H eq_refl) as (a & x & s1 & ps1 & -> & A & B) end.
    apply foldr_iff in B as (rs & s2 & ps2 & w & X' & M & G & E). injection X' as -> -> ->.
    apply foldr_iff. do 4 eexists. split; [reflexivity|].
    split; [eapply many_more; eauto|]. split; [exact G|]. cbn [rfold]. rewrite E. assumption.
  - match goal with H : _ /\ _ /\ (_ -> exists _, _) |- _ => apply H; reflexivity end.
  - (* optional *)
    match goal with H : _ /\ (_ -> gives _ _ _ _ _ _) /\ _ |- _ => apply H; reflexivity end.
  - match goal with H : _ /\ (_ -> exists _, _) /\ _ |- _ =>
      destruct H as (_ & H & _); destruct (H eq_refl) as (m1 & pe1 & G) end.
    apply foldr_iff. exists [], s, ps, v. repeat split; eauto. constructor.
  - (* sequence *)
    match goal with H : (_ -> exists _, _) /\ _ |- _ =>
      destruct H as (H & _); destruct (H eq_refl) as (a & x & s1 & ps1 & -> & A & B) end.
    eauto 8.
  - match goal with H : (_ -> exists _, _) /\ _ |- _ => apply H; reflexivity end.
  - split; [discriminate|]. split; [discriminate|auto].
  - split; [|split; [|discriminate]].
    + intros X. injection X as -> ->.
      match goal with H : _ /\ (_ -> exists x, _) /\ (_ -> _ /\ _) |- _ =>
        destruct H as (_ & H & _); destruct (H eq_refl) as (x & -> & B) end.
      eauto 8.
    + intros X. injection X as -> ->.
      match goal with H : (_ -> exists r, _) /\ (_ -> exists x, _) /\ (_ -> _ /\ _) |- _ =>
        destruct H as (_ & _ & H); destruct (H eq_refl) as (-> & -> & ->) end.
      match goal with H : (_ \/ _ -> _) /\ _ |- _ => destruct H as (H & _) end.
      eauto.
  - split; [|split; [|discriminate]].
    + intros X. injection X as -> ->. eauto.
    + intros X. injection X as -> ->.
      match goal with H : (_ \/ _ -> _) /\ _ |- _ =>
        destruct H as (H & _); specialize (H (or_introl eq_refl));
        apply foldr_iff in H as (rs & s2 & ps2 & w & X' & _) end.
      discriminate.
  - split; [|split; [|discriminate]].
    + intros X. injection X as -> ->.
      match goal with H : _ /\ (_ -> False) /\ _ |- _ =>
        destruct H as (_ & H & _); destruct (H eq_refl) end.
    + intros X. injection X as -> ->.
      match goal with H : _ /\ (_ -> False) /\ _ |- _ =>
        destruct H as (_ & _ & H); destruct (H eq_refl) end.
Qed.

Lemma recursion_complete : forall rs s ps s' ps' w m pe,
  many sd env p s ps rs s' ps' -> gives sd env p s' ps' (Reject m pe) -> rfold f rs v = Some w ->
  gives sd env (PRef k) s ps (Accept w s' ps').
Proof.
  induction rs as [|r rs IH]; intros s ps s' ps' w m pe M G E; inversion M; subst;
    apply g_ref; rewrite K.
  - cbn in E. injection E as <-. eapply g_optional_default. apply g_transform_fails.
    apply g_sequence_fails. apply breaks_off_here. exact G.
  - cbn [rfold] in E. destruct (rfold f rs v) as [x|] eqn:E'; [|discriminate].
    apply g_optional. eapply g_transform with (r := VSeq [r; x]); [|exact E].
    apply g_sequence. apply pair_turn_iff. do 4 eexists. split; [reflexivity|].
    split; [eassumption|]. eauto.
Qed.

Lemma recursion_is_fold : same_results sd env (PRef k) folded.
Proof.
  intros s ps o. split.
  - intros H. apply (proj1 recursion_sound _ _ _ _ H). auto.
  - intros H. apply foldr_iff in H as (rs & s' & ps' & w & -> & M & (m & pe & G) & E).
    eapply recursion_complete; eauto.
Qed.
End Recursion.

(** ** Repetitions of parsers with one result *)

Section One_result.
Variable sd : std.
Variable env : program.
Variable p : pexpr.
Hypothesis one : forall s ps o1 o2, gives sd env p s ps o1 -> gives sd env p s ps o2 -> o1 = o2.

Lemma many_at_end : forall rs s ps s' ps' m pe, many sd env p s ps rs s' ps' ->
  gives sd env p s ps (Reject m pe) -> rs = [] /\ s' = s /\ ps' = ps.
Proof.
  intros rs s ps s' ps' m pe M G. destruct M as [q s ps|q s ps r s1 ps1 rs s2 ps2 G' M]; auto.
  exfalso. specialize (one _ _ _ _ G G'). discriminate.
Qed.

Lemma repeated_twice : forall s ps o,
  gives sd env (PSequence [PRepeated p; PRepeated p]) s ps o
  <-> gives sd env (PTransform (PRepeated p) (fun r => Some (VSeq [r; VSeq []]))) s ps o.
Proof.
  intros s ps o. rewrite transform_iff. split.
  - intros H. inversion H; subst.
    + match goal with I : in_turn _ _ _ _ _ _ _ _ |- _ =>
        apply pair_turn_iff in I as (a & b & s1 & ps1 & -> & G1 & G2) end.
      pose proof G1 as G0. apply repeated_iff in G1 as (rs & s2 & ps2 & X & M & (m & pe & G)).
      injection X as -> -> ->. apply repeated_iff in G2 as (rs2 & s3 & ps3 & X & M2 & _).
      injection X as -> -> ->. apply (many_at_end _ _ _ _ _ _ _ M2) in G as (-> & -> & ->).
      right. do 4 eexists. split; [reflexivity|]. split; [exact G0|reflexivity].
    + match goal with B : breaks_off _ _ _ _ _ _ _ |- _ =>
        apply pair_breaks_iff in B as [Q|(a & s1 & ps1 & _ & Q)] end;
        apply repeated_iff in Q as (rs & s2 & ps2 & X & _); discriminate.
  - intros [(m & pe & -> & G)|(r & s' & ps' & w & -> & G & E)].
    + apply repeated_iff in G as (rs & s2 & ps2 & X & _); discriminate.
    + injection E as <-. apply g_sequence. apply pair_turn_iff.
      do 4 eexists. split; [reflexivity|]. split; [exact G|].
      apply repeated_iff in G as (rs & s2 & ps2 & X & M & (m & pe & G)). injection X as -> -> ->.
      apply repeated_iff. exists [], s2, ps2. repeat split; eauto. constructor.
Qed.

Lemma repeated_groups : forall s ps o,
  gives sd env (PRepeated (PRepeated1 p)) s ps o
  <-> gives sd env (PTransform (PRepeated p) one_group) s ps o.
Proof.
  intros s ps o. rewrite transform_iff, repeated_iff. split.
  - intros (gs & s' & ps' & -> & M & R). right.
    inversion M; subst.
    + destruct R as (m & pe & G). apply repeated1_iff in G as [(m1 & pe1 & X & G)|(r & rs & s1 & ps1 & X & _)];
        [|discriminate].
      exists (VSeq []), s', ps', (VSeq []). split; [reflexivity|]. split; [|reflexivity].
      apply repeated_iff. exists [], s', ps'. repeat split; eauto. constructor.
    + match goal with G : gives _ _ (PRepeated1 _) s ps _ |- _ =>
        apply repeated1_iff in G as [(m1 & pe1 & X & _)|(a & rs1 & s2 & ps2 & X & M1 & Q)] end;
        [discriminate|]. injection X as -> -> ->. destruct Q as (m & pe & Q).
      match goal with M2 : many _ _ _ s2 ps2 _ _ _ |- _ => inversion M2; subst end.
      * exists (VSeq (a :: rs1)), s', ps', (VSeq [VSeq (a :: rs1)]).
        split; [reflexivity|]. split; [|reflexivity]. apply repeated_iff. eauto 8.
      * exfalso. match goal with G : gives _ _ (PRepeated1 _) s2 ps2 _ |- _ =>
          apply repeated1_iff in G as [(m1 & pe1 & X & _)|(b & rs2 & s3 & ps3 & X & M3 & _)] end;
          [discriminate|].
        destruct (many_at_end _ _ _ _ _ _ _ M3 Q) as (X' & _). discriminate.
  - intros [(m & pe & -> & G)|(r & s' & ps' & w & -> & G & E)];
      apply repeated_iff in G as (rs & s2 & ps2 & X & M & (m1 & pe1 & G)); [discriminate|].
    injection X as -> -> ->.
    assert (Q : gives sd env (PRepeated1 p) s2 ps2 (Reject m1 pe1))
      by (apply repeated1_iff; left; eauto).
    destruct rs as [|a rs]; cbn in E; injection E as <-.
    + exists [], s2, ps2. repeat split; eauto. inversion M; subst. constructor.
    + exists [VSeq (a :: rs)], s2, ps2. split; [reflexivity|]. split; [|eauto].
      eapply many_more; [|constructor]. apply repeated1_iff. right. eauto 10.
Qed.

Variable sep : pexpr.

Lemma separators_after : forall s ps v s' ps',
  gives sd env (separated_after p sep) s ps (Accept v s' ps')
  <-> exists rs, v = VSeq rs /\ alternately sd env p sep s ps rs s' ps'
        /\ no_more sd env p sep s' ps'.
Proof.
  assert (L : forall rs s ps s' ps', many sd env (PLastOf [sep; p]) s ps rs s' ps' ->
     forall r s0 ps0, gives sd env p s0 ps0 (Accept r s ps) ->
     alternately sd env p sep s0 ps0 (r :: rs) s' ps').
  { induction rs as [|x rs IH]; intros s ps s' ps' M r s0 ps0 G; inversion M; subst.
    - apply alt_one. exact G.
    - match goal with H : gives _ _ (PLastOf _) _ _ _ |- _ => inversion H; subst end.
      match goal with I : in_turn _ _ _ _ _ (?l ++ [x]) _ _ |- _ =>
        apply pair_turn_iff in I as (a & b & t2 & qs2 & E & G1 & G2) end.
      match goal with E : ?l ++ [x] = [a; b] |- _ =>
        destruct l as [|y [|z l0]]; cbn in E; [discriminate| |destruct l0; discriminate];
        injection E as -> -> end.
      eapply alt_more; [exact G|exact G1|]. eapply IH; eauto. }
  assert (L' : forall rs s0 ps0 s' ps', alternately sd env p sep s0 ps0 rs s' ps' ->
     exists r rs' s ps, rs = r :: rs' /\ gives sd env p s0 ps0 (Accept r s ps)
       /\ many sd env (PLastOf [sep; p]) s ps rs' s' ps').
  { intros rs s0 ps0 s' ps' A. induction A as [s ps r s' ps' G|s ps r s1 ps1 x s2 ps2 rs s' ps' G1 G2 A IH].
    - do 4 eexists. split; [reflexivity|]. split; [exact G|constructor].
    - destruct IH as (r' & rs' & s3 & ps3 & -> & G & M).
      exists r, (r' :: rs'), s1, ps1. split; [reflexivity|]. split; [exact G1|].
      eapply many_more; [|exact M]. apply g_last_of with (rs := [x]). cbn [app].
      apply pair_turn_iff. eauto 8. }
  assert (N : forall s ps, (exists m pe, gives sd env (PLastOf [sep; p]) s ps (Reject m pe))
     <-> no_more sd env p sep s ps).
  { intros s ps. split.
    - intros (m & pe & H). inversion H; subst.
      match goal with B : breaks_off _ _ _ _ _ _ _ |- _ =>
        apply pair_breaks_iff in B as [Q|(a & s1 & ps1 & Q1 & Q2)] end; [left; eauto|right].
      do 5 eexists; eauto.
    - intros [(m & pe & G)|(x & s1 & ps1 & m & pe & G1 & G2)]; exists m, pe;
        apply g_last_of_fails; apply pair_breaks_iff; eauto 7. }
  intros s ps v s' ps'. unfold separated_after. rewrite transform_iff. split.
  - intros [(m & pe & X & _)|(r & s1 & ps1 & w & X & G & E)]; [discriminate|].
    injection X as -> -> ->. inversion G; subst.
    match goal with I : in_turn _ _ _ _ _ _ _ _ |- _ =>
      apply pair_turn_iff in I as (a & b & s2 & ps2 & -> & G1 & G2) end.
    apply repeated_iff in G2 as (rs & s3 & ps3 & X & M & R). injection X as -> -> ->.
    cbn in E. injection E as <-. exists (a :: rs). split; [reflexivity|].
    split; [eapply L; eauto|]. apply N. exact R.
  - intros (rs & -> & A & Q). destruct (L' _ _ _ _ _ A) as (r & rs' & s1 & ps1 & -> & G & M).
    right. exists (VSeq [r; VSeq rs']), s', ps', (VSeq (r :: rs')).
    split; [reflexivity|]. split; [|reflexivity]. apply g_sequence. apply pair_turn_iff.
    do 4 eexists. split; [reflexivity|]. split; [exact G|]. apply repeated_iff.
    exists rs', s', ps'. split; [reflexivity|]. split; [exact M|]. apply N. exact Q.
Qed.

Hypothesis one_sep : forall s ps o1 o2, gives sd env sep s ps o1 -> gives sd env sep s ps o2 -> o1 = o2.

Lemma separators_before : forall s ps v s' ps',
  gives sd env (separated_before p sep) s ps (Accept v s' ps')
  <-> exists rs, v = VSeq rs /\ alternately sd env p sep s ps rs s' ps'
        /\ exists m pe, gives sd env sep s' ps' (Reject m pe).
Proof.
  assert (L : forall rs s ps s1 ps1, many sd env (PFirstOf [p; sep]) s ps rs s1 ps1 ->
     forall r s' ps', gives sd env p s1 ps1 (Accept r s' ps') ->
     alternately sd env p sep s ps (rs ++ [r]) s' ps').
  { induction rs as [|x rs IH]; intros s ps s1 ps1 M r s' ps' G; inversion M; subst.
    - apply alt_one. exact G.
    - match goal with H : gives _ _ (PFirstOf _) _ _ _ |- _ => inversion H; subst end.
      match goal with I : in_turn _ _ _ _ _ (x :: _) _ _ |- _ =>
        apply pair_turn_iff in I as (a & b & t2 & qs2 & E & G1 & G2) end.
      injection E as -> ->. cbn [app]. eapply alt_more; [exact G1|exact G2|]. eapply IH; eauto. }
  assert (L' : forall rs s0 ps0 s' ps', alternately sd env p sep s0 ps0 rs s' ps' ->
     exists rs' r s ps, rs = rs' ++ [r] /\ many sd env (PFirstOf [p; sep]) s0 ps0 rs' s ps
       /\ gives sd env p s ps (Accept r s' ps')).
  { intros rs s0 ps0 s' ps' A. induction A as [s ps r s' ps' G|s ps r s1 ps1 x s2 ps2 rs s' ps' G1 G2 A IH].
    - exists [], r, s, ps. split; [reflexivity|]. split; [constructor|exact G].
    - destruct IH as (rs' & r' & s3 & ps3 & -> & M & G).
      exists (r :: rs'), r', s3, ps3. split; [reflexivity|]. split; [|exact G].
      eapply many_more; [|exact M]. apply g_first_of with (rs := [x]).
      apply pair_turn_iff. eauto 8. }
  intros s ps v s' ps'. unfold separated_before. rewrite transform_iff. split.
  - intros [(m & pe & X & _)|(r & s1 & ps1 & w & X & G & E)]; [discriminate|].
    injection X as -> -> ->. inversion G; subst.
    match goal with I : in_turn _ _ _ _ _ _ _ _ |- _ =>
      apply pair_turn_iff in I as (a & b & s2 & ps2 & -> & G1 & G2) end.
    apply repeated_iff in G1 as (rs & s3 & ps3 & X & M & (m & pe & R)). injection X as -> -> ->.
    cbn in E. injection E as <-. exists (rs ++ [b]). split; [reflexivity|].
    split; [eapply L; eauto|]. inversion R; subst.
    match goal with B : breaks_off _ _ _ _ _ _ _ |- _ =>
      apply pair_breaks_iff in B as [Q|(a & s4 & ps4 & Q1 & Q2)] end.
    + specialize (one _ _ _ _ G2 Q). discriminate.
    + specialize (one _ _ _ _ G2 Q1). injection one as <- <- <-. eauto.
  - intros (rs & -> & A & (m & pe & Q)).
    destruct (L' _ _ _ _ _ A) as (rs' & r & s1 & ps1 & -> & M & G).
    right. exists (VSeq [VSeq rs'; r]), s', ps', (VSeq (rs' ++ [r])).
    split; [reflexivity|]. split; [|reflexivity]. apply g_sequence. apply pair_turn_iff.
    do 4 eexists. split; [reflexivity|]. split; [|exact G]. apply repeated_iff.
    do 3 eexists. split; [reflexivity|]. split; [exact M|]. exists m, pe.
    apply g_first_of_fails. apply pair_breaks_iff. right. eauto.
Qed.
End One_result.
