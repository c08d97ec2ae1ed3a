(** Proofs about the errors of nested folds of which some group to the left and some to
    the right. *)

From Coq Require Import ZArith List Bool Lia.
From Verif Require Import Base Deep Spec SpecRules SpecChoice SpecPrecedence SpecGrouping
  Proofs_Pos Proofs_Laws Proofs_Rules Proofs_Layout Proofs_Choice Proofs_Precedence Proofs_Grouping.
Import ListNotations.
Open Scope Z_scope.

Lemma first_zero : forall l : list operation, (forall i, In i l -> (0 < level_of i)%nat)
  \/ exists l1 o y l2, l = l1 ++ (0%nat, o, y) :: l2 /\ forall i, In i l1 -> (0 < level_of i)%nat.
Proof.
  induction l as [|((k & o) & y) l IH]; [left; intros i []|].
  destruct k as [|k]; [right; exists [], o, y, l; split; [reflexivity|intros i []]|].
  destruct IH as [H|(l1 & o' & y' & l2 & -> & H)].
  - left. intros i [<-|I]; [unfold level_of; cbn; lia|auto].
  - right. exists ((S k, o, y) :: l1), o', y', l2. split; [reflexivity|].
    intros i [<-|I]; [unfold level_of; cbn; lia|auto].
Qed.

Lemma last_zero : forall l : list operation, (forall i, In i l -> (0 < level_of i)%nat)
  \/ exists l1 o y l2, l = l1 ++ (0%nat, o, y) :: l2 /\ forall i, In i l2 -> (0 < level_of i)%nat.
Proof.
  induction l as [|((k & o) & y) l IH]; [left; intros i []|].
  destruct IH as [H|(l1 & o' & y' & l2 & -> & H)].
  - destruct k as [|k]; [right; exists [], o, y, l; auto|].
    left. intros i [<-|I]; [unfold level_of; cbn; lia|auto].
  - right. exists ((k, o, y) :: l1), o', y', l2. auto.
Qed.

Lemma lfold_removelast : forall f rs v w, lfold f rs v = Some w -> exists u, lfold f (removelast rs) v = Some u.
Proof.
  intros f rs v w. destruct rs as [|r0 rs0] using rev_ind; [cbn; eauto|].
  rewrite removelast_last, lfold_last. destruct (lfold f rs0 v); [eauto|discriminate].
Qed.

Section In_a_program.
Variable sd : std.
Variable env : program.
Variable operand : pexpr.
Notation gives := (gives sd env).
Notation reads := (reads_operations sd env operand).
Notation mix := (grouped_folds operand).
Notation plain := (map (@snd grouping level)).
Notation missing := (operand_missing sd env operand).

(** ** Every error is a missing operand *)

Lemma missing_up : forall l0 ls s ps m pe, missing ls s ps m pe -> missing (l0 :: ls) s ps m pe.
Proof.
  intros l0 ls s ps m pe [H|(x & s1 & ps1 & l & s2 & ps2 & op & f & o & s3 & ps3 & X & R & I & O & H)];
    [left; exact H|].
  right. exists x, s1, ps1, (map up l), s2, ps2, op, f, o, s3, ps3.
  repeat split; auto; [apply reads_up, R|right; exact I].
Qed.

Lemma missing_after : forall ls x s ps s1 ps1 l s2 ps2 op f o s3 ps3 m pe,
  gives operand s ps (Accept x s1 ps1) -> reads ls s1 ps1 l s2 ps2 -> In (op, f) ls ->
  gives op s2 ps2 (Accept o s3 ps3) -> missing ls s3 ps3 m pe -> missing ls s ps m pe.
Proof.
  intros ls x s ps s1 ps1 l s2 ps2 op f o s3 ps3 m pe X R I O
    [H|(y & s4 & ps4 & l' & s5 & ps5 & op' & f' & o' & s6 & ps6 & Y & R' & I' & O' & H)]; right.
  - exists x, s1, ps1, l, s2, ps2, op, f, o, s3, ps3. auto.
  - destruct (In_nth_error _ _ I) as (k & N).
    exists x, s1, ps1, (l ++ (k, o, y) :: l'), s5, ps5, op', f', o', s6, ps6. repeat split; auto.
    apply reads_app. exists s2, ps2. split; [exact R|]. eapply ro_more; eauto.
Qed.

Lemma many_read : forall op ls l0 f rs s1 ps1 s2 ps2, l0 = (op, f) ->
  many sd env (PSequence [op; mix ls]) s1 ps1 rs s2 ps2 ->
  exists l, reads (l0 :: plain ls) s1 ps1 l s2 ps2.
Proof.
  intros op ls l0 f. induction rs as [|r rs IH]; intros s1 ps1 s2 ps2 E M; inversion M; subst.
  - exists []. constructor.
  - match goal with X : gives (PSequence _) _ _ _ |- _ => apply pair_accept in X as (o & b & sa & pa & A & B & _) end.
    match goal with X : many _ _ _ _ _ rs _ _ |- _ => destruct (IH _ _ _ _ eq_refl X) as (l2 & R2) end.
    apply mix_sound in B as (y & sb & pb & l & Y & R & _).
    exists ((0%nat, o, y) :: map up l ++ l2). eapply ro_more; [reflexivity|exact A|exact Y|].
    apply reads_app. do 2 eexists. split; [apply reads_up, R|exact R2].
Qed.

Lemma mix_reject_sound : forall ls, at_once sd env (plain ls) ->
  forall s ps m pe, gives (mix ls) s ps (Reject m pe) -> missing (plain ls) s ps m pe.
Proof.
  induction ls as [|(g & op & f) ls IH]; intros AO s ps m pe G; [left; exact G|].
  specialize (IH (fun o h I => AO o h (or_intror I))). cbn [grouped_folds] in G. destruct g; inversion G; subst; clear G.
  - apply missing_up, IH. assumption.
  - match goal with A : gives (mix ls) _ _ (Accept _ _ _), R : gives (PSequence _) _ _ (Reject _ _),
      M : many _ _ _ _ _ _ _ _, N : pe <> _ |- _ => rename A into A0; rename R into R0; rename M into M0; rename N into N0 end.
    apply mix_sound in A0 as (x & s2 & ps2 & l & X & R & _).
    destruct (many_read op ls (op, f) f _ _ _ _ _ eq_refl M0) as (l' & R').
    apply pair_reject in R0 as [R0|(o & s3 & ps3 & O & R0)].
    + destruct (AO op f (or_introl eq_refl) s' ps') as (_ & E). destruct (N0 (E _ _ R0)).
    + apply (missing_after (plain ((To_left_strictly, (op, f)) :: ls)) x s ps s2 ps2 (map up l ++ l') s' ps'
        op f o s3 ps3 m pe); auto.
      * apply reads_app. do 2 eexists. split; [apply reads_up, R|exact R'].
      * left. reflexivity.
      * apply missing_up, IH, R0.
  - apply missing_up, IH. assumption.
  - match goal with M : many _ _ _ _ _ ?rs _ _, R : gives (mix ls) _ _ (Reject m pe) |- _ =>
      rename M into M0; rename R into R0; clear - IH M0 R0; revert s ps M0; induction rs as [|r rs IHr] end;
      intros s ps M; inversion M; subst.
    + apply missing_up, IH, R0.
    + match goal with X : gives (PSequence _) _ _ _ |- _ => apply pair_accept in X as (a & o & sa & pa & A & B & _) end.
      apply mix_sound in A as (x & s3 & ps3 & l & X & R & _).
      eapply missing_after; [exact X|apply (reads_up _ _ _ (op, f)), R|left; reflexivity|exact B|].
      apply IHr. assumption.
Qed.

(** ** Every missing operand is an error *)

Lemma mix_reject_first : forall ls s ps m pe, gives operand s ps (Reject m pe) ->
  gives (mix ls) s ps (Reject m pe).
Proof.
  induction ls as [|(g & op & f) ls IH]; intros s ps m pe G; [exact G|]. cbn [grouped_folds]. destruct g.
  - apply g_foldl_swp_fails, IH, G.
  - apply g_foldl_ri_swp_fails, IH, G.
  - eapply g_foldr_swp_fails; [constructor|apply pair_reject; left; apply IH, G|apply IH, G].
Qed.

Definition fit (ls : list grouped_level) : Prop :=
  never_void_here sd env operand (plain ls) /\ different_operators sd env (plain ls)
  /\ decided sd env (plain ls) /\ at_once sd env (plain ls) /\ goes_ahead sd env operand
  /\ (forall op f, In (op, f) (plain ls) -> goes_ahead sd env op)
  /\ (forall g op f, In (g, (op, f)) ls -> g <> To_left)
  /\ (forall g op f, In (g, (op, f)) ls -> forall a b, exists v, f a b = Some v).

Lemma fit_tail : forall l0 ls, fit (l0 :: ls) -> fit ls.
Proof.
  intros l0 ls (NV & DO & DE & AO & GO & GL & NL & T). unfold fit. repeat apply conj.
  - exact (proj1 NV).
  - intros op f a b v I. exact (proj2 NV op f a b v (or_intror I)).
  - intros j k l1 l2 J N1 N2. exact (DO (S j) (S k) l1 l2 (proj1 (Nat.succ_lt_mono j k) J) N1 N2).
  - intros o h I. exact (DE o h (or_intror I)).
  - intros o h I. exact (AO o h (or_intror I)).
  - exact (proj1 GO).
  - exact (proj2 GO).
  - intros o h I. exact (GL o h (or_intror I)).
  - intros g o h I. exact (NL g o h (or_intror I)).
  - intros g o h I. exact (T g o h (or_intror I)).
Qed.

Lemma stops_at : forall g op f ls s ps, fit ((g, (op, f)) :: ls) -> takes sd env op s ps ->
  no_operator_follows sd env (plain ls) s ps.
Proof.
  intros g op f ls s0 p0 (_ & DO & DE & _) T o h I. destruct (DE o h (or_intror I) s0 p0) as (r & G).
  destruct (gives_settled _ _ _ _ _ _ G) as [(a & b & c & ->)|(m & pe & ->)]; [|eauto].
  destruct (In_nth_error _ _ I) as (k & N). exfalso.
  apply (DO 0%nat (S k) (op, f) (o, h) (Nat.lt_0_succ k) eq_refl N s0 p0 T). do 3 eexists. exact G.
Qed.

Lemma reads_bound : forall ls s ps l s' ps', reads ls s ps l s' ps' ->
  forall i, In i l -> (level_of i < length ls)%nat.
Proof.
  intros ls s ps l s' ps' R. induction R; intros i I; [destruct I|]. destruct I as [<-|I]; [|auto].
  unfold level_of. cbn. apply nth_error_Some. congruence.
Qed.

(** Operands and operators of the following levels are accepted. *)
Lemma inner_accept : forall l0 ls, fit (l0 :: ls) -> forall x s ps s1 ps1 l s' ps',
  gives operand s ps (Accept x s1 ps1) -> reads (plain (l0 :: ls)) s1 ps1 l s' ps' ->
  (forall i, In i l -> (0 < level_of i)%nat) -> no_operator_follows sd env (plain ls) s' ps' ->
  exists v, gives (mix ls) s ps (Accept v s' ps') /\ v <> VVoid.
Proof.
  intros l0 ls F x s ps s1 ps1 l s' ps' X R P S. apply fit_tail in F as (NV & DO & DE & AO & _ & _ & _ & T).
  cbn [map] in R. destruct (reads_down _ _ _ _ _ _ _ _ _ _ R P) as (m & -> & R').
  destruct (gvalue_total ls T m x) as (v & V).
  { intros i I. pose proof (reads_bound _ _ _ _ _ _ R' i I) as B. rewrite map_length in B. exact B. }
  exists v. split.
  - exact (mix_complete sd env operand ls NV DO DE AO x m v V s ps s1 ps1 s' ps' X R' S).
  - eapply gvalue_solid; [exact NV|exact (proj1 NV _ _ _ _ _ X)|exact V|exact (reads_solid _ _ _ _ NV _ _ _ _ _ R')].
Qed.

(** The elements of a fold to the left. *)
Lemma left_runs : forall g op f ls, fit ((g, (op, f)) :: ls) -> forall l x s ps s1 ps1 s' ps',
  gives operand s ps (Accept x s1 ps1) -> reads (plain ((g, (op, f)) :: ls)) s1 ps1 l s' ps' ->
  no_operator_follows sd env (plain ls) s' ps' ->
  exists v0 s2 ps2 rs v, gives (mix ls) s ps (Accept v0 s2 ps2) /\ v0 <> VVoid
    /\ many sd env (PSequence [op; mix ls]) s2 ps2 rs s' ps' /\ lfold f rs v0 = Some v.
Proof.
  intros g op f ls F l. remember (length l) as n eqn:E. revert l E.
  induction n as [n IH] using (well_founded_induction Wf_nat.lt_wf).
  intros l E x s ps s1 ps1 s' ps' X R S.
  destruct (last_zero l) as [P|(l1 & o & y & l2 & -> & P)].
  - destruct (inner_accept _ _ F _ _ _ _ _ _ _ _ X R P S) as (v & G & V).
    exists v, s', ps', [], v. repeat split; auto. constructor.
  - apply reads_app in R as (sa & pa & R1 & R2). inversion R2; subst.
    match goal with E : nth_error _ 0 = Some _ |- _ => cbn in E; injection E as <- <- end.
    match goal with Y : reads _ _ _ l2 _ _, G : gives op _ _ _, Y' : gives operand _ _ (Accept y _ _) |- _ =>
      rename Y into R3; rename G into GO; rename Y' into GY end.
    destruct (IH (length l1)) with (l := l1) (x := x) (s := s) (ps := ps) (s1 := s1) (ps1 := ps1) (s' := sa) (ps' := pa)
      as (v0 & sx & px & rs & v & G0 & V0 & M & L); auto.
    { rewrite app_length. cbn. lia. }
    { apply (stops_at g op f ls _ _ F). do 3 eexists. exact GO. }
    destruct (inner_accept _ _ F _ _ _ _ _ _ _ _ GY R3 P S) as (b & GB & _).
    destruct F as (_ & _ & _ & _ & _ & _ & _ & T).
    destruct (T g op f (or_introl eq_refl) v (VSeq [o; b])) as (w & W).
    exists v0, sx, px, (rs ++ [VSeq [o; b]]), w. repeat split; auto.
    + eapply many_last; [exact M|]. apply pair_accept. do 4 eexists. split; [exact GO|]. split; [exact GB|reflexivity].
    + rewrite lfold_last, L. exact W.
Qed.

Lemma mix_reject_complete : forall ls, fit ls -> forall s ps m pe,
  missing (plain ls) s ps m pe -> gives (mix ls) s ps (Reject m pe).
Proof.
  induction ls as [|(g & op & f) ls IH]; intros F s ps m pe
    [H|(x & s1 & ps1 & l & s2 & ps2 & op' & f' & o & s3 & ps3 & X & R & I & O & H)];
    [exact H|destruct I|apply mix_reject_first, H|].
  specialize (IH (fit_tail _ _ F)).
  assert (F' := F). destruct F' as (NV & DO & DE & AO & GO & GL & NL & T).
  destruct (mix_ahead sd env operand ls GO (fun o h I => GL o h (or_intror I))) as (_ & RA).
  (* the operand after an operator of a following level is missing *)
  assert (Z : forall y sy py sz pz l2, In (op', f') (plain ls) -> gives operand sy py (Accept y sz pz) ->
    reads (plain ((g, (op, f)) :: ls)) sz pz l2 s2 ps2 -> (forall i, In i l2 -> (0 < level_of i)%nat) ->
    gives (mix ls) sy py (Reject m pe)).
  { intros y sy py sz pz l2 J Y R2 P. apply IH. right. cbn [map] in R2.
    destruct (reads_down _ _ _ _ _ _ _ _ _ _ R2 P) as (l3 & -> & R3).
    exists y, sz, pz, l3, s2, ps2, op', f', o, s3, ps3. auto 8. }
  destruct g; [destruct (NL To_left op f (or_introl eq_refl) eq_refl)| |].
  - (* to the left *)
    assert (INC : forall y sy py l1 so po o1 si pi,
      gives operand s ps (Accept y sy py) -> reads (plain ((To_left_strictly, (op, f)) :: ls)) sy py l1 so po ->
      gives op so po (Accept o1 si pi) -> gives (mix ls) si pi (Reject m pe) ->
      gives (mix ((To_left_strictly, (op, f)) :: ls)) s ps (Reject m pe)).
    { intros y sy py l1 so po o1 si pi Y R1 GO1 GR.
      destruct (left_runs _ _ _ _ F _ _ _ _ _ _ _ _ Y R1) as (v0 & sx & px & rs & v & G0 & V0 & M & L).
      { apply (stops_at To_left_strictly op f ls _ _ F). do 3 eexists. exact GO1. }
      destruct (lfold_removelast _ _ _ _ L) as (u & U). cbn [grouped_folds].
      eapply g_foldl_ri_swp_incomplete; [exact G0|intros Q; destruct (V0 Q)|exact M| | |exact U].
      - apply pair_reject. right. do 3 eexists. split; [exact GO1|exact GR].
      - intros ->. apply (pos_lt_irrefl po). eapply pos_lt_le_trans; [|exact (RA _ _ _ _ GR)].
        exact (proj1 (AO op f (or_introl eq_refl) so po) _ _ _ GO1). }
    destruct I as [I|I].
    + cbn in I. injection I as <- <-. eapply INC; [exact X|exact R|exact O|apply mix_reject_first, H].
    + destruct (last_zero l) as [P|(l1 & o1 & y & l2 & -> & P)].
      * apply g_foldl_ri_swp_fails. exact (Z _ _ _ _ _ _ I X R P).
      * apply reads_app in R as (sa & pa & R1 & R2). inversion R2; subst.
        match goal with E : nth_error _ 0 = Some _ |- _ => cbn in E; injection E as <- <- end.
        eapply INC; [exact X|exact R1|eassumption|]. eapply Z; [exact I|eassumption|eassumption|exact P].
  - (* to the right *)
    assert (K : forall l x s ps s1 ps1, gives operand s ps (Accept x s1 ps1) ->
      reads (plain ((To_right, (op, f)) :: ls)) s1 ps1 l s2 ps2 ->
      exists rs s4 ps4 m' pe', many sd env (PSequence [mix ls; op]) s ps rs s4 ps4
        /\ gives (PSequence [mix ls; op]) s4 ps4 (Reject m' pe') /\ gives (mix ls) s4 ps4 (Reject m pe)).
    { clear x s ps s1 ps1 l X R. intros l. remember (length l) as n eqn:E. revert l E.
      induction n as [n IHn] using (well_founded_induction Wf_nat.lt_wf). intros l E x s ps s1 ps1 X R.
      destruct (first_zero l) as [P|(l1 & o1 & y & l2 & -> & P)].
      - destruct I as [I|I].
        + cbn in I. injection I as <- <-.
          destruct (inner_accept _ _ F _ _ _ _ _ _ _ _ X R P) as (v & G & _).
          { apply (stops_at To_right op f ls _ _ F). do 3 eexists. exact O. }
          assert (J := mix_reject_first ls _ _ _ _ H).
          exists [VSeq [v; o]], s3, ps3, m, pe. split; [|split; [apply pair_reject; left; exact J|exact J]].
          eapply many_more; [|constructor]. apply pair_accept. do 4 eexists. split; [exact G|]. split; [exact O|reflexivity].
        + assert (J := Z _ _ _ _ _ _ I X R P).
          exists [], s, ps, m, pe. split; [constructor|]. split; [apply pair_reject; left; exact J|exact J].
      - apply reads_app in R as (sa & pa & R1 & R2). inversion R2; subst.
        match goal with E : nth_error _ 0 = Some _ |- _ => cbn in E; injection E as <- <- end.
        match goal with Y : reads _ _ _ l2 _ _, G : gives op _ _ (Accept o1 _ _), Y' : gives operand _ _ (Accept y _ _) |- _ =>
          rename Y into R3; rename G into G1; rename Y' into GY end.
        destruct (inner_accept _ _ F _ _ _ _ _ _ _ _ X R1 P) as (v & G & _).
        { apply (stops_at To_right op f ls _ _ F). do 3 eexists. exact G1. }
        edestruct (IHn (length l2)) with (l := l2) as (rs & sx & px & m' & pe' & M & A & B);
          [rewrite app_length; cbn; lia|reflexivity|exact GY|exact R3|].
        exists (VSeq [v; o1] :: rs), sx, px, m', pe'. split; [|split; [exact A|exact B]].
        eapply many_more; [|exact M]. apply pair_accept. do 4 eexists. split; [exact G|]. split; [exact G1|reflexivity]. }
    destruct (K _ _ _ _ _ _ X R) as (rs & s4 & ps4 & m' & pe' & M & A & B).
    cbn [grouped_folds]. eapply g_foldr_swp_fails; eauto.
Qed.
End In_a_program.
