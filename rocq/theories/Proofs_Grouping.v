(** Proofs about nested folds of which some group to the left and some to the right. *)

From Coq Require Import ZArith List Bool Lia.
From Verif Require Import Base Deep Spec SpecRules SpecChoice SpecPrecedence SpecGrouping
  Proofs_Pos Proofs_Laws Proofs_Rules Proofs_Layout Proofs_Choice Proofs_Precedence.
Import ListNotations.
Open Scope Z_scope.

Lemma up_levels : forall k l, (forall i, In i (map up l) -> (S k <= level_of i)%nat) <->
  (forall i, In i l -> (k <= level_of i)%nat).
Proof.
  intros k l. split; intros H i I.
  - specialize (H (up i) (in_map up _ _ I)). unfold level_of, up in *. cbn in H. lia.
  - apply in_map_iff in I as (i' & <- & I). specialize (H i' I). unfold level_of, up in *. cbn. lia.
Qed.

Lemma up_positive : forall l i, In i (map up l) -> (0 < level_of i)%nat.
Proof. intros l i I. apply in_map_iff in I as (i' & <- & _). unfold level_of, up. cbn. lia. Qed.

Lemma gvalue_up : forall l0 ls x l v, grouped_value ls x l v -> grouped_value (l0 :: ls) x (map up l) v.
Proof.
  intros l0 ls x l v H.
  induction H as [x|x l1 k o y l2 g op f a b v N G H1 H2 A IA B IB F|x l1 k o y l2 op f a b v N H1 H2 A IA B IB F].
  - apply gv_operand.
  - rewrite map_app. cbn [map]. unfold up at 2. cbn [fst snd].
    eapply gv_left with (a := a) (b := b); eauto; apply up_levels; auto.
  - rewrite map_app. cbn [map]. unfold up at 2. cbn [fst snd].
    eapply gv_right with (a := a) (b := b); eauto; apply up_levels; auto.
Qed.

Lemma gvalue_down : forall l0 ls x m v, grouped_value (l0 :: ls) x m v ->
  forall l, m = map up l -> grouped_value ls x l v.
Proof.
  intros l0 ls x m v H.
  induction H as [x|x l1 k o y l2 g op f a b v N G H1 H2 A IA B IB F|x l1 k o y l2 op f a b v N H1 H2 A IA B IB F];
    intros l E.
  - destruct l; [apply gv_operand|discriminate E].
  - symmetry in E. apply map_eq_app in E as (m1 & m2 & -> & <- & E).
    destruct m2 as [|((k' & o') & y') m2]; [discriminate E|].
    cbn [map] in E. unfold up at 1 in E. cbn [fst snd] in E. injection E as <- <- <- <-.
    eapply gv_left with (a := a) (b := b); eauto; apply up_levels; auto.
  - symmetry in E. apply map_eq_app in E as (m1 & m2 & -> & <- & E).
    destruct m2 as [|((k' & o') & y') m2]; [discriminate E|].
    cbn [map] in E. unfold up at 1 in E. cbn [fst snd] in E. injection E as <- <- <- <-.
    eapply gv_right with (a := a) (b := b); eauto; apply up_levels; auto.
Qed.

Section In_a_program.
Variable sd : std.
Variable env : program.
Variable operand : pexpr.
Notation gives := (gives sd env).
Notation reads := (reads_operations sd env operand).
Notation mix := (grouped_folds operand).
Notation plain := (map (@snd grouping level)).

Lemma mix_left_accept : forall g op f ls s ps v s' ps', g <> To_right ->
  gives (mix ((g, (op, f)) :: ls)) s ps (Accept v s' ps') <->
  exists v0 s1 ps1 rs m pe, gives (mix ls) s ps (Accept v0 s1 ps1) /\ v0 <> VVoid
    /\ many sd env (PSequence [op; mix ls]) s1 ps1 rs s' ps'
    /\ gives (PSequence [op; mix ls]) s' ps' (Reject m pe) /\ (g = To_left_strictly -> pe = ps')
    /\ lfold f rs v0 = Some v.
Proof.
  intros g op f ls s ps v s' ps' NR. cbn [grouped_folds]. split.
  - intros G. destruct g; [| |destruct (NR eq_refl)]; inversion G; subst; do 6 eexists;
      (split; [eassumption|]); (split; [eassumption|]); (split; [eassumption|]);
      (split; [eassumption|]); (split; [|eassumption]).
    + intros Q. discriminate Q.
    + reflexivity.
  - intros (v0 & s1 & ps1 & rs & m & pe & A & V & M & R & Q & F). destruct g; [| |destruct (NR eq_refl)].
    + eapply g_foldl_swp; eauto.
    + rewrite (Q eq_refl) in R. eapply g_foldl_ri_swp; eauto.
Qed.

(** ** Going ahead *)

Lemma pair_ahead : forall p q, goes_ahead sd env p -> goes_ahead sd env q ->
  goes_ahead sd env (PSequence [p; q]).
Proof.
  intros p q (PA & PR) (QA & QR). split.
  - intros s ps r s' ps' G. apply pair_accept in G as (a & b & s1 & ps1 & A & B & _).
    eapply pos_le_trans; eauto.
  - intros s ps m pe G. apply pair_reject in G as [A|(a & s1 & ps1 & A & B)]; [eauto|].
    eapply pos_le_trans; eauto.
Qed.

Lemma many_ahead : forall p, goes_ahead sd env p -> forall rs s ps s' ps',
  many sd env p s ps rs s' ps' -> pos_le ps ps'.
Proof.
  intros p (PA & _). induction rs; intros s ps s' ps' M; inversion M; subst; [apply pos_le_refl|].
  eapply pos_le_trans; eauto.
Qed.

Lemma mix_ahead : forall ls, goes_ahead sd env operand ->
  (forall op f, In (op, f) (plain ls) -> goes_ahead sd env op) -> goes_ahead sd env (mix ls).
Proof.
  induction ls as [|(g & op & f) ls IH]; intros GO GL; [exact GO|].
  specialize (IH GO (fun o h I => GL o h (or_intror I))).
  pose proof (GL op f (or_introl eq_refl)) as GP.
  pose proof (pair_ahead op (mix ls) GP IH) as P1. pose proof (pair_ahead (mix ls) op IH GP) as P2.
  pose proof (many_ahead _ P1) as M1. pose proof (many_ahead _ P2) as M2.
  destruct IH as (NA & NR), P1 as (A1 & R1), P2 as (A2 & R2).
  split.
  - intros s ps r s' ps' G. cbn [grouped_folds] in G. destruct g; inversion G; subst.
    + eapply pos_le_trans; [eapply NA|eapply M1]; eassumption.
    + eapply pos_le_trans; [eapply NA|eapply M1]; eassumption.
    + eapply pos_le_trans; [eapply M2|eapply NA]; eassumption.
  - intros s ps m pe G. cbn [grouped_folds] in G. destruct g; inversion G; subst; eauto.
    + eapply pos_le_trans; [eapply NA; eassumption|].
      eapply pos_le_trans; [eapply M1; eassumption|]. eapply R1; eassumption.
    + eapply pos_le_trans; [eapply M2|eapply NR]; eassumption.
Qed.

(** ** What is accepted has the value *)

Lemma mix_sound : forall ls s ps v s' ps', gives (mix ls) s ps (Accept v s' ps') ->
  exists x s1 ps1 l, gives operand s ps (Accept x s1 ps1) /\ reads (plain ls) s1 ps1 l s' ps'
    /\ grouped_value ls x l v.
Proof.
  induction ls as [|(g & op & f) ls IH]; intros s ps v s' ps' G.
  - exists v, s', ps', []. repeat split; [exact G|constructor|constructor].
  - assert (D : g = To_right \/ g <> To_right) by (destruct g; [right|right|left]; congruence).
    destruct D as [->|NR].
    + (* to the right *)
      cbn [grouped_folds] in G. inversion G; subst. clear G.
      match goal with M : many _ _ _ _ _ ?rs _ _, A : gives (mix ls) _ _ _, L : rfold f ?rs ?w = Some v |- _ =>
        rename M into M0; rename A into A0; rename L into L0 end.
      clear - IH M0 A0 L0. revert s ps M0 v L0.
      induction rs as [|r rs IHr]; intros s ps M v L; inversion M; subst.
      * cbn [rfold] in L. injection L as <-.
        destruct (IH _ _ _ _ _ A0) as (x & s2 & ps2 & l & X & R & V).
        exists x, s2, ps2, (map up l). split; [exact X|]. split; [apply reads_up, R|apply gvalue_up, V].
      * match goal with X : gives (PSequence _) _ _ _ |- _ =>
          apply pair_accept in X as (a & o & sa & pa & A & B & ->) end.
        cbn [rfold] in L. destruct (rfold f rs v0) as [b|] eqn:F; [|discriminate L].
        match goal with X : many _ _ _ _ _ rs _ _ |- _ =>
          destruct (IHr _ _ X b eq_refl) as (y & s4 & ps4 & l2 & Y & R2 & V2) end.
        destruct (IH _ _ _ _ _ A) as (x & s3 & ps3 & l1 & X & R1 & V1).
        exists x, s3, ps3, (map up l1 ++ (0%nat, o, y) :: l2). split; [exact X|]. split.
        -- apply reads_app. do 2 eexists. split; [apply reads_up, R1|].
           eapply ro_more; [reflexivity|exact B|exact Y|exact R2].
        -- apply (gv_right _ x (map up l1) 0 o y l2 op f a b v); auto.
           ++ apply up_positive.
           ++ intros; lia.
           ++ apply gvalue_up, V1.
    + apply (mix_left_accept g op f ls s ps v s' ps' NR) in G
        as (v0 & s1 & ps1 & rs & m & pe & A & _ & M & _ & _ & L).
      destruct (IH _ _ _ _ _ A) as (x & s2 & ps2 & l & X & RL & V).
      assert (K : forall rs s1 ps1 s' ps', many sd env (PSequence [op; mix ls]) s1 ps1 rs s' ps' ->
        forall l0 v0 v, grouped_value ((g, (op, f)) :: ls) x l0 v0 -> lfold f rs v0 = Some v ->
        exists l, reads (plain ((g, (op, f)) :: ls)) s1 ps1 l s' ps'
          /\ grouped_value ((g, (op, f)) :: ls) x (l0 ++ l) v).
      { clear - IH NR. induction rs as [|r rs IHr]; intros s1 ps1 s' ps' M l0 v0 v V L; inversion M; subst.
        - cbn [lfold] in L. injection L as <-. exists []. rewrite app_nil_r. split; auto. constructor.
        - match goal with X : gives (PSequence _) _ _ _ |- _ =>
            apply pair_accept in X as (o & b & sa & pa & A & B & ->) end.
          cbn [lfold] in L. destruct (f v0 (VSeq [o; b])) as [w|] eqn:F; [|discriminate L].
          destruct (IH _ _ _ _ _ B) as (y & sb & pb & l & Y & RL & VB).
          match goal with X : many _ _ _ _ _ rs _ _ |- _ =>
            destruct (IHr _ _ _ _ X (l0 ++ (0%nat, o, y) :: map up l) w v) as (l' & R' & V') end; auto.
          + apply (gv_left ((g, (op, f)) :: ls) x l0 0 o y (map up l) g op f v0 b w); auto;
              [intros; lia|apply up_positive|apply gvalue_up, VB].
          + exists ((0%nat, o, y) :: map up l ++ l'). split.
            * eapply ro_more; [reflexivity|exact A|exact Y|].
              apply reads_app. do 2 eexists. split; [apply reads_up, RL|exact R'].
            * rewrite <- app_assoc in V'. exact V'. }
      destruct (K _ _ _ _ _ M (map up l) v0 v (gvalue_up _ _ _ _ _ V) L) as (l' & R' & V').
      exists x, s2, ps2, (map up l ++ l'). split; [exact X|]. split; [|exact V'].
      apply reads_app. do 2 eexists. split; [apply reads_up, RL|exact R'].
Qed.

(** ** Where strict folds stop *)

Lemma many_end : forall p q rs s ps s' ps', many sd env (PSequence [p; q]) s ps rs s' ps' ->
  rs = [] /\ s' = s /\ ps' = ps
  \/ exists b s1 ps1, gives q s1 ps1 (Accept b s' ps').
Proof.
  intros p q. induction rs as [|r rs IH]; intros s ps s' ps' M; inversion M; subst; [auto|].
  right. match goal with X : many _ _ _ _ _ rs _ _ |- _ =>
    destruct (IH _ _ _ _ X) as [(-> & -> & ->)|E] end; [|exact E].
  match goal with X : gives (PSequence _) _ _ _ |- _ => apply pair_accept in X as (a & b & sa & pa & A & B & _) end.
  eauto.
Qed.

Definition one_result (e : pexpr) : Prop :=
  forall s ps o1 o2, gives e s ps o1 -> gives e s ps o2 -> o1 = o2.

Fixpoint one_results (ls : list grouped_level) : Prop :=
  match ls with [] => True | _ :: ls' => one_result (mix ls') /\ one_results ls' end.

Lemma mix_stops : forall ls, one_results ls -> at_once sd env (plain ls) -> goes_ahead sd env operand ->
  (forall op f, In (op, f) (plain ls) -> goes_ahead sd env op) ->
  forall s ps v s' ps', gives (mix ls) s ps (Accept v s' ps') ->
  forall g op f, In (g, (op, f)) ls -> g <> To_left -> exists m pe, gives op s' ps' (Reject m pe).
Proof.
  induction ls as [|(g & op & f) ls IH]; intros OR AO GO GL s ps v s' ps' G g' op' f' I NL; [destruct I|].
  destruct OR as (O1 & OR).
  specialize (IH OR (fun o h I => AO o h (or_intror I)) GO (fun o h I => GL o h (or_intror I))).
  assert (D : g = To_right \/ g <> To_right) by (destruct g; [right|right|left]; congruence).
  destruct D as [->|NR].
  - cbn [grouped_folds] in G. inversion G; subst. clear G.
    match goal with A : gives (mix ls) _ _ (Accept _ _ _) |- _ => rename A into A0 end.
    destruct I as [I|I]; [injection I as <- <- <-|exact (IH _ _ _ _ _ A0 _ _ _ I NL)].
    match goal with R : gives (PSequence _) _ _ (Reject _ _) |- _ =>
      apply pair_reject in R as [R0|(a & s2 & ps2 & A & R0)] end.
    + pose proof (O1 _ _ _ _ A0 R0) as Q. discriminate Q.
    + pose proof (O1 _ _ _ _ A0 A) as Q. injection Q as <- <- <-. eauto.
  - apply (mix_left_accept g op f ls s ps v s' ps' NR) in G
      as (v0 & s1 & ps1 & rs & m & pe & A & _ & M & R & Q & L).
    destruct I as [I|I].
    + injection I as <- <- <-.
      assert (T : g = To_left_strictly) by (destruct g; congruence). specialize (Q T). subst pe.
      apply pair_reject in R as [R|(a & s2 & ps2 & A1 & B1)]; [eauto|]. exfalso.
      destruct (AO op f (or_introl eq_refl) s' ps') as (F & _). specialize (F _ _ _ A1).
      destruct (mix_ahead ls GO (fun o h I => GL o h (or_intror I))) as (_ & X).
      apply X in B1. apply (pos_lt_irrefl ps'). eapply pos_lt_le_trans; eauto.
    + destruct (many_end _ _ _ _ _ _ _ M) as [(_ & -> & ->)|(b & s2 & ps2 & B)];
        [exact (IH _ _ _ _ _ A _ _ _ I NL)|exact (IH _ _ _ _ _ B _ _ _ I NL)].
Qed.

(** ** What has a value is accepted *)

Lemma gvalue_solid : forall ls x l v, never_void_here sd env operand (plain ls) -> x <> VVoid ->
  grouped_value ls x l v -> (forall i, In i l -> snd i <> VVoid) -> v <> VVoid.
Proof.
  intros ls x l v (_ & N) X H.
  induction H as [x|x l1 k o y l2 g op f a b v E G H1 H2 A IA B IB F|x l1 k o y l2 op f a b v E H1 H2 A IA B IB F];
    intros S; [exact X| |].
  - apply nth_error_In, (in_map snd) in E. refine (N op f a _ v E _ F).
    apply IA; [exact X|]. intros i I. apply S, in_app_iff. auto.
  - apply nth_error_In, (in_map snd) in E. refine (N op f b _ v E _ F).
    apply IB.
    + apply (S (k, o, y)), in_app_iff. right. left. reflexivity.
    + intros i I. apply S, in_app_iff. right. right. exact I.
Qed.

Lemma reads_solid : forall ls, never_void_here sd env operand ls -> forall s ps l s' ps',
  reads ls s ps l s' ps' -> forall i, In i l -> snd i <> VVoid.
Proof.
  intros ls (N & _) s ps l s' ps' R. induction R; intros i I; [destruct I|].
  destruct I as [<-|I]; [|auto]. cbn. eapply N; eassumption.
Qed.

Lemma mix_complete : forall ls, never_void_here sd env operand (plain ls) ->
  different_operators sd env (plain ls) -> decided sd env (plain ls) -> at_once sd env (plain ls) ->
  forall x l v, grouped_value ls x l v -> forall s ps s1 ps1 s' ps',
  gives operand s ps (Accept x s1 ps1) -> reads (plain ls) s1 ps1 l s' ps' ->
  no_operator_follows sd env (plain ls) s' ps' ->
  gives (mix ls) s ps (Accept v s' ps').
Proof.
  induction ls as [|(g & op & f) ls IH]; intros NV DO DE AO x l v V s ps s1 ps1 s' ps' X R S.
  - inversion R; subst.
    + inversion V; subst; [exact X| |];
        match goal with E : _ ++ _ :: _ = [] |- _ => destruct (app_cons_not_nil _ _ _ (eq_sym E)) end.
    + match goal with E : nth_error _ ?k = Some _ |- _ => destruct k; discriminate E end.
  - assert (NV' : never_void_here sd env operand (plain ls)).
    { destruct NV as (A & B). split; [exact A|]. intros o h a b w I. exact (B o h a b w (or_intror I)). }
    assert (IH' : forall x l v, grouped_value ls x l v -> forall s ps s1 ps1 s' ps',
      gives operand s ps (Accept x s1 ps1) -> reads (plain ls) s1 ps1 l s' ps' ->
      no_operator_follows sd env (plain ls) s' ps' -> gives (mix ls) s ps (Accept v s' ps')).
    { apply IH; auto.
      - intros j k l1 l2 J N1 N2. exact (DO (Datatypes.S j) (Datatypes.S k) l1 l2 (proj1 (Nat.succ_lt_mono j k) J) N1 N2).
      - intros o h I. exact (DE o h (or_intror I)).
      - intros o h I. exact (AO o h (or_intror I)). }
    clear IH.
    assert (ST : forall s ps, takes sd env op s ps -> no_operator_follows sd env (plain ls) s ps).
    { intros s0 p0 T o h I. destruct (DE o h (or_intror I) s0 p0) as (r & G).
      destruct (gives_settled _ _ _ _ _ _ G) as [(a & b & c & ->)|(m & pe & ->)]; [|eauto].
      destruct (In_nth_error _ _ I) as (k & N). exfalso.
      apply (DO 0%nat (Datatypes.S k) (op, f) (o, h) (Nat.lt_0_succ k) eq_refl N s0 p0 T).
      do 3 eexists. exact G. }
    assert (S' : no_operator_follows sd env (plain ls) s' ps') by (intros o h I; apply (S o h (or_intror I))).
    assert (OP : exists m pe, gives op s' ps' (Reject m pe)) by (apply (S op f); left; reflexivity).
    (* no operator of this level *)
    assert (Z : forall x l v, grouped_value ((g, (op, f)) :: ls) x l v ->
      (forall i, In i l -> (0 < level_of i)%nat) -> forall s ps s1 ps1 s' ps',
      gives operand s ps (Accept x s1 ps1) -> reads (plain ((g, (op, f)) :: ls)) s1 ps1 l s' ps' ->
      no_operator_follows sd env (plain ls) s' ps' -> gives (mix ls) s ps (Accept v s' ps')).
    { intros x0 l0 v1 V0 P s0 p0 s2 p2 s3 p3 X0 R0 S0.
      destruct (reads_down _ _ _ _ _ _ _ _ _ _ R0 P) as (m & -> & R4).
      eapply IH'; [eapply gvalue_down; [exact V0|reflexivity]|exact X0|exact R4|exact S0]. }
    assert (D : g = To_right \/ g <> To_right) by (destruct g; [right|right|left]; congruence).
    destruct D as [->|NR].
    + assert (K : forall x l v, grouped_value ((To_right, (op, f)) :: ls) x l v -> forall s ps s1 ps1,
        gives operand s ps (Accept x s1 ps1) ->
        reads (plain ((To_right, (op, f)) :: ls)) s1 ps1 l s' ps' ->
        exists rs s2 ps2 v0, many sd env (PSequence [mix ls; op]) s ps rs s2 ps2
          /\ gives (mix ls) s2 ps2 (Accept v0 s' ps') /\ rfold f rs v0 = Some v).
      { clear x l v V s ps s1 ps1 X R S. intros x l v V. assert (V' := V).
        induction V as [x|x l1 k o y l2 g0 op' f' a b v N G H1 H2 A IA B IB F|x l1 k o y l2 op' f' a b v N H1 H2 A IA B IB F];
          intros s ps s1 ps1 X R.
        - inversion R; subst. exists [], s, ps, x. split; [constructor|]. split; [|reflexivity].
          eapply IH'; [apply gv_operand|exact X|constructor|exact S'].
        - destruct k as [|k]; [cbn in N; injection N as <- <- <-; destruct (G eq_refl)|].
          exists [], s, ps, v. split; [constructor|]. split; [|reflexivity].
          eapply Z; [exact V'| |exact X|exact R|exact S'].
          intros i I. apply in_app_iff in I as [I|[<-|I]].
          + specialize (H1 i I). lia.
          + unfold level_of. cbn. lia.
          + specialize (H2 i I). lia.
        - destruct k as [|k].
          + cbn in N. injection N as <- <-.
            apply reads_app in R as (sa & pa & R1 & R2). inversion R2; subst.
            match goal with E : nth_error _ 0 = Some _ |- _ => cbn in E; injection E as <- <- end.
            match goal with Y : reads _ _ _ l2 _ _, G : gives op _ _ _, Y' : gives operand _ _ (Accept y _ _) |- _ =>
              rename Y into R3; rename G into GO; rename Y' into GY end.
            destruct (IB B _ _ _ _ GY R3) as (rs & sx & px & v0 & M & G0 & L).
            exists (VSeq [a; o] :: rs), sx, px, v0. split; [|split; [exact G0|]].
            * eapply many_more; [|exact M]. apply pair_accept. do 4 eexists.
              split; [|split; [exact GO|reflexivity]].
              eapply Z; [exact A|exact H1|exact X|exact R1|]. apply ST. do 3 eexists. exact GO.
            * cbn [rfold]. rewrite L. exact F.
          + exists [], s, ps, v. split; [constructor|]. split; [|reflexivity].
            eapply Z; [exact V'| |exact X|exact R|exact S'].
            intros i I. apply in_app_iff in I as [I|[<-|I]].
            * specialize (H1 i I). lia.
            * unfold level_of. cbn. lia.
            * specialize (H2 i I). lia. }
      destruct (K _ _ _ V _ _ _ _ X R) as (rs & s2 & ps2 & v0 & M & G0 & L).
      destruct OP as (m & pe & O). cbn [grouped_folds]. eapply g_foldr_swp; [exact M| |exact G0|exact L].
      apply pair_reject. right. do 3 eexists. split; [exact G0|exact O].
    + assert (K : forall x l v, grouped_value ((g, (op, f)) :: ls) x l v -> forall s ps s1 ps1 s' ps',
        gives operand s ps (Accept x s1 ps1) -> reads (plain ((g, (op, f)) :: ls)) s1 ps1 l s' ps' ->
        no_operator_follows sd env (plain ls) s' ps' ->
        exists v0 s2 ps2 rs, gives (mix ls) s ps (Accept v0 s2 ps2) /\ v0 <> VVoid
          /\ many sd env (PSequence [op; mix ls]) s2 ps2 rs s' ps' /\ lfold f rs v0 = Some v).
      { clear x l v V s ps s1 ps1 s' ps' X R S S' OP.
        intros x l v V. assert (V' := V).
        induction V as [x|x l1 k o y l2 g0 op' f' a b v N G H1 H2 A IA B IB F|x l1 k o y l2 op' f' a b v N H1 H2 A IA B IB F];
          intros s ps s1 ps1 s' ps' X R S.
        - inversion R; subst. exists x, s', ps', []. repeat split.
          + eapply IH'; [apply gv_operand|exact X|constructor|exact S].
          + exact (proj1 NV _ _ _ _ _ X).
          + constructor.
        - assert (XV := proj1 NV _ _ _ _ _ X). destruct k as [|k].
          + cbn in N. injection N as <- <- <-.
            apply reads_app in R as (sa & pa & R1 & R2). inversion R2; subst.
            match goal with E : nth_error _ 0 = Some _ |- _ => cbn in E; injection E as <- <- end.
            match goal with Y : reads _ _ _ l2 _ _, G : gives op _ _ _, Y' : gives operand _ _ (Accept y _ _) |- _ =>
              rename Y into R3; rename G into GO; rename Y' into GY end.
            destruct (IA A _ _ _ _ _ _ X R1) as (v0 & sx & px & rs & G0 & VV & M & L).
            { apply ST. do 3 eexists. exact GO. }
            exists v0, sx, px, (rs ++ [VSeq [o; b]]). repeat split; auto.
            * eapply many_last; [exact M|]. apply pair_accept. do 4 eexists. split; [exact GO|].
              split; [|reflexivity]. eapply Z; [exact B|exact H2|exact GY|exact R3|exact S].
            * rewrite lfold_last, L. exact F.
          + assert (P : forall i, In i (l1 ++ (Datatypes.S k, o, y) :: l2) -> (0 < level_of i)%nat).
            { intros i I. apply in_app_iff in I as [I|[<-|I]].
              - specialize (H1 i I). lia.
              - unfold level_of. cbn. lia.
              - specialize (H2 i I). lia. }
            exists v, s', ps', []. repeat split.
            * eapply Z; [exact V'|exact P|exact X|exact R|exact S].
            * eapply gvalue_solid; [exact NV|exact XV|exact V'|exact (reads_solid _ NV _ _ _ _ _ R)].
            * constructor.
        - assert (XV := proj1 NV _ _ _ _ _ X). destruct k as [|k].
          + cbn in N. injection N as -> <- <-. destruct (NR eq_refl).
          + assert (P : forall i, In i (l1 ++ (Datatypes.S k, o, y) :: l2) -> (0 < level_of i)%nat).
            { intros i I. apply in_app_iff in I as [I|[<-|I]].
              - specialize (H1 i I). lia.
              - unfold level_of. cbn. lia.
              - specialize (H2 i I). lia. }
            exists v, s', ps', []. repeat split.
            * eapply Z; [exact V'|exact P|exact X|exact R|exact S].
            * eapply gvalue_solid; [exact NV|exact XV|exact V'|exact (reads_solid _ NV _ _ _ _ _ R)].
            * constructor. }
      destruct (K _ _ _ V _ _ _ _ _ _ X R S') as (v0 & s2 & ps2 & rs & G0 & VV & M & L).
      destruct OP as (m & pe & O).
      apply (mix_left_accept g op f ls s ps v s' ps' NR). exists v0, s2, ps2, rs, m, pe. repeat split; auto.
      * apply pair_reject. left. exact O.
      * intros _. exact (proj2 (AO op f (or_introl eq_refl) s' ps') _ _ O).
Qed.
End In_a_program.

(** ** Values of operations *)

(** The operator applied last. *)
Lemma weakest : forall ls l, l <> [] -> (forall i, In i l -> (level_of i < length ls)%nat) ->
  exists l1 i l2 g (op : pexpr) (f : mf2), l = l1 ++ i :: l2 /\ nth_error ls (level_of i) = Some (g, (op, f))
    /\ (g <> To_right /\ (forall j, In j l1 -> (level_of i <= level_of j)%nat)
          /\ (forall j, In j l2 -> (level_of i < level_of j)%nat)
        \/ g = To_right /\ (forall j, In j l1 -> (level_of i < level_of j)%nat)
          /\ (forall j, In j l2 -> (level_of i <= level_of j)%nat)).
Proof.
  intros ls. induction l as [|i0 l IH]; intros NE B; [destruct (NE eq_refl)|].
  assert (B0 := B i0 (or_introl eq_refl)).
  destruct (nth_error ls (level_of i0)) as [(g0 & op0 & f0)|] eqn:N0; [|apply nth_error_None in N0; lia].
  assert (D : g0 = To_right \/ g0 <> To_right) by (destruct g0; [right|right|left]; congruence).
  destruct l as [|i1 l].
  - exists [], i0, [], g0, op0, f0. repeat split; auto.
    destruct D as [->|D]; [right|left]; repeat split; auto; intros j [].
  - destruct IH as (l1 & i & l2 & g & op & f & E & N & C); [discriminate|intros j J; apply B; right; exact J|].
    rewrite E in *. clear E.
    destruct (lt_eq_lt_dec (level_of i0) (level_of i)) as [[L|L]|L].
    + exists [], i0, (l1 ++ i :: l2), g0, op0, f0. repeat split; auto.
      assert (A : forall j, In j (l1 ++ i :: l2) -> (level_of i0 < level_of j)%nat).
      { intros j J. apply in_app_iff in J as [J|[<-|J]]; [| exact L |];
          (destruct C as [(_ & C1 & C2)|(_ & C1 & C2)]; [try specialize (C1 j J); try specialize (C2 j J)|
             try specialize (C1 j J); try specialize (C2 j J)]; lia). }
      destruct D as [->|D]; [right|left]; (split; [auto|]); (split; [intros j []|]); intros j J; specialize (A j J); lia.
    + rewrite <- L in N. rewrite N0 in N. injection N as <- <- <-.
      destruct C as [(G & C1 & C2)|(G & C1 & C2)].
      * exists (i0 :: l1), i, l2, g0, op0, f0. rewrite <- L, N0. repeat split; auto.
        left. rewrite L. repeat split; auto. intros j [<-|J]; [lia|auto].
      * exists [], i0, (l1 ++ i :: l2), g0, op0, f0. repeat split; auto. right. split; [exact G|].
        split; [intros j []|]. intros j J. apply in_app_iff in J as [J|[<-|J]].
        -- specialize (C1 j J). lia.
        -- lia.
        -- specialize (C2 j J). lia.
    + exists (i0 :: l1), i, l2, g, op, f. repeat split; auto.
      destruct C as [(G & C1 & C2)|(G & C1 & C2)]; [left|right]; repeat split; auto;
        intros j [<-|J]; auto; lia.
Qed.

Lemma gvalue_total : forall ls, (forall g op f, In (g, (op, f)) ls -> forall a b, exists v, f a b = Some v) ->
  forall l x, (forall i, In i l -> (level_of i < length ls)%nat) -> exists v, grouped_value ls x l v.
Proof.
  intros ls T l. remember (length l) as n eqn:E. revert l E.
  induction n as [n IH] using (well_founded_induction Wf_nat.lt_wf). intros l E x B.
  destruct l as [|i0 l0]; [exists x; constructor|].
  destruct (weakest ls (i0 :: l0)) as (l1 & ((k & o) & y) & l2 & g & op & f & Q & N & C); [discriminate|exact B|].
  rewrite Q in *. rewrite app_length in E. cbn [length] in E.
  destruct (IH (length l1)) with (l := l1) (x := x) as (a & A); [lia|reflexivity| |].
  { intros j J. apply B, in_app_iff. auto. }
  destruct (IH (length l2)) with (l := l2) (x := y) as (b & V); [lia|reflexivity| |].
  { intros j J. apply B, in_app_iff. right. right. exact J. }
  destruct C as [(G & C1 & C2)|(-> & C1 & C2)].
  - destruct (T g op f (nth_error_In _ _ N) a (VSeq [o; b])) as (v & F).
    exists v. eapply gv_left; eauto.
  - destruct (T To_right op f (nth_error_In _ _ N) b (VSeq [a; o])) as (v & F).
    exists v. eapply gv_right; eauto.
Qed.

Lemma gvalue_unique : forall ls x l v, grouped_value ls x l v -> forall w, grouped_value ls x l w -> v = w.
Proof.
  intros ls x l v H.
  induction H as [x|x l1 k o y l2 g op f a b v N G H1 H2 A IA B IB F|x l1 k o y l2 op f a b v N H1 H2 A IA B IB F];
    intros w W.
  - inversion W; subst; [reflexivity| |];
      match goal with E : _ ++ _ :: _ = [] |- _ => destruct (app_cons_not_nil _ _ _ (eq_sym E)) end.
  - inversion W as [|x' m1 k' o' y' m2 g' op' f' a' b' v' N' G' G1 G2 A' B' F' E1 E
                    |x' m1 k' o' y' m2 op' f' a' b' v' N' G1 G2 A' B' F' E1 E]; subst.
    + match goal with E : [] = _ ++ _ :: _ |- _ => destruct (app_cons_not_nil _ _ _ E) end.
    + apply app_split_cases in E as [(-> & Q & ->)|[(I & J)|(I & J)]].
      * injection Q as -> -> ->. rewrite N in N'. injection N' as <- <- <-.
        rewrite (IA _ A'), (IB _ B') in F. congruence.
      * specialize (H1 _ I). specialize (G2 _ J). unfold level_of in *. cbn in *. lia.
      * specialize (G1 _ I). specialize (H2 _ J). unfold level_of in *. cbn in *. lia.
    + assert (K : k' <> k) by (intros ->; rewrite N in N'; injection N' as -> _ _; apply G; reflexivity).
      apply app_split_cases in E as [(-> & Q & ->)|[(I & J)|(I & J)]].
      * injection Q as -> _ _. destruct (K eq_refl).
      * specialize (H1 _ I). specialize (G2 _ J). unfold level_of in *. cbn in *. lia.
      * specialize (G1 _ I). specialize (H2 _ J). unfold level_of in *. cbn in *. lia.
  - inversion W as [|x' m1 k' o' y' m2 g' op' f' a' b' v' N' G' G1 G2 A' B' F' E1 E
                    |x' m1 k' o' y' m2 op' f' a' b' v' N' G1 G2 A' B' F' E1 E]; subst.
    + match goal with E : [] = _ ++ _ :: _ |- _ => destruct (app_cons_not_nil _ _ _ E) end.
    + assert (K : k' <> k) by (intros ->; rewrite N in N'; injection N' as <- _ _; apply G'; reflexivity).
      apply app_split_cases in E as [(-> & Q & ->)|[(I & J)|(I & J)]].
      * injection Q as -> _ _. destruct (K eq_refl).
      * specialize (H1 _ I). specialize (G2 _ J). unfold level_of in *. cbn in *. lia.
      * specialize (G1 _ I). specialize (H2 _ J). unfold level_of in *. cbn in *. lia.
    + apply app_split_cases in E as [(-> & Q & ->)|[(I & J)|(I & J)]].
      * injection Q as -> -> ->. rewrite N in N'. injection N' as <- <-.
        rewrite (IA _ A'), (IB _ B') in F. congruence.
      * specialize (H1 _ I). specialize (G2 _ J). unfold level_of in *. cbn in *. lia.
      * specialize (G1 _ I). specialize (H2 _ J). unfold level_of in *. cbn in *. lia.
Qed.

(** Levels that all group to the left. *)
Lemma gvalue_left : forall ls x l v,
  grouped_value (map (fun l => (To_left, l)) ls) x l v <-> value_of ls x l v.
Proof.
  intros ls x l v. split; intros H.
  - induction H as [x|x l1 k o y l2 g op f a b v N G H1 H2 A IA B IB F|x l1 k o y l2 op f a b v N H1 H2 A IA B IB F].
    + apply value_operand.
    + rewrite nth_error_map in N. destruct (nth_error ls k) as [(op' & f')|] eqn:E; [|discriminate N].
      cbn in N. injection N as <- <- <-. eapply value_operator; eauto.
    + rewrite nth_error_map in N. destruct (nth_error ls k) as [(op' & f')|] eqn:E; discriminate N.
  - induction H as [x|x l1 k o y l2 op f a b v H1 H2 N A IA B IB F].
    + apply gv_operand.
    + eapply gv_left; eauto; [rewrite nth_error_map, N; reflexivity|discriminate].
Qed.

(** ** Numbers *)

Definition number_item (i : operation) : Prop :=
  exists k c y, i = (k, VChar c, VInt y) /\ In c [43; 45; 42; 47].

(** Levels with functions that agree on numbers. *)
Definition agree (A B : list grouped_level) : Prop :=
  forall k g op f, nth_error A k = Some (g, (op, f)) ->
  exists op' f', nth_error B k = Some (g, (op', f'))
    /\ forall c a b, In c [43; 45; 42; 47] ->
      (g <> To_right -> exists r, f (VInt a) (VSeq [VChar c; VInt b]) = option_map VInt r
         /\ f' (VInt a) (VSeq [VChar c; VInt b]) = option_map VInt r)
      /\ (g = To_right -> exists r, f (VInt b) (VSeq [VInt a; VChar c]) = option_map VInt r
         /\ f' (VInt b) (VSeq [VInt a; VChar c]) = option_map VInt r).

Lemma gvalue_agree : forall A B, agree A B -> forall x l v, grouped_value A x l v ->
  (exists z, x = VInt z) -> (forall i, In i l -> number_item i) ->
  grouped_value B x l v /\ exists z, v = VInt z.
Proof.
  intros A B AB x l v H.
  induction H as [x|x l1 k o y l2 g op f a b v N G H1 H2 VA IA VB IB F|x l1 k o y l2 op f a b v N H1 H2 VA IA VB IB F];
    intros X I.
  - split; [apply gv_operand|exact X].
  - destruct (I (k, o, y)) as (k' & c & y' & Q & C); [apply in_app_iff; right; left; reflexivity|].
    injection Q as <- -> ->.
    destruct (IA X) as (IA' & za & ->); [intros i J; apply I, in_app_iff; auto|].
    destruct IB as (IB' & zb & ->); [eauto|intros i J; apply I, in_app_iff; right; right; exact J|].
    destruct (AB _ _ _ _ N) as (op' & f' & N' & E). destruct (E c za zb C) as (E1 & _).
    destruct (E1 G) as (r & R1 & R2). rewrite R1 in F. destruct r as [z|]; [|discriminate F].
    cbn in F. injection F as <-. split; [|eauto]. eapply gv_left; eauto.
  - destruct (I (k, o, y)) as (k' & c & y' & Q & C); [apply in_app_iff; right; left; reflexivity|].
    injection Q as <- -> ->.
    destruct (IA X) as (IA' & za & ->); [intros i J; apply I, in_app_iff; auto|].
    destruct IB as (IB' & zb & ->); [eauto|intros i J; apply I, in_app_iff; right; right; exact J|].
    destruct (AB _ _ _ _ N) as (op' & f' & N' & E). destruct (E c za zb C) as (_ & E1).
    destruct (E1 eq_refl) as (r & R1 & R2). rewrite R1 in F. destruct r as [z|]; [|discriminate F].
    cbn in F. injection F as <-. split; [|eauto]. eapply gv_right; eauto.
Qed.

Lemma reads_same : forall sd env operand A B, map fst A = map fst B -> forall s ps l s' ps',
  reads_operations sd env operand A s ps l s' ps' -> reads_operations sd env operand B s ps l s' ps'.
Proof.
  intros sd env operand A B E s ps l s' ps' R.
  induction R as [|s ps k op f o s1 ps1 x s2 ps2 l s3 ps3 N O X R IH]; [constructor|].
  apply (map_nth_error fst) in N. rewrite E, nth_error_map in N. cbn [fst] in N.
  destruct (nth_error B k) as [(op' & f')|] eqn:Q; [|discriminate N]. cbn in N. injection N as ->.
  eapply ro_more; eauto.
Qed.
