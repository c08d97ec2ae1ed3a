(** Proofs about nested folds and operators with precedence. *)

From Coq Require Import ZArith List Bool Lia.
From Verif Require Import Base Deep Spec SpecRules SpecChoice SpecPrecedence Proofs_Pos
  Proofs_Laws Proofs_Rules Proofs_Layout Proofs_Choice Util Calculator.
Import ListNotations.
Open Scope Z_scope.

Definition up (i : operation) : operation := (S (fst (fst i)), snd (fst i), snd i).

Lemma lfold_last : forall f rs r v, lfold f (rs ++ [r]) v =
  match lfold f rs v with Some a => f a r | None => None end.
Proof.
  intros f. induction rs as [|x rs IH]; intros r v; cbn [app lfold].
  - destruct (f v r); reflexivity.
  - destruct (f v x); [apply IH|reflexivity].
Qed.

Lemma value_up : forall l0 ls x l v, value_of ls x l v -> value_of (l0 :: ls) x (map up l) v.
Proof.
  intros l0 ls x l v H. induction H as [x|x l1 k o y l2 op f a b v H1 H2 N A IA B IB F].
  - apply value_operand.
  - rewrite map_app. cbn [map]. unfold up at 2. cbn [fst snd].
    eapply value_operator with (a := a) (b := b); eauto.
    + intros i I. apply in_map_iff in I as (i' & <- & I). specialize (H1 i' I).
      unfold level_of, up in *. cbn. lia.
    + intros i I. apply in_map_iff in I as (i' & <- & I). specialize (H2 i' I).
      unfold level_of, up in *. cbn. lia.
Qed.

Lemma value_down : forall l0 ls x m v, value_of (l0 :: ls) x m v ->
  forall l, m = map up l -> value_of ls x l v.
Proof.
  intros l0 ls x m v H. induction H as [x|x l1 k o y l2 op f a b v H1 H2 N A IA B IB F];
    intros l E.
  - destruct l; [apply value_operand|discriminate E].
  - symmetry in E. apply map_eq_app in E as (m1 & m2 & -> & <- & E).
    destruct m2 as [|((k' & o') & y') m2]; [discriminate E|].
    cbn [map] in E. unfold up at 1 in E. cbn [fst snd] in E. injection E as <- <- <- <-.
    eapply value_operator with (a := a) (b := b); eauto.
    + intros i I. specialize (H1 (up i) (in_map up _ _ I)). unfold level_of, up in *. cbn in H1. lia.
    + intros i I. specialize (H2 (up i) (in_map up _ _ I)). unfold level_of, up in *. cbn in H2. lia.
Qed.

Section In_a_program.
Variable sd : std.
Variable env : program.
Variable operand : pexpr.
Variable strict : bool.
Notation gives := (gives sd env).
Notation reads := (reads_operations sd env operand).

Fixpoint nest (ls : list level) : pexpr :=
  match ls with
  | [] => operand
  | (op, f) :: ls' =>
      if strict then PFoldlRejectIncompleteStartWithParser (PSequence [op; nest ls']) (nest ls') f
      else PFoldlStartWithParser (PSequence [op; nest ls']) (nest ls') f
  end.

Definition stops (ls : list level) (s : str) (ps : pos) : Prop :=
  if strict then no_operator_follows sd env ls s ps else nothing_follows sd env operand ls s ps.

Lemma reads_up : forall l0 ls s ps l s' ps', reads ls s ps l s' ps' ->
  reads (l0 :: ls) s ps (map up l) s' ps'.
Proof.
  intros l0 ls s ps l s' ps' H. induction H; cbn [map]; [constructor|].
  unfold up at 1. cbn [fst snd]. eapply ro_more; cbn [nth_error]; eauto.
Qed.

Lemma reads_down : forall l0 ls s ps l s' ps', reads (l0 :: ls) s ps l s' ps' ->
  (forall i, In i l -> (0 < level_of i)%nat) ->
  exists l', l = map up l' /\ reads ls s ps l' s' ps'.
Proof.
  intros l0 ls s ps l s' ps' H. induction H as [|s ps k op f o s1 ps1 x s2 ps2 l s3 ps3 N O X R IH];
    intros P.
  - exists []. split; [reflexivity|constructor].
  - destruct IH as (l' & -> & R'); [intros i I; apply P; right; exact I|].
    destruct k as [|k]; [specialize (P _ (or_introl eq_refl)); unfold level_of in P; cbn in P; lia|].
    exists ((k, o, x) :: l'). split; [reflexivity|]. eapply ro_more; eauto.
Qed.

Lemma reads_app : forall ls l1 l2 s ps s' ps', reads ls s ps (l1 ++ l2) s' ps' <->
  exists s1 ps1, reads ls s ps l1 s1 ps1 /\ reads ls s1 ps1 l2 s' ps'.
Proof.
  intros ls. induction l1 as [|i l1 IH]; intros l2 s ps s' ps'; cbn [app]; split.
  - intros R. exists s, ps. split; [constructor|exact R].
  - intros (s1 & ps1 & R1 & R2). inversion R1; subst. exact R2.
  - intros R. inversion R; subst.
    match goal with X : reads _ _ _ (l1 ++ l2) _ _ |- _ => apply IH in X as (sa & pa & A & B) end.
    exists sa, pa. split; [eapply ro_more; eauto|exact B].
  - intros (s1 & ps1 & R1 & R2). inversion R1; subst. eapply ro_more; eauto. apply IH. eauto.
Qed.

Lemma pair_accept : forall p q s ps r s' ps',
  gives (PSequence [p; q]) s ps (Accept r s' ps') <->
  exists a b s1 ps1, gives p s ps (Accept a s1 ps1) /\ gives q s1 ps1 (Accept b s' ps')
    /\ r = VSeq [a; b].
Proof.
  intros. split.
  - intros G. inversion G; subst.
    repeat match goal with X : in_turn _ _ _ _ _ _ _ _ |- _ => inversion X; subst; clear X end.
    eauto 8.
  - intros (a & b & s1 & ps1 & A & B & ->). apply g_sequence.
    eapply in_turn_cons; [exact A|]. eapply in_turn_cons; [exact B|]. constructor.
Qed.

Lemma pair_reject : forall p q s ps m pe,
  gives (PSequence [p; q]) s ps (Reject m pe) <->
  gives p s ps (Reject m pe)
  \/ exists a s1 ps1, gives p s ps (Accept a s1 ps1) /\ gives q s1 ps1 (Reject m pe).
Proof.
  intros. split.
  - intros G. inversion G; subst.
    repeat match goal with X : breaks_off _ _ _ _ _ _ _ |- _ => inversion X; subst; clear X end; eauto 6.
  - intros [A|(a & s1 & ps1 & A & B)]; apply g_sequence_fails.
    + apply breaks_off_here. exact A.
    + eapply breaks_off_later; [exact A|]. apply breaks_off_here. exact B.
Qed.

Lemma nest_accept : forall op f ls s ps v s' ps',
  gives (nest ((op, f) :: ls)) s ps (Accept v s' ps') <->
  exists v0 s1 ps1 rs m pe, gives (nest ls) s ps (Accept v0 s1 ps1) /\ v0 <> VVoid
    /\ many sd env (PSequence [op; nest ls]) s1 ps1 rs s' ps'
    /\ gives (PSequence [op; nest ls]) s' ps' (Reject m pe) /\ (strict = true -> pe = ps')
    /\ lfold f rs v0 = Some v.
Proof.
  intros op f ls s ps v s' ps'. cbn [nest]. split.
  - intros G. destruct strict; inversion G; subst; do 6 eexists;
      (split; [eassumption|]); (split; [eassumption|]); (split; [eassumption|]);
      (split; [eassumption|]); (split; [|eassumption]).
    + reflexivity.
    + intros Q. discriminate Q.
  - intros (v0 & s1 & ps1 & rs & m & pe & A & V & M & R & Q & F). destruct strict.
    + rewrite (Q eq_refl) in R. eapply g_foldl_ri_swp; eauto.
    + eapply g_foldl_swp; eauto.
Qed.

Lemma nest_reject : forall ls, strict = false -> forall s ps m pe,
  gives (nest ls) s ps (Reject m pe) <-> gives operand s ps (Reject m pe).
Proof.
  induction ls as [|(op & f) ls IH]; intros E s ps m pe; [reflexivity|].
  cbn [nest]. specialize (IH E). destruct strict; [discriminate E|]. split.
  - intros G. inversion G; subst. apply IH. assumption.
  - intros G. apply g_foldl_swp_fails, IH, G.
Qed.

(** ** Going ahead *)

Lemma nest_ahead : forall ls, goes_ahead sd env operand ->
  (forall op f, In (op, f) ls -> goes_ahead sd env op) -> goes_ahead sd env (nest ls).
Proof.
  induction ls as [|(op & f) ls IH]; intros GO GL; [exact GO|].
  specialize (IH GO (fun o g I => GL o g (or_intror I))).
  pose proof (GL op f (or_introl eq_refl)) as (GA & GR). destruct IH as (NA & NR).
  assert (PA : forall s ps r s' ps', gives (PSequence [op; nest ls]) s ps (Accept r s' ps') -> pos_le ps ps').
  { intros s ps r s' ps' G. apply pair_accept in G as (a & b & s1 & ps1 & A & B & _).
    eapply pos_le_trans; eauto. }
  assert (PR : forall s ps m pe, gives (PSequence [op; nest ls]) s ps (Reject m pe) -> pos_le ps pe).
  { intros s ps m pe G. apply pair_reject in G as [A|(a & s1 & ps1 & A & B)]; [eauto|].
    eapply pos_le_trans; eauto. }
  assert (MA : forall rs s ps s' ps', many sd env (PSequence [op; nest ls]) s ps rs s' ps' -> pos_le ps ps').
  { induction rs; intros s ps s' ps' M; inversion M; subst; [apply pos_le_refl|].
    eapply pos_le_trans; eauto. }
  split.
  - intros s ps r s' ps' G. apply nest_accept in G as (v0 & s1 & ps1 & rs & m & pe & A & _ & M & _).
    eapply pos_le_trans; eauto.
  - intros s ps m pe G. cbn [nest] in G. destruct strict; inversion G; subst; eauto.
    eapply pos_le_trans; [eapply NA; eassumption|].
    eapply pos_le_trans; [eapply MA; eassumption|]. eapply PR; eassumption.
Qed.

(** ** Where a fold stops *)

Section Level.
Variable ls : list level.
Hypothesis AO : strict = true -> at_once sd env ls /\ goes_ahead sd env operand
  /\ forall op f, In (op, f) ls -> goes_ahead sd env op.

Lemma stop_sound : forall op f ls' s ps m pe, ls = (op, f) :: ls' ->
  gives (PSequence [op; nest ls']) s ps (Reject m pe) -> (strict = true -> pe = ps) ->
  stops ls' s ps -> stops ls s ps.
Proof.
  intros op f ls' s ps m pe E G Q S.
  assert (X : strict = true -> exists m pe, gives op s ps (Reject m pe)).
  { intros T. specialize (Q T). subst pe. destruct (AO T) as (A & GO & GL).
    apply pair_reject in G as [G|(a & s1 & ps1 & A1 & B1)]; [eauto|]. exfalso.
    rewrite E in A, GL. destruct (A op f (or_introl eq_refl) s ps) as (F & _).
    specialize (F _ _ _ A1).
    destruct (nest_ahead ls' GO (fun o g I => GL o g (or_intror I))) as (_ & NR).
    apply NR in B1. apply (pos_lt_irrefl ps). eapply pos_lt_le_trans; eauto. }
  unfold stops in *. subst ls. destruct strict eqn:T.
  - intros o g [H|I]; [injection H as <- <-; auto|exact (S o g I)].
  - intros o g [H|I]; [injection H as <- <-|exact (S o g I)].
    apply pair_reject in G as [G|(a & s1 & ps1 & A1 & B1)]; [left; eauto|].
    right. apply (nest_reject ls' T) in B1. eauto 8.
Qed.

Lemma stop_complete : forall op f ls' s ps, ls = (op, f) :: ls' -> stops ls s ps ->
  exists m pe, gives (PSequence [op; nest ls']) s ps (Reject m pe) /\ (strict = true -> pe = ps).
Proof.
  intros op f ls' s ps E S. unfold stops in S. subst ls.
  destruct strict eqn:T.
  - destruct (S op f (or_introl eq_refl)) as (m & pe & G). exists m, pe.
    split; [apply pair_reject; left; exact G|]. intros _.
    destruct (AO eq_refl) as (A & _). exact (proj2 (A op f (or_introl eq_refl) s ps) _ _ G).
  - destruct (S op f (or_introl eq_refl)) as [(m & pe & G)|(o & s1 & ps1 & m & pe & A & B)];
      exists m, pe; (split; [|discriminate]); apply pair_reject; [left; exact G|].
    right. exists o, s1, ps1. split; [exact A|]. apply (nest_reject ls' T). exact B.
Qed.
End Level.

Definition fine (ls : list level) : Prop :=
  strict = true -> at_once sd env ls /\ goes_ahead sd env operand
  /\ forall op f, In (op, f) ls -> goes_ahead sd env op.

Lemma fine_tail : forall l ls, fine (l :: ls) -> fine ls.
Proof.
  intros l ls F T. destruct (F T) as (A & B & C). split; [|split; [exact B|]].
  - intros op f I. exact (A op f (or_intror I)).
  - intros op f I. exact (C op f (or_intror I)).
Qed.

(** ** What is accepted has the value *)

Lemma nest_sound : forall ls, fine ls -> forall s ps v s' ps',
  gives (nest ls) s ps (Accept v s' ps') ->
  exists x s1 ps1 l, gives operand s ps (Accept x s1 ps1) /\ reads ls s1 ps1 l s' ps'
    /\ stops ls s' ps' /\ value_of ls x l v.
Proof.
  induction ls as [|(op & f) ls IH]; intros FI s ps v s' ps' G.
  - exists v, s', ps', []. repeat split; [exact G|constructor| |constructor].
    unfold stops. destruct strict; intros ? ? [].
  - specialize (IH (fine_tail _ _ FI)).
    apply nest_accept in G as (v0 & s1 & ps1 & rs & m & pe & A & _ & M & R & Q & L).
    destruct (IH _ _ _ _ _ A) as (x & s2 & ps2 & l & X & RL & ST & V).
    assert (K : forall rs s1 ps1 s' ps', many sd env (PSequence [op; nest ls]) s1 ps1 rs s' ps' ->
      forall l0 v0 v, value_of ((op, f) :: ls) x l0 v0 -> lfold f rs v0 = Some v ->
      stops ls s1 ps1 ->
      exists l, reads ((op, f) :: ls) s1 ps1 l s' ps' /\ value_of ((op, f) :: ls) x (l0 ++ l) v
        /\ stops ls s' ps').
    { clear - IH. induction rs as [|r rs IHr]; intros s1 ps1 s' ps' M l0 v0 v V L ST; inversion M; subst.
      - cbn [lfold] in L. injection L as <-. exists []. rewrite app_nil_r. repeat split; auto. constructor.
      - match goal with X : gives (PSequence _) _ _ _ |- _ =>
          apply pair_accept in X as (o & b & sa & pa & A & B & ->) end.
        cbn [lfold] in L. destruct (f v0 (VSeq [o; b])) as [w|] eqn:F; [|discriminate L].
        destruct (IH _ _ _ _ _ B) as (y & sb & pb & l & Y & RL & SB & VB).
        match goal with X : many _ _ _ _ _ rs _ _ |- _ =>
          destruct (IHr _ _ _ _ X (l0 ++ (0%nat, o, y) :: map up l) w v) as (l' & R' & V' & S') end; auto.
        + apply (value_operator ((op, f) :: ls) x l0 0 o y (map up l) op f v0 b w); auto;
            [intros; lia| |apply value_up, VB].
          intros i I. apply in_map_iff in I as (i' & <- & _). unfold level_of, up. cbn. lia.
        + exists ((0%nat, o, y) :: map up l ++ l'). split; [|split].
          * eapply ro_more; [reflexivity|exact A|exact Y|].
            apply reads_app. do 2 eexists. split; [apply reads_up, RL|exact R'].
          * rewrite <- app_assoc in V'. exact V'.
          * exact S'. }
    destruct (K _ _ _ _ _ M (map up l) v0 v (value_up _ _ _ _ _ V) L ST) as (l' & R' & V' & S').
    exists x, s2, ps2, (map up l ++ l'). split; [exact X|]. split; [|split].
    + apply reads_app. do 2 eexists. split; [apply reads_up, RL|exact R'].
    + eapply (stop_sound _ FI); eauto.
    + exact V'.
Qed.

(** ** What has a value is accepted *)

Lemma many_last : forall p r s2 ps2 rs s ps s1 ps1, many sd env p s ps rs s1 ps1 ->
  gives p s1 ps1 (Accept r s2 ps2) -> many sd env p s ps (rs ++ [r]) s2 ps2.
Proof.
  intros p r s2 ps2. induction rs as [|x rs IH]; intros s ps s1 ps1 M G; inversion M; subst; cbn [app].
  - eapply many_more; [exact G|constructor].
  - eapply many_more; eauto.
Qed.

Lemma value_solid : forall ls x l v, never_void_here sd env operand ls -> x <> VVoid ->
  value_of ls x l v -> v <> VVoid.
Proof.
  intros ls x l v (_ & N) X H. induction H as [x|x l1 k o y l2 op f a b v H1 H2 E A IA B IB F]; [exact X|].
  apply nth_error_In in E. exact (N op f a _ v E (IA X) F).
Qed.

Lemma nest_complete : forall ls, fine ls -> never_void_here sd env operand ls ->
  different_operators sd env ls -> decided sd env ls ->
  forall x l v, value_of ls x l v -> forall s ps s1 ps1 s' ps',
  gives operand s ps (Accept x s1 ps1) -> reads ls s1 ps1 l s' ps' -> stops ls s' ps' ->
  gives (nest ls) s ps (Accept v s' ps').
Proof.
  induction ls as [|(op & f) ls IH]; intros FI NV DO DE x l v V s ps s1 ps1 s' ps' X R S.
  - inversion R; subst; [inversion V; subst; [exact X|]|].
    + match goal with E : _ ++ _ :: _ = [] |- _ => destruct (app_cons_not_nil _ _ _ (eq_sym E)) end.
    + match goal with E : nth_error [] ?k = Some _ |- _ => destruct k; discriminate E end.
  - assert (NV' : never_void_here sd env operand ls).
    { destruct NV as (A & B). split; [exact A|]. intros o g a b w I. exact (B o g a b w (or_intror I)). }
    specialize (IH (fine_tail _ _ FI) NV').
    assert (IH' : forall x l v, value_of ls x l v -> forall s ps s1 ps1 s' ps',
      gives operand s ps (Accept x s1 ps1) -> reads ls s1 ps1 l s' ps' -> stops ls s' ps' ->
      gives (nest ls) s ps (Accept v s' ps')).
    { apply IH.
      - intros j k l1 l2 J N1 N2. exact (DO (Datatypes.S j) (Datatypes.S k) l1 l2 (proj1 (Nat.succ_lt_mono j k) J) N1 N2).
      - intros o g I. exact (DE o g (or_intror I)). }
    clear IH.
    assert (ST : forall s ps, takes sd env op s ps -> stops ls s ps).
    { intros s0 p0 T. assert (Z : no_operator_follows sd env ls s0 p0).
      { intros o g I. destruct (DE o g (or_intror I) s0 p0) as (r & G).
        destruct (gives_settled _ _ _ _ _ _ G) as [(a & b & c & ->)|(m & pe & ->)]; [|eauto].
        destruct (In_nth_error _ _ I) as (k & N). exfalso.
        apply (DO 0%nat (Datatypes.S k) (op, f) (o, g) (Nat.lt_0_succ k) eq_refl N s0 p0 T).
        do 3 eexists. exact G. }
      unfold stops. destruct strict; [exact Z|]. intros o g I. left. exact (Z o g I). }
    assert (S' : stops ls s' ps').
    { unfold stops in *. destruct strict; intros o g I; apply (S o g (or_intror I)). }
    assert (K : forall x l v, value_of ((op, f) :: ls) x l v -> forall s ps s1 ps1 s' ps',
      gives operand s ps (Accept x s1 ps1) -> reads ((op, f) :: ls) s1 ps1 l s' ps' ->
      stops ls s' ps' ->
      exists v0 s2 ps2 rs, gives (nest ls) s ps (Accept v0 s2 ps2) /\ v0 <> VVoid
        /\ many sd env (PSequence [op; nest ls]) s2 ps2 rs s' ps' /\ lfold f rs v0 = Some v).
    { clear x l v V s ps s1 ps1 s' ps' X R S S'.
      intros x l v V. assert (V' := V).
      induction V as [x|x l1 k o y l2 op' f' a b v H1 H2 N A IA B IB F];
        intros s ps s1 ps1 s' ps' X R S.
      - inversion R; subst. exists x, s', ps', []. repeat split.
        + eapply IH'; [apply value_operand|exact X|constructor|exact S].
        + exact (proj1 NV _ _ _ _ _ X).
        + constructor.
      - assert (XV := proj1 NV _ _ _ _ _ X). destruct k as [|k].
        + cbn in N. injection N as <- <-.
          apply reads_app in R as (sa & pa & R1 & R2). inversion R2; subst.
          match goal with E : nth_error _ 0 = Some _ |- _ => cbn in E; injection E as <- <- end.
          match goal with Z : reads _ _ _ l2 _ _, G : gives op _ _ _, Y : gives operand _ _ (Accept y _ _) |- _ =>
            rename Z into R3; rename G into GO; rename Y into GY end.
          destruct (IA A _ _ _ _ _ _ X R1) as (v0 & sx & px & rs & G0 & VV & M & L).
          { apply ST. do 3 eexists. exact GO. }
          destruct (reads_down _ _ _ _ _ _ _ R3 H2) as (m & -> & R4).
          exists v0, sx, px, (rs ++ [VSeq [o; b]]). repeat split; auto.
          * eapply many_last; [exact M|]. apply pair_accept. do 4 eexists. split; [exact GO|].
            split; [|reflexivity]. eapply IH'; [eapply value_down; [exact B|reflexivity]|exact GY|exact R4|exact S].
          * rewrite lfold_last, L. exact F.
        + destruct (reads_down _ _ _ _ _ _ _ R) as (m & E & R4).
          { intros i I. apply in_app_iff in I as [I|[<-|I]].
            - specialize (H1 i I). lia.
            - unfold level_of. cbn. lia.
            - specialize (H2 i I). lia. }
          rewrite E in V', R. exists v, s', ps', []. repeat split.
          * eapply IH'; [eapply value_down; [exact V'|reflexivity]|exact X|exact R4|exact S].
          * eapply value_solid; [exact NV|exact XV|exact V'].
          * constructor. }
    destruct (K _ _ _ V _ _ _ _ _ _ X R S') as (v0 & s2 & ps2 & rs & G0 & VV & M & L).
    destruct (stop_complete _ FI op f ls s' ps' eq_refl S) as (m & pe & G & Q).
    apply nest_accept. exists v0, s2, ps2, rs, m, pe. repeat split; auto.
Qed.
End In_a_program.

(** ** Values of operations *)

Lemma value_total : forall ls, (forall op f, In (op, f) ls -> forall a b, exists v, f a b = Some v) ->
  forall l x, (forall i, In i l -> (level_of i < length ls)%nat) -> exists v, value_of ls x l v.
Proof.
  intros ls T l. remember (length l) as n eqn:E. revert l E.
  induction n as [n IH] using (well_founded_induction Wf_nat.lt_wf). intros l E x B.
  destruct l as [|i0 l0]; [exists x; constructor|].
  assert (S : exists l1 i l2, i0 :: l0 = l1 ++ i :: l2
    /\ (forall j, In j l1 -> (level_of i <= level_of j)%nat)
    /\ (forall j, In j l2 -> (level_of i < level_of j)%nat)).
  { clear. revert i0. induction l0 as [|i1 l0 IH]; intros i0.
    - exists [], i0, []. repeat split; intros j [].
    - destruct (IH i1) as (l1 & i & l2 & E & H1 & H2).
      destruct (Nat.le_gt_cases (level_of i) (level_of i0)) as [C|C].
      + exists (i0 :: l1), i, l2. rewrite E. repeat split; auto.
        intros j [<-|J]; auto.
      + exists [], i0, (i1 :: l0). repeat split; [intros j []|].
        intros j J. rewrite E in J. apply in_app_iff in J as [J|[<-|J]].
        * specialize (H1 j J). lia.
        * exact C.
        * specialize (H2 j J). lia. }
  destruct S as (l1 & ((k & o) & y) & l2 & Q & H1 & H2). rewrite Q in *.
  rewrite app_length in E. cbn [length] in E.
  assert (K : (k < length ls)%nat).
  { apply (B (k, o, y)). apply in_app_iff. right. left. reflexivity. }
  destruct (nth_error ls k) as [(op & f)|] eqn:N; [|apply nth_error_None in N; lia].
  destruct (IH (length l1)) with (l := l1) (x := x) as (a & A); [lia|reflexivity| |].
  { intros j J. apply B, in_app_iff. auto. }
  destruct (IH (length l2)) with (l := l2) (x := y) as (b & V); [lia|reflexivity| |].
  { intros j J. apply B, in_app_iff. right. right. exact J. }
  destruct (T op f (nth_error_In _ _ N) a (VSeq [o; b])) as (v & F).
  exists v. eapply value_operator; eauto.
Qed.

Lemma app_split_cases : forall (A : Type) (l1 l2 m1 m2 : list A) x y,
  l1 ++ x :: l2 = m1 ++ y :: m2 ->
  (l1 = m1 /\ x = y /\ l2 = m2) \/ (In x m1 /\ In y l2) \/ (In y l1 /\ In x m2).
Proof.
  induction l1 as [|a l1 IH]; intros l2 m1 m2 x y E; destruct m1 as [|b m1]; cbn [app] in E.
  - injection E as -> ->. auto.
  - injection E as -> ->. right. left. split; [left; reflexivity|].
    apply in_app_iff. right. left. reflexivity.
  - injection E as -> <-. right. right. split; [left; reflexivity|].
    apply in_app_iff. right. left. reflexivity.
  - injection E as -> E. destruct (IH _ _ _ _ _ E) as [(-> & -> & ->)|[(I & J)|(I & J)]]; auto.
    + right. left. split; [right; exact I|exact J].
    + right. right. split; [right; exact I|exact J].
Qed.

Lemma value_unique : forall ls x l v, value_of ls x l v -> forall w, value_of ls x l w -> v = w.
Proof.
  intros ls x l v H. induction H as [x|x l1 k o y l2 op f a b v H1 H2 N A IA B IB F]; intros w W.
  - inversion W; subst; [reflexivity|].
    match goal with E : _ ++ _ :: _ = [] |- _ => destruct (app_cons_not_nil _ _ _ (eq_sym E)) end.
  - inversion W as [|x' m1 k' o' y' m2 op' f' a' b' v' G1 G2 N' A' B' F' E1 E]; subst.
    + match goal with E : [] = _ ++ _ :: _ |- _ => destruct (app_cons_not_nil _ _ _ E) end.
    + apply app_split_cases in E as [(-> & Q & ->)|[(I & J)|(I & J)]].
      * injection Q as -> -> ->. rewrite N in N'. injection N' as <- <-.
        rewrite (IA _ A'), (IB _ B') in F. congruence.
      * specialize (H1 _ I). specialize (G2 _ J). unfold level_of in *. cbn in *. lia.
      * specialize (G1 _ I). specialize (H2 _ J). unfold level_of in *. cbn in *. lia.
Qed.

(** ** Operators of one character *)

Section Characters.
Variable sd : std.
Variable env : program.

Lemma lit_inv : forall c s ps o, gives sd env (PLitC c) s ps o ->
  (exists t, s = c :: t /\ o = Accept (VChar c) t (adv ps [c]))
  \/ ((forall t, s <> c :: t) /\ exists m, o = Reject m ps).
Proof.
  intros c s ps o G. inversion G; subst;
  match goal with H : gives _ _ (PChangeErrorMessage _ _) _ _ _ |- _ => inversion H; subst end;
  match goal with H : gives _ _ POneChar _ _ _ |- _ => inversion H; subst end;
  repeat match goal with H : walk _ _ _ |- _ => apply walk_iff in H; subst end.
  - match goal with H : is_char_c _ _ = _ |- _ => cbn in H; injection H as H; apply Z.eqb_eq in H; subst end.
    left. eexists. split; reflexivity.
  - match goal with H : is_char_c _ _ = _ |- _ => cbn in H; injection H as H; apply Z.eqb_neq in H end.
    right. split; [congruence|eauto].
  - right. split; [discriminate|eauto].
Qed.

Lemma lit_ex : forall c s ps, exists o, gives sd env (PLitC c) s ps o.
Proof.
  intros c [|d s] ps.
  - eexists. eapply g_accept_when_fails. eapply g_change_error_message. constructor.
  - assert (G : gives sd env (PChangeErrorMessage POneChar (literal_expected c)) (d :: s) ps
      (Accept (VChar d) s (adv ps [d]))).
    { apply g_change_error_message_ok. constructor. apply walk_iff. reflexivity. }
    destruct (d =? c) eqn:E.
    + eexists. eapply g_accept_when; [exact G|]. cbn. rewrite E. reflexivity.
    + eexists. eapply g_accept_when_not; [exact G|]. cbn. rewrite E. reflexivity.
Qed.

Lemma token_inv : forall c s ps o, gives sd env (PToken (PLitC c)) s ps o ->
  (exists sp t, s = c :: sp ++ t /\ o = Accept (VChar c) t (adv ps (c :: sp)))
  \/ ((forall t, s <> c :: t) /\ exists m, o = Reject m ps).
Proof.
  intros c s ps o G. inversion G; subst.
  - repeat match goal with X : in_turn _ _ _ _ _ _ _ _ |- _ => inversion X; subst; clear X end.
    match goal with X : gives _ _ (PLitC _) _ _ _ |- _ =>
      apply lit_inv in X as [(t & -> & E)|(_ & m & E)]; [|discriminate E] end.
    injection E as -> -> ->.
    match goal with X : gives _ _ (PRepeated PSpace) _ _ _ |- _ =>
      apply spaces_inv in X as (sp & t' & -> & _ & _ & E) end.
    injection E as -> -> ->. left. exists sp, t'. split; reflexivity.
  - match goal with X : breaks_off _ _ _ _ _ _ _ |- _ => inversion X; subst end.
    + match goal with X : gives _ _ (PLitC _) _ _ _ |- _ =>
        apply lit_inv in X as [(t & -> & E)|(N & m' & E)]; [discriminate E|] end.
      injection E as -> ->. right. eauto.
    + match goal with X : breaks_off _ _ [_] _ _ _ _ |- _ => inversion X; subst end.
      * match goal with X : gives _ _ (PRepeated PSpace) _ _ _ |- _ =>
          apply spaces_inv in X as (sp & t' & _ & _ & _ & E) end. discriminate E.
      * match goal with X : breaks_off _ _ [] _ _ _ _ |- _ => inversion X end.
Qed.

Lemma token_ex : forall c s ps, exists o, gives sd env (PToken (PLitC c)) s ps o.
Proof.
  intros c s ps. destruct (lit_ex c s ps) as (o & G).
  destruct (lit_inv _ _ _ _ G) as [(t & -> & ->)|(_ & m & ->)].
  - destruct (skip_ex t) as (sp & t' & -> & F & N).
    eexists. eapply (g_first_of _ _ _ _ _ _ [_]). eapply in_turn_cons; [exact G|].
    eapply in_turn_cons; [apply spaces_give; [exact F|exact N]|]. constructor.
  - eexists. apply g_first_of_fails, breaks_off_here. exact G.
Qed.

Lemma operators_ex : forall cs s ps, exists o, gives sd env (char_operators cs) s ps o.
Proof.
  intros cs s ps. destruct (each_ex sd env (map (fun c => PToken (PLitC c)) cs) s ps) as (os & E).
  { intros p Hp. apply in_map_iff in Hp as (c & <- & _). apply token_ex. }
  destruct (settled_split os (each_settled _ _ _ _ _ _ E)) as [(o & F)|F].
  - exists o. eapply g_one_of; eauto.
  - apply rejections_iff in F as (es & R).
    destruct (choice_error_ex sd ps es) as (m & pe & C).
    exists (Reject m pe). eapply g_one_of_fails; eauto.
Qed.

Lemma operators_inv : forall cs s ps o, gives sd env (char_operators cs) s ps o ->
  (exists c sp t, In c cs /\ s = c :: sp ++ t /\ o = Accept (VChar c) t (adv ps (c :: sp)))
  \/ exists m, o = Reject m ps.
Proof.
  assert (K : forall cs s ps os, each sd env (map (fun c => PToken (PLitC c)) cs) s ps os ->
    forall x, In x os ->
    (exists c sp t, In c cs /\ s = c :: sp ++ t /\ x = Accept (VChar c) t (adv ps (c :: sp)))
    \/ exists m, x = Reject m ps).
  { induction cs as [|c cs IH]; intros s ps os E x X; cbn [map] in E; inversion E; subst; [destruct X|].
    destruct X as [<-|X].
    - match goal with G : gives _ _ (PToken _) _ _ _ |- _ =>
        apply token_inv in G as [(sp & t & -> & ->)|(_ & m & ->)] end; [|right; eauto].
      left. exists c, sp, t. repeat split. left. reflexivity.
    - match goal with G : each _ _ (map _ cs) _ _ _ |- _ =>
        destruct (IH _ _ _ G x X) as [(d & sp & t & I & Q)|Q] end; [|right; exact Q].
      left. exists d, sp, t. split; [right; exact I|exact Q]. }
  intros cs s ps o G. inversion G; subst.
  - match goal with F : first_accept _ _ |- _ => destruct F as (_ & os1 & os2 & -> & _) end.
    eapply K; [eassumption|]. apply in_app_iff. right. left. reflexivity.
  - right. match goal with C : choice_error _ _ _ _ |- _ =>
      apply choice_position in C as (_ & _ & [->|((m1 & p1) & I & Q)]) end; [eauto|].
    cbn [snd] in Q. subst p1.
    match goal with R : rejections _ _, E : each _ _ _ _ _ _ |- _ =>
      unfold rejections in R; subst; destruct (K _ _ _ _ E (Reject m1 pe)) as [(c & sp & t & _ & _ & Q)|(m2 & Q)] end.
    + apply in_map_iff. exists (m1, pe). split; [reflexivity|exact I].
    + discriminate Q.
    + injection Q as -> ->. eauto.
Qed.

Lemma operators_exclusive : forall cs ds, (forall c, In c cs -> ~ In c ds) ->
  exclusive sd env (char_operators cs) (char_operators ds).
Proof.
  intros cs ds N s ps (r & s1 & p1 & G1) (r2 & s2 & p2 & G2).
  apply operators_inv in G1 as [(c & sp & t & I & -> & _)|(m & E)]; [|discriminate E].
  apply operators_inv in G2 as [(d & sq & u & J & Q & _)|(m & E)]; [|discriminate E].
  injection Q as -> _. exact (N d I J).
Qed.

Lemma operators_ahead : forall cs, goes_ahead sd env (char_operators cs).
Proof.
  intros cs. split.
  - intros s ps r s' ps' G. apply operators_inv in G as [(c & sp & t & I & -> & E)|(m & E)]; [|discriminate E].
    injection E as -> -> ->. exact (adv_le (c :: sp) ps).
  - intros s ps m pe G. apply operators_inv in G as [(c & sp & t & I & -> & E)|(m' & E)]; [discriminate E|].
    injection E as -> ->. apply pos_le_refl.
Qed.

(** ** Results that are not void *)

Definition solid_op (f : mf2) : Prop := forall a b v, a <> VVoid -> f a b = Some v -> v <> VVoid.
Inductive solid : pexpr -> Prop :=
| solid_ref k : solid (PRef k)
| solid_fail m : solid (PFail m)
| solid_first p l : solid p -> solid (PFirstOf (p :: l))
| solid_one l : (forall p, In p l -> solid p) -> solid (POneOf l)
| solid_middle p1 p2 p3 : solid p2 -> solid (PMiddleOf p1 p2 p3)
| solid_foldl1 p v f : v <> VVoid -> solid_op f -> solid (PFoldl1 p (Some v) f)
| solid_foldl_swp p sp f : solid sp -> solid_op f -> solid (PFoldlStartWithParser p sp f)
| solid_foldl_ri_swp p sp f : solid sp -> solid_op f ->
    solid (PFoldlRejectIncompleteStartWithParser p sp f)
| solid_foldr_swp p sp f : solid sp -> solid_op f -> solid (PFoldrStartWithParser p sp f).

Lemma lfold_solid : forall f rs v w, solid_op f -> v <> VVoid -> lfold f rs v = Some w -> w <> VVoid.
Proof.
  intros f rs. induction rs as [|r rs IH]; intros v w S V L; cbn [lfold] in L; [congruence|].
  destruct (f v r) as [u|] eqn:F; [|discriminate L]. apply (IH u w S); auto. exact (S _ _ _ V F).
Qed.
Lemma rfold_solid : forall f rs v w, solid_op f -> v <> VVoid -> rfold f rs v = Some w -> w <> VVoid.
Proof.
  intros f rs. induction rs as [|r rs IH]; intros v w S V L; cbn [rfold] in L; [congruence|].
  destruct (rfold f rs v) as [u|] eqn:F; [|discriminate L].
  exact (S _ _ _ (IH _ _ S V F) L).
Qed.

Lemma results_solid : (forall k, solid (env k)) ->
  forall e s ps o, gives sd env e s ps o -> solid e ->
  forall v s' ps', o = Accept v s' ps' -> v <> VVoid.
Proof.
  intros HE.
  assert (X :
    (forall e s ps o, gives sd env e s ps o -> solid e -> forall v s' ps', o = Accept v s' ps' -> v <> VVoid)
    /\ (forall p s ps rs s' ps', many sd env p s ps rs s' ps' -> True)
    /\ (forall l s ps rs s' ps', in_turn sd env l s ps rs s' ps' ->
          Forall2 (fun e r => solid e -> r <> VVoid) l rs)
    /\ (forall l s ps m pe, breaks_off sd env l s ps m pe -> True)
    /\ (forall l s ps os, each sd env l s ps os ->
          Forall2 (fun e o => solid e -> forall v s' ps', o = Accept v s' ps' -> v <> VVoid) l os)).
  { apply rules_mind; intros; auto;
      try match goal with H : solid _ |- _ => inversion H; subst end;
      try match goal with H : _ = Accept _ _ _ |- _ => try discriminate H; try injection H as ? ? ?; subst end;
      eauto using Forall2.
    - match goal with H : Some _ = Some _ |- _ => injection H as <- end.
      eapply lfold_solid; eauto.
    - eapply lfold_solid; eauto.
    - eapply lfold_solid; eauto.
    - eapply rfold_solid; eauto.
    - match goal with F : first_accept _ _, A : forall p, In p _ -> solid p |- _ =>
        destruct F as (_ & o1 & o2 & -> & _); rename A into SA end.
      match goal with H : Forall2 _ ?l (o1 ++ _) |- _ => apply Forall2_app_inv_r in H as (l1 & l2 & _ & H & ->);
        inversion H; subst end.
      match goal with H : solid ?x -> forall v s ps, _ -> v <> VVoid |- _ => eapply (H (SA x _)); reflexivity end.
      Unshelve. apply in_app_iff. right. left. reflexivity.
    - match goal with H : Forall2 _ (_ :: _) _ |- _ => inversion H; subst; auto end.
    - repeat match goal with H : Forall2 _ (_ :: _) _ |- _ => inversion H; subst; clear H end. auto. }
  destruct X as (X & _). eauto.
Qed.
End Characters.
