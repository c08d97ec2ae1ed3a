(** Proofs about the part of the text a parser looks at (C79). *)

From Coq Require Import ZArith List Bool Lia.
From Verif Require Import Base Util Combinators Variadic Parsers Deep Spec SpecDeep SpecRules SpecCost SpecLocal
  Proofs_Pos Proofs_Parsers2 Proofs_Deep Proofs_Final1 Proofs_Rules Proofs_Cost Properties_Rules.
Import ListNotations.
Open Scope Z_scope.

Section Local.
Variable sd : std.
Variable env : program.
Variables t t' : str.

Definition quiet (a : application) : Prop :=
  forall e s ps, reaches sd env a (e, s, ps) -> unseen sd env t e s ps.

Lemma quiet_call : forall a b, quiet a -> calls sd env a b -> quiet b.
Proof. intros a b A C e s ps R. apply A. econstructor; eauto. Qed.

Lemma quiet_own : forall e s ps, quiet (e, s, ps) -> unseen sd env t e s ps.
Proof. intros e s ps Q. apply Q. constructor. Qed.

Ltac call := first
  [ apply calls_ref
  | apply calls_wraps; constructor
  | eapply calls_repeats; [constructor | eassumption]
  | eapply calls_repeats; [constructor | apply many_none]
  | eapply calls_iterate; [eassumption | lia]
  | eapply calls_start; constructor
  | eapply calls_after_start; [constructor | eassumption | eassumption]
  | eapply calls_last; eassumption
  | apply calls_one_of; assumption
  | eapply calls_in_turn; [constructor | eassumption] ].

Definition gives_local e s ps o := forall u, s = u ++ t -> quiet (e, s, ps) ->
  exists o', with_rest t t' o o' /\ gives sd env e (u ++ t') ps o'.
Definition many_local p s ps rs s' ps' := forall u, s = u ++ t ->
  (forall rs0 s0 ps0, many sd env p s ps rs0 s0 ps0 -> (length rs0 < length rs)%nat -> quiet (p, s0, ps0)) ->
  exists u', s' = u' ++ t /\ many sd env p (u ++ t') ps rs (u' ++ t') ps'.
Definition in_turn_local l s ps rs s' ps' := forall u, s = u ++ t ->
  (forall l1 q l2 rs0 s0 ps0, l = l1 ++ q :: l2 -> in_turn sd env l1 s ps rs0 s0 ps0 -> quiet (q, s0, ps0)) ->
  exists u', s' = u' ++ t /\ in_turn sd env l (u ++ t') ps rs (u' ++ t') ps'.
Definition breaks_local l s ps m pe := forall u, s = u ++ t ->
  (forall l1 q l2 rs0 s0 ps0, l = l1 ++ q :: l2 -> in_turn sd env l1 s ps rs0 s0 ps0 -> quiet (q, s0, ps0)) ->
  breaks_off sd env l (u ++ t') ps m pe.
Definition each_local l s ps os := forall u, s = u ++ t -> (forall p, In p l -> quiet (p, s, ps)) ->
  exists os', Forall2 (with_rest t t') os os' /\ each sd env l (u ++ t') ps os'.

Lemma gl_accept : forall e s ps r s' ps', gives_local e s ps (Accept r s' ps') -> forall u, s = u ++ t -> quiet (e, s, ps) ->
  exists u', s' = u' ++ t /\ gives sd env e (u ++ t') ps (Accept r (u' ++ t') ps').
Proof. intros e s ps r s' ps' L u E Q. destruct (L u E Q) as (o' & (w & -> & ->) & G). eauto. Qed.
Lemma gl_reject : forall e s ps m pe, gives_local e s ps (Reject m pe) -> forall u, s = u ++ t -> quiet (e, s, ps) ->
  gives sd env e (u ++ t') ps (Reject m pe).
Proof. intros e s ps m pe L u E Q. destruct (L u E Q) as (o' & W & G). simpl in W. subst. exact G. Qed.

Lemma split_head : forall (v u : str) c (s : str), v <> [] -> c :: s = v ++ t -> c :: s = u ++ t ->
  exists u', u = c :: u' /\ s = u' ++ t.
Proof.
  intros v u c s N E1 E2. rewrite E1 in E2. apply app_inv_tail in E2. subst u.
  destruct v as [|d v]; [congruence|]. injection E1 as <- ->. eauto.
Qed.

Lemma rest_reject : forall m pe o', with_rest t t' (Reject m pe) o' <-> o' = Reject m pe.
Proof. intros; simpl; tauto. Qed.

Lemma local_all :
  (forall e s ps o, gives sd env e s ps o -> gives_local e s ps o)
  /\ (forall p s ps rs s' ps', many sd env p s ps rs s' ps' -> many_local p s ps rs s' ps')
  /\ (forall l s ps rs s' ps', in_turn sd env l s ps rs s' ps' -> in_turn_local l s ps rs s' ps')
  /\ (forall l s ps m pe, breaks_off sd env l s ps m pe -> breaks_local l s ps m pe)
  /\ (forall l s ps os, each sd env l s ps os -> each_local l s ps os).
Proof.
  apply rules_mind; intros;
  match goal with
  | |- gives_local _ _ _ _ => let u := fresh "u" in let Q := fresh "Q" in intros u ? Q; pose proof (quiet_own _ _ _ Q) as Own; cbn [unseen] in Own
  | _ => idtac
  end;
  repeat match goal with
  | E : ?s = _ ++ t |- _ => is_var s; subst s
  | A : quiet ?a, L : gives_local ?e ?s ?ps (Accept _ _ _) |- _ =>
      let u := match s with ?u ++ t => u end in
      let N := fresh in assert (N : quiet (e, s, ps)) by (apply (quiet_call a _ A); call);
      apply (fun X => gl_accept _ _ _ _ _ _ X u eq_refl N) in L; destruct L as (? & ? & L)
  | A : quiet ?a, L : gives_local ?e ?s ?ps (Reject _ _) |- _ =>
      let u := match s with ?u ++ t => u end in
      let N := fresh in assert (N : quiet (e, s, ps)) by (apply (quiet_call a _ A); call);
      apply (fun X => gl_reject _ _ _ _ _ X u eq_refl N) in L
  | A : quiet ?a, L : many_local ?p (?u ++ t) ?ps ?rs ?s' ?ps' |- _ =>
      let N := fresh in
      assert (N : forall rs0 s0 ps0, many sd env p (u ++ t) ps rs0 s0 ps0 -> (length rs0 < length rs)%nat -> quiet (p, s0, ps0))
        by (intros; eapply quiet_call; [exact A | call]); 
      specialize (L u eq_refl N); destruct L as (? & ? & L)
  | A : quiet ?a, L : in_turn_local ?l (?u ++ t) ?ps ?rs ?s' ?ps' |- _ =>
      let N := fresh in
      assert (N : forall l1 q l2 rs0 s0 ps0, l = l1 ++ q :: l2 -> in_turn sd env l1 (u ++ t) ps rs0 s0 ps0 -> quiet (q, s0, ps0))
        by (intros; apply (quiet_call _ _ A); eapply calls_in_turn; [|eassumption];
            match goal with E : _ = _ ++ _ |- _ => rewrite <- E end; constructor; eauto);
      specialize (L u eq_refl N); destruct L as (? & ? & L)
  end;
  try (eexists; split; [apply rest_reject; reflexivity | solve [econstructor; eauto]]);
  try (eexists; split; [eexists; split; [reflexivity|reflexivity] | solve [econstructor; eauto]]).
  - (* native *) specialize (Own u eq_refl t'). exists (p (u ++ t') ps). rewrite H in Own. split; auto.
    destruct Own as (w & _ & E). rewrite E. apply g_native_accept. exact E.
  - specialize (Own u eq_refl t'). exists (p (u ++ t') ps). rewrite H in Own. split; auto.
    simpl in Own. rewrite Own. apply g_native_reject. exact Own.
  - (* ref *) destruct (H0 u eq_refl) as (o' & W & G); [apply (quiet_call _ _ Q); call|].
    exists o'. split; auto. apply g_ref. exact G.
  - (* one_char *) destruct Own as (v & N & E). destruct (split_head v u c s N E H0) as (u' & -> & ->).
    eexists. split; [exists u'; split; reflexivity|]. apply g_one_char. auto.
  - destruct Own as (v & N & E). destruct v; [congruence | discriminate].
  - (* empty *) destruct Own as (v & N & E). destruct v; [congruence | discriminate].
  - destruct Own as (v & N & E). destruct (split_head v u c s N E H) as (u' & -> & ->).
    eexists. split; [reflexivity|]. apply g_empty_more.
  - (* keyword *) destruct Own as (v & E & N). rewrite E in H0. apply app_inv_tail in H0. subst v.
    apply app_eq_app in E. destruct E as (l & [(-> & ->)|(-> & ->)]).
    + destruct l as [|c l]; [|exfalso; exact (N c l eq_refl)]. rewrite app_nil_r in *.
      eexists. split; [exists []; split; reflexivity|]. apply g_keyword. auto.
    + eexists. split; [exists l; split; reflexivity|]. rewrite <- app_assoc. apply g_keyword. auto.
  - destruct Own as (v & E & N). rewrite E in H1. apply app_inv_tail in H1. subst v.
    eexists. split; [reflexivity|].
    apply app_eq_app in E. destruct E as (l & [(-> & ->)|(-> & ->)]).
    + exfalso. destruct l as [|d l].
      * rewrite app_nil_r in N. exact (N c kw eq_refl).
      * apply (N d (l ++ c :: kw)). rewrite <- app_assoc. reflexivity.
    + destruct l as [|d l]; [exfalso; apply (N c kw); rewrite app_nil_r; reflexivity|].
      rewrite <- app_assoc. apply g_keyword_differs; auto.
  - (* one_of_c *) destruct Own as (v & N & E). destruct (split_head v u c s N E H1) as (u' & -> & ->).
    eexists. split; [exists u'; split; reflexivity|]. apply g_one_of_c; auto.
  - destruct Own as (v & N & E). apply app_inv_tail in E. subst v. destruct u as [|c u]; [congruence|].
    eexists. split; [reflexivity|].
    replace (one_of_c_error sd cs ((c :: u) ++ t)) with (one_of_c_error sd cs ((c :: u) ++ t')) by reflexivity.
    apply g_one_of_c_error. auto.
  - (* one_char_except *) destruct Own as (v & N & E). destruct (split_head v u c s N E H1) as (u' & -> & ->).
    eexists. split; [exists u'; split; reflexivity|]. apply g_one_char_except; auto.
  - destruct Own as (v & N & E). destruct (split_head v u c s N E H0) as (u' & -> & ->).
    eexists. split; [reflexivity|]. apply g_one_char_except_excluded; auto.
  - destruct Own as (v & N & E). destruct v; [congruence | discriminate].
  - (* transform_error *) exists o. split.
    + match goal with H : is_accept o \/ is_reject o |- _ => destruct H as [A|(m' & pe' & ->)] end; [|reflexivity].
      exfalso. subst o. eapply Own; eauto.
    + eapply g_transform_error; eauto.
  - (* one_of *) destruct (H0 u eq_refl) as (os' & F & G); [intros q I; apply (quiet_call _ _ Q); call|].
    destruct H1 as ((r & s1 & ps1 & ->) & os1 & os2 & -> & R).
    apply Forall2_app_inv_l in F as (l1 & l2 & F1 & F2 & ->). inversion F2 as [|? o' ? l3 W F3]; subst.
    exists o'. split; auto. destruct W as (w & -> & ->). eapply g_one_of; [exact G|]. split; [do 3 eexists; reflexivity|].
    exists l1, l3. split; auto. clear - F1 R.
    induction F1 as [|a b l1 l2 W F IH]; [constructor|]. inversion R as [|? ? (m & pe & ->) R']; subst. simpl in W. subst.
    constructor; auto. do 2 eexists; reflexivity.
  - destruct (H0 u eq_refl) as (os' & F & G); [intros q I; apply (quiet_call _ _ Q); call|].
    eexists. split; [reflexivity|]. eapply g_one_of_fails; [exact G | | exact H2].
    unfold rejections in *. subst os. clear - F. revert os' F.
    induction es as [|e es IH]; intros os' F; inversion F; subst; auto. simpl in *. subst. f_equal. auto.
  - eexists. split; [reflexivity|]. apply g_sequence_fails. apply H0; auto. intros; subst. apply (quiet_call _ _ Q). call.
  - eexists. split; [reflexivity|]. apply g_sequence_apply_fails. apply H0; auto. intros; subst. apply (quiet_call _ _ Q). call.
  - destruct (H0 u eq_refl) as (u' & -> & G).
    { intros; subst. apply (quiet_call _ _ Q).
      eapply calls_in_turn; [|eassumption]. constructor. apply in_turn_length in H. rewrite <- H.
      assert (X : nth_error rs (Z.to_nat k) <> None) by congruence. apply nth_error_Some in X. lia. }
    eexists. split; [exists u'; split; reflexivity|]. eapply g_nth_of; eauto.
  - eexists. split; [reflexivity|]. apply g_nth_of_fails; auto. apply H0; auto. intros; subst. apply (quiet_call _ _ Q).
    eapply calls_in_turn; [|eassumption]. constructor. auto.
  - eexists. split; [reflexivity|]. apply g_first_of_fails. apply H0; auto. intros; subst. apply (quiet_call _ _ Q). call.
  - eexists. split; [reflexivity|]. apply g_last_of_fails. apply H0; auto. intros; subst. apply (quiet_call _ _ Q). call.
  - (* middle_of *) eexists. split; [reflexivity|]. apply g_middle_of_fails. apply H0; auto. intros. apply (quiet_call _ _ Q).
    eapply (calls_in_turn _ _ _ l1 q (l2 ++ [p3])); [|eassumption].
    replace (l1 ++ q :: l2 ++ [p3]) with ([p1; p2] ++ [p3]) by (rewrite H1, <- app_assoc; reflexivity). constructor.
  - destruct (H0 u eq_refl) as (u' & -> & G).
    { intros. apply (quiet_call _ _ Q).
      eapply (calls_in_turn _ _ _ l1 q (l2 ++ [p3])); [|eassumption].
      replace (l1 ++ q :: l2 ++ [p3]) with ([p1; p2] ++ [p3]) by (rewrite H3, <- app_assoc; reflexivity). constructor. }
    eexists. split; [reflexivity|]. eapply g_middle_of_unpaired; [exact G|]. apply (gl_reject _ _ _ _ _ H2 u' eq_refl).
    apply (quiet_call _ _ Q). eapply (calls_in_turn _ _ _ [p1; p2] p3 []); [constructor|eassumption].
  - (* entire_input *) destruct (Own _ _ _ H) as (v & N & E). destruct v; [congruence | discriminate].
  - destruct (Own _ _ _ H) as (v & N & E).
    match goal with X : c :: s' = x ++ t |- _ => destruct (split_head v x c s' N E X) as (u' & -> & ->) end.
    eexists. split; [reflexivity|]. eapply g_entire_input_more; eauto.
  - (* many *) intros u -> _. exists u. split; [auto | constructor].
  - intros u -> Q. edestruct (gl_accept _ _ _ _ _ _ H0 u eq_refl) as (u1 & -> & G1).
    { apply (Q [] (u ++ t) ps); [constructor | simpl; lia]. }
    destruct (H2 u1 eq_refl) as (u2 & -> & G2).
    { intros. apply (Q (r :: rs0) s0 ps0); [econstructor; eauto | simpl; lia]. }
    exists u2. split; auto. econstructor; eauto.
  - (* in_turn *) intros u -> _. exists u. split; [auto | constructor].
  - intros u -> Q. edestruct (gl_accept _ _ _ _ _ _ H0 u eq_refl) as (u1 & -> & G1).
    { apply (Q [] p l [] (u ++ t) ps); [reflexivity | constructor]. }
    destruct (H2 u1 eq_refl) as (u2 & -> & G2).
    { intros. subst. apply (Q (p :: l1) q l2 (r :: rs0) s0 ps0); [reflexivity | econstructor; eauto]. }
    exists u2. split; auto. econstructor; eauto.
  - intros u -> Q. apply breaks_off_here. apply (gl_reject _ _ _ _ _ H0 u eq_refl).
    apply (Q [] p l [] (u ++ t) ps); [reflexivity | constructor].
  - intros u -> Q. edestruct (gl_accept _ _ _ _ _ _ H0 u eq_refl) as (u1 & -> & G1).
    { apply (Q [] p l [] (u ++ t) ps); [reflexivity | constructor]. }
    eapply breaks_off_later; [exact G1|]. apply (H2 u1 eq_refl).
    intros. subst. apply (Q (p :: l1) q l2 (r :: rs0) s0 ps0); [reflexivity | econstructor; eauto].
  - (* each *) intros u -> _. exists []. split; constructor.
  - intros u -> Q. destruct (H0 u eq_refl) as (o' & W & G); [apply Q; left; reflexivity|].
    destruct (H2 u eq_refl) as (os' & F & E); [intros; apply Q; right; auto|].
    exists (o' :: os'). split; constructor; auto.
Qed.

Lemma local_gives : forall e u ps o, gives sd env e (u ++ t) ps o -> never_seen sd env t e (u ++ t) ps ->
  exists o', with_rest t t' o o' /\ gives sd env e (u ++ t') ps o'.
Proof. intros e u ps o G Q. exact (proj1 local_all _ _ _ _ G u eq_refl Q). Qed.

End Local.

(** Reaching only texts with [n] more characters before the unseen rest. *)
Lemma far_enough : forall cfg env n t e s ps, let sd := cfg_std cfg in
  program_every (needs_at_most n) env -> every (needs_at_most n) e ->
  (forall e1 s1 ps1, reaches sd env (e, s, ps) (e1, s1, ps1) -> exists v, (n <= length v)%nat /\ s1 = v ++ t) ->
  never_seen sd env t e s ps.
Proof.
  intros cfg env n t e s ps sd HE He F e1 s1 ps1 R. destruct (F _ _ _ R) as (v & L & ->).
  assert (P : forall a b, reaches sd env a b -> every (needs_at_most n) (fst (fst a)) -> every (needs_at_most n) (fst (fst b))).
  { induction 1 as [|((x & y) & z) ((x' & y') & z') c C R' IH]; intros E; auto. apply IH. cbn [fst] in *.
    destruct (call_part _ _ _ _ _ _ _ _ C) as [I|(k & -> & ->)]; [eapply every_children; eauto | apply HE]. }
  specialize (P _ _ R He). cbn [fst] in P. inversion P as [? N _]; subst.
  destruct e1; cbn [unseen needs_at_most] in *; auto; try contradiction;
    try (exists v; split; [destruct v; [simpl in L; lia | discriminate] | reflexivity]).
  - intros m pe _ (r & s' & ps' & E). exact (N _ _ _ _ _ E).
  - exists v. split; auto. intros c k ->. rewrite app_length in N. simpl in N. lia.
Qed.
