(** Proofs about the applications of parsers (C78). *)

From Coq Require Import ZArith List Bool Lia Wellfounded Relations.
From Verif Require Import Base Util Combinators Variadic Parsers Deep Spec SpecDeep SpecRules SpecCost
  Proofs_Pos Proofs_Parsers2 Proofs_Deep Proofs_Final1 Proofs_Rules Properties_Rules.
Import ListNotations.
Open Scope Z_scope.

Section Env.
Variable sd : std.
Variables env env' : program.

(** ** The result depends on the applications only *)

Definition alike (a : application) : Prop := forall k s ps o, reaches sd env a (PRef k, s, ps) ->
  gives sd env (env k) s ps o -> gives sd env' (env' k) s ps o.

Lemma alike_call : forall a b, alike a -> calls sd env a b -> alike b.
Proof. intros a b A C k s ps o R. apply A. econstructor; eauto. Qed.

Lemma in_turn_length : forall l s ps rs s' ps', in_turn sd env l s ps rs s' ps' -> length rs = length l.
Proof. induction 1; simpl; auto. Qed.

Hint Constructors wraps repeats starts_with : cost.

Ltac call := first
  [ apply calls_ref
  | apply calls_wraps; constructor
  | eapply calls_repeats; [constructor | eassumption]
  | eapply calls_repeats; [constructor | apply many_none]
  | eapply calls_iterate; [eassumption | lia]
  | eapply calls_start; constructor
  | eapply calls_after_start; [constructor | eassumption | eassumption]
  | eapply calls_last; eassumption
  | apply calls_one_of; assumption
  | eapply calls_in_turn; [constructor | eassumption] ].

Lemma depends_all :
  (forall e s ps o, gives sd env e s ps o -> alike (e, s, ps) -> gives sd env' e s ps o)
  /\ (forall p s ps rs s' ps', many sd env p s ps rs s' ps' ->
     (forall rs0 s0 ps0, many sd env p s ps rs0 s0 ps0 -> (length rs0 < length rs)%nat -> alike (p, s0, ps0)) ->
     many sd env' p s ps rs s' ps')
  /\ (forall l s ps rs s' ps', in_turn sd env l s ps rs s' ps' ->
     (forall l1 q l2 rs0 s0 ps0, l = l1 ++ q :: l2 -> in_turn sd env l1 s ps rs0 s0 ps0 -> alike (q, s0, ps0)) ->
     in_turn sd env' l s ps rs s' ps')
  /\ (forall l s ps m pe, breaks_off sd env l s ps m pe ->
     (forall l1 q l2 rs0 s0 ps0, l = l1 ++ q :: l2 -> in_turn sd env l1 s ps rs0 s0 ps0 -> alike (q, s0, ps0)) ->
     breaks_off sd env' l s ps m pe)
  /\ (forall l s ps os, each sd env l s ps os -> (forall p, In p l -> alike (p, s, ps)) -> each sd env' l s ps os).
Proof.
  apply rules_mind; intros;
  repeat match goal with
  | A : alike ?a, IH : alike ?b -> gives sd env' _ _ _ _ |- _ =>
      let N := fresh in assert (N : alike b) by (apply (alike_call a b A); call); specialize (IH N)
  | A : alike ?a, IH : (forall rs0 s0 ps0, many sd env ?p ?s ?ps rs0 s0 ps0 -> (length rs0 < length ?rs)%nat -> alike (?p, s0, ps0)) -> _ |- _ =>
      let N := fresh in
      assert (N : forall rs0 s0 ps0, many sd env p s ps rs0 s0 ps0 -> (length rs0 < length rs)%nat -> alike (p, s0, ps0))
        by (intros; eapply alike_call; [exact A | call]); specialize (IH N)
  | A : alike (?e, ?s, ?ps), IH : (forall l1 q l2 rs0 s0 ps0, ?l = l1 ++ q :: l2 -> in_turn sd env l1 ?s ?ps rs0 s0 ps0 -> alike (q, s0, ps0)) -> _,
    Z : in_turn sd env ?l _ _ _ _ _ |- _ =>
      let N := fresh in
      assert (N : forall l1 q l2 rs0 s0 ps0, l = l1 ++ q :: l2 -> in_turn sd env l1 s ps rs0 s0 ps0 -> alike (q, s0, ps0))
        by (intros; apply (alike_call _ _ A); eapply calls_in_turn; [|eassumption]; 
            match goal with E : _ = _ ++ _ |- _ => rewrite <- E end; constructor; eauto); specialize (IH N)
  end; try (econstructor; eauto; fail).
  - (* ref *) apply g_ref. eapply H1; [apply reaches_itself | exact H].
  - (* one_of *) eapply g_one_of; [apply H0|exact H1]. intros p I. apply (alike_call _ _ H2). call.
  - eapply g_one_of_fails; [apply H0|exact H1|exact H2]. intros p I. apply (alike_call _ _ H3). call.
  - apply g_sequence_fails. apply H0. intros; subst. apply (alike_call _ _ H1). call.
  - apply g_sequence_apply_fails. apply H0. intros; subst. apply (alike_call _ _ H1). call.
  - eapply g_nth_of; eauto. apply H0. intros; subst. apply (alike_call _ _ H3).
    eapply calls_in_turn; [|eassumption]. constructor. apply in_turn_length in H. rewrite <- H.
    assert (X : nth_error rs (Z.to_nat k) <> None) by congruence. apply nth_error_Some in X. lia.
  - apply g_nth_of_fails; auto. apply H0. intros; subst. apply (alike_call _ _ H2).
    eapply calls_in_turn; [|eassumption]. constructor. auto.
  - apply g_first_of_fails. apply H0. intros; subst. apply (alike_call _ _ H1). call.
  - apply g_last_of_fails. apply H0. intros; subst. apply (alike_call _ _ H1). call.
  - apply g_middle_of_fails. apply H0. intros. apply (alike_call _ _ H1).
    eapply (calls_in_turn _ _ _ l1 q (l2 ++ [p3])); [|eassumption].
    replace (l1 ++ q :: l2 ++ [p3]) with ([p1; p2] ++ [p3]) by (rewrite H2, <- app_assoc; reflexivity). constructor.
  - eapply g_middle_of_unpaired.
    + apply H0. intros. apply (alike_call _ _ H3).
      eapply (calls_in_turn _ _ _ l1 q (l2 ++ [p3])); [|eassumption].
      replace (l1 ++ q :: l2 ++ [p3]) with ([p1; p2] ++ [p3]) by (rewrite H4, <- app_assoc; reflexivity). constructor.
    + apply H2. apply (alike_call _ _ H3). eapply (calls_in_turn _ _ _ [p1; p2] p3 []); [constructor|eassumption].
  - (* many *) eapply many_more.
    + apply H0. apply (H3 [] s ps); [constructor | simpl; lia].
    + apply H2. intros. apply (H3 (r :: rs0) s0 ps0); [econstructor; eauto | simpl; lia].
  - (* in_turn *) eapply in_turn_cons.
    + apply H0. apply (H3 [] p l [] s ps); [reflexivity | constructor].
    + apply H2. intros. subst. apply (H3 (p :: l1) q l2 (r :: rs0) s0 ps0); [reflexivity | econstructor; eauto].
  - apply breaks_off_here. apply H0. apply (H1 [] p l [] s ps); [reflexivity | constructor].
  - eapply breaks_off_later.
    + apply H0. apply (H3 [] p l [] s ps); [reflexivity | constructor].
    + apply H2. intros. subst. apply (H3 (p :: l1) q l2 (r :: rs0) s0 ps0); [reflexivity | econstructor; eauto].
  - apply each_cons; [apply H0; apply H3; left; reflexivity | apply H2; intros; apply H3; right; auto].
Qed.

Lemma depends_on_calls : forall e s ps o, gives sd env e s ps o -> alike (e, s, ps) -> gives sd env' e s ps o.
Proof. exact (proj1 depends_all). Qed.

End Env.

(** ** The tree of applications *)

Section Tree.
Variable cfg : config.
Variable env : program.
Hypothesis HE : program_every (fits cfg) env.
Local Notation sd := (cfg_std cfg).
Local Notation fitting := (every (fits cfg)).

Inductive tree : application -> Prop :=
| tree_node e s ps o : gives sd env e s ps o -> (forall b, calls sd env (e, s, ps) b -> tree b) -> tree (e, s, ps).

Lemma one_result : forall e s ps o1 o2, fitting e -> gives sd env e s ps o1 -> gives sd env e s ps o2 -> o1 = o2.
Proof. intros e s ps o1 o2 F G1 G2. exact (C64_at_most_one_result cfg env e HE F s ps o1 o2 G1 G2). Qed.

Lemma many_cases : forall p s ps rs s' ps', many sd env p s ps rs s' ps' -> fitting p ->
  forall rs0 s0 ps0 m pe, many sd env p s ps rs0 s0 ps0 -> gives sd env p s' ps' (Reject m pe) ->
  (length rs0 < length rs)%nat \/ (s0 = s' /\ ps0 = ps').
Proof.
  intros p s ps rs s' ps' M F. induction M as [p s ps|p s ps r s1 ps1 rs s2 ps2 G M IH]; intros rs0 s0 ps0 m pe M0 R.
  - inversion M0; subst; auto. pose proof (one_result _ _ _ _ _ F R H). discriminate.
  - inversion M0; subst; [left; simpl; lia|]. pose proof (one_result _ _ _ _ _ F G H) as E.
    injection E as <- <- <-. destruct (IH F _ _ _ _ _ H0 R); [left; simpl; lia | right; auto].
Qed.

Lemma many_same_end : forall p s ps rs s' ps' rs0 s0 ps0 m pe m0 pe0, fitting p ->
  many sd env p s ps rs s' ps' -> gives sd env p s' ps' (Reject m pe) ->
  many sd env p s ps rs0 s0 ps0 -> gives sd env p s0 ps0 (Reject m0 pe0) -> s0 = s' /\ ps0 = ps'.
Proof.
  intros p s ps rs s' ps' rs0 s0 ps0 m pe m0 pe0 F M R M0 R0.
  destruct (many_cases _ _ _ _ _ _ M F _ _ _ _ _ M0 R) as [L|?]; auto.
  destruct (many_cases _ _ _ _ _ _ M0 F _ _ _ _ _ M R0) as [L0|(-> & ->)]; auto. lia.
Qed.

Lemma in_turn_one : forall l s ps rs s' ps', in_turn sd env l s ps rs s' ps' -> (forall c, In c l -> fitting c) ->
  forall rs0 s0 ps0, in_turn sd env l s ps rs0 s0 ps0 -> s0 = s' /\ ps0 = ps'.
Proof.
  induction 1 as [|p l s ps r s1 ps1 rs s2 ps2 G I IH]; intros F rs0 s0 ps0 I0.
  - inversion I0; subst. auto.
  - inversion I0 as [|q l' t pt r' t1 pt1 rs' t2 pt2 G' I']; subst.
    pose proof (one_result _ _ _ _ _ (F p (or_introl eq_refl)) G G') as E. injection E as <- <- <-.
    eapply IH; eauto. intros; apply F; right; auto.
Qed.
Lemma in_turn_not_breaks : forall l s ps rs s' ps', in_turn sd env l s ps rs s' ps' -> (forall c, In c l -> fitting c) ->
  forall m pe, ~ breaks_off sd env l s ps m pe.
Proof.
  induction 1 as [|p l s ps r s1 ps1 rs s2 ps2 G I IH]; intros F m pe B.
  - inversion B.
  - inversion B as [q l' t pt m' pe' G'|q l' t pt r' t1 pt1 m' pe' G' B']; subst;
      pose proof (one_result _ _ _ _ _ (F p (or_introl eq_refl)) G G') as E; [discriminate|].
    injection E as <- <- <-. eapply IH; eauto. intros; apply F; right; auto.
Qed.

Ltac open_calls := repeat match goal with
    | W : wraps _ _ |- _ => inversion W; subst; clear W
    | W : repeats _ _ |- _ => inversion W; subst; clear W
    | W : starts_with _ _ _ |- _ => inversion W; subst; clear W
    | W : chains _ _ |- _ => inversion W; subst; clear W
    end.
Ltac fit := match goal with CH : forall c, In c _ -> every _ c |- every _ ?p => apply CH; cbn; tauto end.
Ltac same_start := match goal with
  | G : gives _ _ ?sp ?s ?ps ?o1, G0 : gives _ _ ?sp ?s ?ps (Accept ?v ?s1 ?ps1) |- tree _ =>
      lazymatch o1 with Accept v s1 ps1 => fail | _ => idtac end;
      let E := fresh in assert (E : o1 = Accept v s1 ps1) by (eapply (one_result sp); [fit | exact G | exact G0]);
      first [discriminate E | injection E as -> -> ->; clear G]
  end.
Ltac by_fold := match goal with
  | M : many _ _ ?p ?s ?ps ?rs ?s' ?ps', R : gives _ _ ?p ?s' ?ps' (Reject ?m ?pe), M0 : many _ _ ?p ?s ?ps ?rs0 ?s0 ?ps0
    |- tree (?p, ?s0, ?ps0) =>
      let L := fresh in
      destruct (many_cases p s ps rs s' ps' M ltac:(fit) rs0 s0 ps0 m pe M0 R) as [L|(-> & ->)]; eauto; fail
  | R : gives _ _ ?p ?s ?ps (Reject ?m ?pe), M0 : many _ _ ?p ?s ?ps ?rs0 ?s0 ?ps0 |- tree (?p, ?s0, ?ps0) =>
      let L := fresh in
      destruct (many_cases p s ps [] s ps (many_none _ _ _ _ _) ltac:(fit) rs0 s0 ps0 m pe M0 R) as [L|(-> & ->)];
        [simpl in L; lia | eauto; fail]
  | M : many _ _ ?p ?s ?ps ?rs ?s' ?ps', R : gives _ _ ?p ?s' ?ps' (Reject ?m ?pe),
    M0 : many _ _ ?p ?s ?ps ?rs0 ?s0 ?ps0, R0 : gives _ _ ?p ?s0 ?ps0 (Reject _ _), T : tree (?sp, ?s', ?ps') |- tree (?sp, ?s0, ?ps0) =>
      destruct (many_same_end p s ps rs s' ps' rs0 s0 ps0 _ _ _ _ ltac:(fit) M R M0 R0) as (-> & ->); exact T
  end.

Lemma tree_all :
  (forall e s ps o, gives sd env e s ps o -> fitting e -> tree (e, s, ps))
  /\ (forall p s ps rs s' ps', many sd env p s ps rs s' ps' -> fitting p ->
     forall rs0 s0 ps0, many sd env p s ps rs0 s0 ps0 -> (length rs0 < length rs)%nat -> tree (p, s0, ps0))
  /\ (forall l s ps rs s' ps', in_turn sd env l s ps rs s' ps' -> (forall c, In c l -> fitting c) ->
     forall l1 q l2 rs0 s0 ps0, l = l1 ++ q :: l2 -> in_turn sd env l1 s ps rs0 s0 ps0 -> tree (q, s0, ps0))
  /\ (forall l s ps m pe, breaks_off sd env l s ps m pe -> (forall c, In c l -> fitting c) ->
     forall l1 q l2 rs0 s0 ps0, l = l1 ++ q :: l2 -> in_turn sd env l1 s ps rs0 s0 ps0 -> tree (q, s0, ps0))
  /\ (forall l s ps os, each sd env l s ps os -> (forall c, In c l -> fitting c) ->
     forall q, In q l -> tree (q, s, ps)).
Proof.
  apply rules_mind; intros;
  repeat match goal with
  | EV : every _ ?e |- tree _ => is_var e; fail 1
  | EV : every _ ?e |- tree _ =>
    let e0 := fresh in let FT := fresh "FT" in let CH := fresh "CH" in
    inversion EV as [e0 FT CH]; subst e0; cbn [fits children] in FT, CH; clear EV
  end;
  repeat match goal with
  | CH : forall c, In c _ -> every _ c, IH : every _ ?p -> _ |- _ =>
      specialize (IH (CH p ltac:(cbn; tauto)))
  | CH : forall c, In c ?l -> every _ c, IH : (forall c, In c ?l -> every _ c) -> _ |- _ =>
      specialize (IH CH)
  end.
  all: try (match goal with |- tree (?e, ?s, ?ps) => idtac end;
    eapply tree_node; [solve [econstructor; eauto]|]; intros b C; inversion C; subst;
    repeat match goal with
    | W : wraps _ _ |- _ => inversion W; subst; clear W
    | W : repeats _ _ |- _ => inversion W; subst; clear W
    | W : starts_with _ _ _ |- _ => inversion W; subst; clear W
    | W : chains _ _ |- _ => inversion W; subst; clear W
    end; eauto; fail).
  all: try (match goal with |- tree (?e, ?s, ?ps) => idtac end;
    eapply tree_node; [solve [econstructor; eauto]|]; intros b C; inversion C; subst; open_calls; auto;
    repeat same_start; by_fold).
  - eapply tree_node; [eapply g_iterate; eauto|]. intros b C. inversion C; subst; open_calls.
    eapply H0; eauto. lia.
  - eapply tree_node; [apply g_nth_of_range; eauto|]. intros b C. inversion C; subst; open_calls. lia.
  - eapply tree_node; [apply g_first_of_none|]. intros b C. inversion C; subst; open_calls. destruct l1; discriminate.
  - eapply tree_node; [apply g_last_of_none|]. intros b C. inversion C; subst; open_calls. destruct l1; discriminate.
  - assert (F2 : forall c, In c [p1; p2] -> fitting c) by (intros c [<-|[<-|[]]]; apply CH; cbn; auto).
    eapply tree_node; [apply g_middle_of_fails; eauto|]. intros b C. inversion C; subst; open_calls.
    match goal with E : [p1; p2; p3] = _, I : in_turn _ _ l1 _ _ _ _ _ |- _ =>
      destruct l1 as [|x [|y [|z l1]]]; cbn [app] in E;
      [injection E as <- <- | injection E as <- <- <- | injection E as <- <- <- <- | injection E as <- <- <- E; destruct l1; discriminate] end.
    + eapply (H0 F2 [] p1 [p2]); eauto.
    + eapply (H0 F2 [p1] p2 []); eauto.
    + exfalso. eapply in_turn_not_breaks; eauto.
  - assert (F2 : forall c, In c [p1; p2] -> fitting c) by (intros c [<-|[<-|[]]]; apply CH; cbn; auto).
    eapply tree_node; [eapply g_middle_of_unpaired; eauto|]. intros b C. inversion C; subst; open_calls.
    match goal with E : [p1; p2; p3] = _, I : in_turn _ _ l1 _ _ _ _ _ |- _ =>
      destruct l1 as [|x [|y [|z l1]]]; cbn [app] in E;
      [injection E as <- <- | injection E as <- <- <- | injection E as <- <- <- <- | injection E as <- <- <- E; destruct l1; discriminate] end.
    + eapply (H0 F2 [] p1 [p2]); eauto.
    + eapply (H0 F2 [p1] p2 []); eauto.
    + match goal with I : in_turn _ _ [p1; p2] _ _ ?r ?x ?y |- tree (p3, ?x, ?y) =>
        destruct (in_turn_one _ _ _ _ _ _ H F2 _ _ _ I) as (-> & ->) end. exact H2.
  - simpl in H1. lia.
  - inversion H4; subst; [auto|]. match goal with G : gives _ _ p s ps (Accept _ _ _), G' : gives _ _ p s ps (Accept _ _ _) |- _ =>
      pose proof (one_result _ _ _ _ _ H3 H G) as E; injection E as <- <- <- end.
    eapply H2; eauto. simpl in H5. lia.
  - destruct l1; discriminate.
  - destruct l1 as [|x l1]; injection H4 as <- H4.
    + inversion H5; subst. exact H0.
    + inversion H5; subst. match goal with G : gives _ _ p s ps (Accept ?a ?b ?c), I : in_turn _ _ l1 ?b ?c _ _ _ |- _ =>
        pose proof (one_result _ _ _ _ _ (H3 p (or_introl eq_refl)) H G) as E; injection E as <- <- <- end.
      eapply (H2 (fun c K => H3 c (or_intror K)) l1 q l2); eauto.
  - destruct l1 as [|x l1]; injection H2 as <- H2.
    + inversion H3; subst. exact H0.
    + inversion H3; subst. match goal with G : gives _ _ p s ps (Accept ?a ?b ?c), I : in_turn _ _ l1 ?b ?c _ _ _ |- _ =>
        pose proof (one_result _ _ _ _ _ (H1 p (or_introl eq_refl)) H G) as E; discriminate E end.
  - destruct l1 as [|x l1]; injection H4 as <- H4.
    + inversion H5; subst. exact H0.
    + inversion H5; subst. match goal with G : gives _ _ p s ps (Accept ?a ?b ?c), I : in_turn _ _ l1 ?b ?c _ _ _ |- _ =>
        pose proof (one_result _ _ _ _ _ (H3 p (or_introl eq_refl)) H G) as E; injection E as <- <- <- end.
      eapply (H2 (fun c K => H3 c (or_intror K)) l1 q l2); eauto.
  - destruct H0.
  - destruct H4 as [<-|H4]; [exact H0|]. apply H2; auto. intros c K. apply H3. right. auto.
Qed.

Lemma gives_tree : forall e s ps o, fitting e -> gives sd env e s ps o -> tree (e, s, ps).
Proof. intros e s ps o F G. exact (proj1 tree_all e s ps o G F). Qed.

Lemma tree_result : forall a, tree a -> exists o, gives sd env (fst (fst a)) (snd (fst a)) (snd a) o.
Proof. intros a T. destruct T as [e s ps o G _]. simpl. eauto. Qed.

Lemma tree_reaches : forall a b, reaches sd env a b -> tree a -> tree b.
Proof. induction 1; intros T; auto. apply IHreaches. inversion T; subst. auto. Qed.

(** No application needs itself. *)
Inductive needs : application -> application -> Prop :=
| needs_call a b : calls sd env a b -> needs a b
| needs_more a b c : calls sd env a b -> needs b c -> needs a c.

Lemma needs_trans : forall a b, needs a b -> forall c, needs b c -> needs a c.
Proof. induction 1; intros; [eapply needs_more; eauto | eapply needs_more; eauto]. Qed.

Lemma tree_acyclic : forall a, tree a -> ~ needs a a.
Proof.
  intros a T. induction T as [e s ps o G Ch IH]. intros N.
  inversion N as [a b C|a b c C N']; subst.
  - apply (IH _ C). exact N.
  - apply (IH b C). eapply needs_trans; [exact N'|]. apply needs_call. exact C.
Qed.

Lemma chain_needs : forall a l, call_chain sd env a l -> forall b, In b (tl l) -> needs a b.
Proof.
  induction 1 as [a|a b l C Ch IH]; intros x I; simpl in I; [destruct I|].
  assert (H : l = b :: tl l) by (inversion Ch; reflexivity). rewrite H in I.
  destruct I as [<-|I]; [apply needs_call; auto | eapply needs_more; eauto].
Qed.
Lemma chain_reaches : forall a l, call_chain sd env a l -> forall b, In b l -> reaches sd env a b.
Proof.
  induction 1 as [a|a b l C Ch IH]; intros x [<-|I]; try constructor; [destruct I|]. eapply reaches_more; eauto.
Qed.
Lemma chain_nodup : forall a l, call_chain sd env a l -> tree a -> NoDup l.
Proof.
  induction 1 as [a|a b l C Ch IH]; intros T; [repeat constructor; intros []|].
  constructor.
  - intros I. apply (tree_acyclic _ T). apply (chain_needs _ _ (chain_more _ _ _ _ _ C Ch)). exact I.
  - apply IH. inversion T; subst. auto.
Qed.

(** ** How many *)

Hypothesis HN : program_every (natives sound_accept keeps_errors) env.
Local Notation sane := (every (natives sound_accept keeps_errors)).

Lemma gives_walks : forall e s ps r s' ps', fitting e -> sane e -> gives sd env e s ps (Accept r s' ps') ->
  exists w, s = w ++ s' /\ walk ps w ps'.
Proof.
  intros e s ps r s' ps' F N G. apply (C64_the_rules_are_exact cfg env e HE F) in G as (n & E); [|left; do 3 eexists; reflexivity].
  apply (eval_sound_accept cfg env n e HN N) in E. exact E.
Qed.

Lemma many_walks : forall p s ps rs s' ps', many sd env p s ps rs s' ps' -> fitting p -> sane p ->
  exists w, s = w ++ s' /\ walk ps w ps'.
Proof.
  induction 1 as [p s ps|p s ps r s1 ps1 rs s2 ps2 G M IH]; intros F N; [exists []; split; [reflexivity|constructor]|].
  apply gives_walks in G as (w & -> & W); auto. destruct (IH F N) as (w2 & -> & W2).
  exists (w ++ w2). split; [apply app_assoc | eapply walk_app; eauto].
Qed.
Lemma in_turn_walks : forall l s ps rs s' ps', in_turn sd env l s ps rs s' ps' ->
  (forall c, In c l -> fitting c /\ sane c) -> exists w, s = w ++ s' /\ walk ps w ps'.
Proof.
  induction 1 as [|p l s ps r s1 ps1 rs s2 ps2 G I IH]; intros F; [exists []; split; [reflexivity|constructor]|].
  destruct (F p (or_introl eq_refl)) as (Fp & Np).
  apply gives_walks in G as (w & -> & W); auto. destruct (IH (fun c K => F c (or_intror K))) as (w2 & -> & W2).
  exists (w ++ w2). split; [apply app_assoc | eapply walk_app; eauto].
Qed.

Lemma every_children : forall Q e c, every Q e -> In c (children e) -> every Q c.
Proof. intros Q e c E. inversion E; subst. auto. Qed.

(** The parser of a call is a part of the calling parser, or its definition. *)
Lemma call_part : forall e s ps e' s' ps', calls sd env (e, s, ps) (e', s', ps') ->
  In e' (children e) \/ exists k, e = PRef k /\ e' = env k.
Proof.
  intros e s ps e' s' ps' C. inversion C; subst; open_calls; eauto; left; simpl; auto;
    try (match goal with E : ?l = _ |- In _ ?l => rewrite E end); try (apply in_or_app; simpl; auto; fail).
  match goal with E : [p1; p2; p3] = l1 ++ e' :: l2 |- _ => 
    assert (K : In e' [p1; p2; p3]) by (rewrite E; apply in_or_app; simpl; auto) end. exact K.
Qed.

Lemma call_walks : forall e s ps e' s' ps', calls sd env (e, s, ps) (e', s', ps') -> fitting e -> sane e ->
  (fitting e' /\ sane e') /\ exists w, s = w ++ s' /\ walk ps w ps'.
Proof.
  intros e s ps e' s' ps' C F N. assert (K : forall c, In c (children e) -> fitting c /\ sane c)
    by (intros c I; split; eapply every_children; eauto).
  split.
  - destruct (call_part _ _ _ _ _ _ C) as [I|(k & -> & ->)]; auto.
  - assert (Z : exists w, s = w ++ s /\ walk ps w ps) by (exists []; split; [reflexivity|constructor]).
    inversion C; subst; open_calls; auto;
      try (match goal with M : many _ _ ?q _ _ _ _ _ |- _ => destruct (K q (or_introl eq_refl)) as (Fe & Ne);
        apply many_walks in M; auto; fail end).
    all: try (match goal with G : gives _ _ ?sp _ _ (Accept _ ?s1 ?ps1), M : many _ _ ?q ?s1 ?ps1 _ _ _ |- _ =>
        destruct (K q (or_introl eq_refl)) as (Fe & Ne); destruct (K sp (or_intror (or_introl eq_refl))) as (Fs & Ns);
        apply gives_walks in G as (w1 & -> & W1); auto; apply many_walks in M as (w2 & -> & W2); auto;
        exists (w1 ++ w2); split; [apply app_assoc | eapply walk_app; eauto] end).
    all: try (match goal with I : in_turn _ _ ?x _ _ _ _ _ |- _ => apply in_turn_walks in I; auto;
        intros c Hc; apply K; apply in_or_app; auto end; fail).
    apply in_turn_walks in H6; auto. intros c Hc. apply K. cbn [children]. rewrite H2. apply in_or_app. auto.
Qed.

Lemma reach_walks : forall a b, reaches sd env a b -> fitting (fst (fst a)) -> sane (fst (fst a)) ->
  exists w, snd (fst a) = w ++ snd (fst b) /\ walk (snd a) w (snd b).
Proof.
  induction 1 as [a|a b c C R IH]; intros F N; [exists []; split; [reflexivity|constructor]|].
  destruct a as ((e & s) & ps), b as ((e1 & s1) & ps1), c as ((e2 & s2) & ps2). cbn [fst snd] in *.
  apply call_walks in C as ((F1 & N1) & w1 & -> & W1); auto. destruct (IH F1 N1) as (w2 & -> & W2).
  exists (w1 ++ w2). split; [apply app_assoc | eapply walk_app; eauto].
Qed.
Lemma reach_parsers : forall a b, reaches sd env a b -> forall es, all_parsers env (fst (fst a)) es ->
  In (fst (fst b)) es.
Proof.
  induction 1 as [a|a b c C R IH]; intros es A; [apply A|]. apply IH.
  destruct a as ((e & s) & ps), b as ((e1 & s1) & ps1). cbn [fst snd] in *.
  destruct A as (I & Ch & Rf). split; [|split]; auto.
  destruct (call_part _ _ _ _ _ _ C) as [K|(k & -> & ->)]; eauto.
Qed.

Lemma nodup_bound : forall e s ps es L, fitting e -> sane e -> all_parsers env e es ->
  NoDup L -> (forall a, In a L -> reaches sd env (e, s, ps) a) -> (length L <= length es * S (length s))%nat.
Proof.
  intros e s ps es L F N A ND R.
  set (key := fun a : application => (fst (fst a), length (snd (fst a)))).
  assert (Inj : forall a b, In a L -> In b L -> key a = key b -> a = b).
  { intros ((e1 & s1) & ps1) ((e2 & s2) & ps2) I1 I2 E. unfold key in E. cbn [fst snd] in E. injection E as <- E.
    apply R in I1, I2. apply reach_walks in I1 as (w1 & E1 & W1), I2 as (w2 & E2 & W2); auto. cbn [fst snd] in *.
    rewrite E1 in E2. apply app_eq_app in E2. destruct E2 as (l & [(-> & ->)|(-> & ->)]);
      rewrite app_length in E; assert (l = []) by (destruct l; [reflexivity | simpl in E; lia]); subst l;
      rewrite app_nil_r in *; cbn [app] in *; rewrite walk_iff in W1, W2; subst; reflexivity. }
  assert (ND' : NoDup (map key L)).
  { clear R. induction ND as [|a L Na ND IH]; simpl; constructor.
    - intros I. apply in_map_iff in I as (b & E & Ib). apply Na. rewrite <- (Inj b a); auto; simpl; auto.
    - apply IH. intros; apply Inj; simpl; auto. }
  assert (Inc : incl (map key L) (list_prod es (seq 0 (S (length s))))).
  { intros k I. apply in_map_iff in I as (a & <- & Ia). apply R in Ia. unfold key. apply in_prod.
    - exact (reach_parsers _ _ Ia es A).
    - apply reach_walks in Ia as (w & E & _); auto. cbn [fst snd] in E. rewrite E, app_length. apply in_seq. lia. }
  apply NoDup_incl_length in Inc; auto. rewrite map_length, prod_length, seq_length in Inc. exact Inc.
Qed.

(** ** Steps of folds *)

Lemma many_prefix : forall p s ps rs s' ps', many sd env p s ps rs s' ps' -> fitting p ->
  forall rs0 s0 ps0 m pe, many sd env p s ps rs0 s0 ps0 -> gives sd env p s' ps' (Reject m pe) ->
  (length rs0 <= length rs)%nat.
Proof.
  intros p s ps rs s' ps' M F. induction M as [p s ps|p s ps r s1 ps1 rs s2 ps2 G M IH]; intros rs0 s0 ps0 m pe M0 R.
  - inversion M0; subst; auto. pose proof (one_result _ _ _ _ _ F R H). discriminate.
  - inversion M0; subst; [simpl; lia|]. pose proof (one_result _ _ _ _ _ F G H) as E.
    injection E as <- <- <-. specialize (IH F _ _ _ _ _ H0 R). simpl. lia.
Qed.

Lemma many_stays : forall p s ps rs s' ps', many sd env p s ps rs s' ps' -> fitting p ->
  forall r, gives sd env p s ps (Accept r s ps) -> s' = s /\ ps' = ps.
Proof.
  intros p s ps rs s' ps' M F. induction M as [p s ps|p s ps r s1 ps1 rs s2 ps2 G M IH]; intros r0 G0; auto.
  pose proof (one_result _ _ _ _ _ F G G0) as E. injection E as -> -> ->. eapply IH; eauto.
Qed.

Lemma many_consumes : forall p s ps rs s' ps', many sd env p s ps rs s' ps' -> fitting p -> sane p ->
  forall m pe, gives sd env p s' ps' (Reject m pe) -> (length rs + length s' <= length s)%nat.
Proof.
  intros p s ps rs s' ps' M F N. induction M as [p s ps|p s ps r s1 ps1 rs s2 ps2 G M IH]; intros m pe R; [simpl; lia|].
  specialize (IH F N _ _ R). destruct (gives_walks _ _ _ _ _ _ F N G) as (w & -> & W).
  destruct w as [|c w]; [|rewrite app_length; simpl; lia].
  cbn [app] in *. inversion W; subst.
  destruct (many_stays _ _ _ _ _ _ M F _ G) as (-> & ->).
  pose proof (one_result _ _ _ _ _ F G R). discriminate.
Qed.

Lemma repeats_ends : forall e p s ps o, gives sd env e s ps o -> repeats e p ->
  exists rs s' ps' m pe, many sd env p s ps rs s' ps' /\ gives sd env p s' ps' (Reject m pe).
Proof.
  intros e p s ps o G W. inversion W; subst; inversion G; subst; do 5 eexists; split; eassumption || constructor.
Qed.

Lemma starts_with_ends : forall e p sp s ps o v s1 ps1, gives sd env e s ps o -> starts_with e p sp -> fitting sp ->
  gives sd env sp s ps (Accept v s1 ps1) ->
  exists rs s' ps' m pe, many sd env p s1 ps1 rs s' ps' /\ gives sd env p s' ps' (Reject m pe).
Proof.
  intros e p sp s ps o v s1 ps1 G W F Gs. inversion W; subst; inversion G; subst;
    match goal with G1 : gives _ _ sp s ps ?x |- _ => 
      lazymatch x with Accept v s1 ps1 => fail | _ => idtac end;
      pose proof (one_result _ _ _ _ _ F Gs G1) as E end; first [discriminate E | injection E as <- <- <-];
    do 5 eexists; split; eassumption.
Qed.

Lemma step_bound : forall e s ps o k, fitting e -> sane e -> gives sd env e s ps o ->
  fold_step sd env (e, s, ps) k -> (k <= length s)%nat.
Proof.
  intros e s ps o k F N G St.
  assert (K : forall c, In c (children e) -> fitting c /\ sane c)
    by (intros c I; split; eapply every_children; eauto).
  inversion St as [? p ? ? rs s' ps' W M|? p sp ? ? v s1 ps1 rs s' ps' W Gs M]; subst.
  - destruct (K p) as (Fp & Np); [inversion W; subst; simpl; auto|].
    destruct (repeats_ends _ _ _ _ _ G W) as (rs1 & s2 & ps2 & m & pe & M1 & R).
    pose proof (many_prefix _ _ _ _ _ _ M1 Fp _ _ _ _ _ M R).
    pose proof (many_consumes _ _ _ _ _ _ M1 Fp Np _ _ R). lia.
  - destruct (K p) as (Fp & Np); [inversion W; subst; simpl; auto|].
    destruct (K sp) as (Fs & Ns); [inversion W; subst; simpl; auto|].
    destruct (starts_with_ends _ _ _ _ _ _ _ _ _ G W Fs Gs) as (rs1 & s2 & ps2 & m & pe & M1 & R).
    pose proof (many_prefix _ _ _ _ _ _ M1 Fp _ _ _ _ _ M R).
    pose proof (many_consumes _ _ _ _ _ _ M1 Fp Np _ _ R).
    apply gives_walks in Gs as (w & -> & _); auto. rewrite app_length. lia.
Qed.

Lemma reach_fits : forall a b, reaches sd env a b -> fitting (fst (fst a)) -> sane (fst (fst a)) ->
  fitting (fst (fst b)) /\ sane (fst (fst b)).
Proof.
  induction 1 as [a|a b c C R IH]; intros F N; auto.
  destruct a as ((e & s) & ps), b as ((e1 & s1) & ps1). cbn [fst snd] in *.
  apply call_walks in C as ((F1 & N1) & _); auto.
Qed.

End Tree.

(** ** The parsers of a program *)

Lemma parts_unfold : forall e, parts e = e :: flat_map parts (children e).
Proof.
  intros e. destruct e; cbn [parts children flat_map]; rewrite ?app_nil_r; reflexivity.
Qed.

Lemma parts_self : forall e, In e (parts e).
Proof. intros e. rewrite parts_unfold. left. reflexivity. Qed.

Lemma parts_closed : forall e, every (fun _ => True) e -> forall a c, In a (parts e) -> In c (children a) -> In c (parts e).
Proof.
  induction 1 as [e _ Ch IH]. intros a c Ia Ic. rewrite parts_unfold in *. destruct Ia as [<-|Ia].
  - right. apply in_flat_map. exists c. split; auto. apply parts_self.
  - right. apply in_flat_map in Ia as (b & Ib & Ia). apply in_flat_map. exists b. split; auto. eapply IH; eauto.
Qed.

Lemma written_all : forall env K e, (forall k, every (fun _ => True) (env k)) -> every (fun _ => True) e ->
  names_below env K e -> all_parsers env e (written env K e).
Proof.
  intros env K e HE He N. unfold written. split; [|split].
  - apply in_or_app. left. apply parts_self.
  - intros a c Ia Ic. apply in_app_or in Ia as [Ia|Ia]; apply in_or_app.
    + left. eapply parts_closed; eauto.
    + right. apply in_flat_map in Ia as (k & Ik & Ia). apply in_flat_map. exists k. split; auto. eapply parts_closed; eauto.
  - intros k I. specialize (N k I). apply in_or_app. right. apply in_flat_map. exists k. split; [apply in_seq; lia|].
    apply parts_self.
Qed.

(** ** Without sharing *)

Fixpoint paths (n : nat) (ps : pos) : list (list application) :=
  match n with
  | O => [[(PRef 0%nat, [], ps)]]
  | S k =>
      let s := repeat 40 (S k) in
      map (fun l => (PRef 0%nat, s, ps) :: (two_brackets 0%nat, s, ps) :: (bracket 41, s, ps) :: l) (paths k (adv ps [40]))
      ++ map (fun l => (PRef 0%nat, s, ps) :: (two_brackets 0%nat, s, ps) :: (bracket 93, s, ps) :: l) (paths k (adv ps [40]))
  end.

Lemma paths_length : forall n ps, length (paths n ps) = (2 ^ n)%nat.
Proof.
  induction n as [|n IH]; intros ps; [reflexivity|]. cbn [paths]. rewrite app_length, !map_length, IH. simpl. lia.
Qed.

Lemma map_nodup : forall (A B : Type) (f : A -> B) l, (forall a b, f a = f b -> a = b) -> NoDup l -> NoDup (map f l).
Proof.
  intros A B f l Inj ND. induction ND as [|a l Na ND IH]; simpl; constructor; auto.
  intros I. apply in_map_iff in I as (b & E & Ib). apply Na. rewrite <- (Inj _ _ E). auto.
Qed.

Lemma nodup_app : forall (A : Type) (l1 l2 : list A), NoDup l1 -> NoDup l2 -> (forall a, In a l1 -> ~ In a l2) -> NoDup (l1 ++ l2).
Proof.
  intros A l1 l2 N1 N2 D. induction N1 as [|a l1 Na N1 IH]; simpl; auto. constructor.
  - intros I. apply in_app_or in I as [I|I]; [auto | apply (D a); simpl; auto].
  - apply IH. intros b I. apply D. simpl; auto.
Qed.

Lemma paths_nodup : forall n ps, NoDup (paths n ps).
Proof.
  induction n as [|n IH]; intros ps; [repeat constructor; intros []|]. cbn [paths]. apply nodup_app.
  - apply map_nodup; auto. intros a b E. injection E. auto.
  - apply map_nodup; auto. intros a b E. injection E. auto.
  - intros a I1 I2. apply in_map_iff in I1 as (x & <- & _), I2 as (y & E & _). discriminate.
Qed.

Lemma paths_chains : forall sd n ps l, In l (paths n ps) -> call_chain sd two_brackets (PRef 0%nat, repeat 40 n, ps) l.
Proof.
  intros sd. induction n as [|n IH]; intros ps l I; cbn [paths] in I.
  - destruct I as [<-|[]]. constructor.
  - assert (G : gives sd two_brackets (POneOfC [40]) (repeat 40 (S n)) ps (Accept (VChar 40) (repeat 40 n) (adv ps [40])))
      by (apply g_one_of_c; [left; reflexivity | apply walk_adv]).
    assert (C : forall c x, In x (paths n (adv ps [40])) -> In (bracket c) [bracket 41; bracket 93; POneOfC [97]] ->
      call_chain sd two_brackets (PRef 0%nat, repeat 40 (S n), ps)
        ((PRef 0%nat, repeat 40 (S n), ps) :: (two_brackets 0%nat, repeat 40 (S n), ps) :: (bracket c, repeat 40 (S n), ps) :: x)).
    { intros c x Ix Ib. eapply chain_more; [apply calls_ref|]. eapply chain_more; [apply calls_one_of; exact Ib|].
      eapply chain_more; [|apply IH; exact Ix].
      eapply (calls_in_turn _ _ _ [POneOfC [40]] (PRef 0) [POneOfC [c]]); [apply c_sequence|].
      eapply in_turn_cons; [exact G | constructor]. }
    apply in_app_or in I as [I|I]; apply in_map_iff in I as (x & <- & Ix); apply C; simpl; auto.
Qed.

(** ** Counting steps *)

Lemma count_pairs : forall (A : Type) (B n : nat) (L : list (A * nat)), NoDup L ->
  (forall x, In x L -> (snd x < n)%nat) ->
  (forall l, NoDup l -> (forall a, In a l -> exists k, In (a, k) L) -> (length l <= B)%nat) ->
  (length L <= B * n)%nat.
Proof.
  intros A B n. induction n as [|n IH]; intros L ND Lt Bd.
  - destruct L as [|x L]; [simpl; lia|]. specialize (Lt x (or_introl eq_refl)). lia.
  - set (f := fun x : A * nat => Nat.eqb (snd x) n).
    assert (Len : forall l, length l = (length (filter f l) + length (filter (fun x => negb (f x)) l))%nat).
    { induction l as [|x l IHl]; simpl; auto. destruct (f x); simpl; lia. }
    rewrite (Len L).
    assert (L1 : (length (filter f L) <= B)%nat).
    { rewrite <- (map_length fst). apply Bd.
      - pose proof (NoDup_filter f ND) as N1.
        assert (S1 : forall x, In x (filter f L) -> snd x = n).
        { intros x I. apply filter_In in I as (_ & E). apply Nat.eqb_eq. exact E. }
        induction N1 as [|x l Nx N1 IHl]; simpl; constructor.
        + intros I. apply in_map_iff in I as (y & E & Iy). apply Nx.
          replace x with y; auto. destruct x as (x1 & x2), y as (y1 & y2). cbn [fst] in E. subst y1.
          pose proof (S1 _ (or_introl eq_refl)) as E1. pose proof (S1 _ (or_intror Iy)) as E2.
          cbn [snd] in E1, E2. congruence.
        + apply IHl. intros; apply S1; simpl; auto.
      - intros a I. apply in_map_iff in I as ((a' & k) & <- & I). apply filter_In in I as (I & _). eauto. }
    assert (L2 : (length (filter (fun x => negb (f x)) L) <= B * n)%nat).
    { apply IH.
      - apply NoDup_filter. exact ND.
      - intros x I. apply filter_In in I as (I & E). apply negb_true_iff, Nat.eqb_neq in E. apply Lt in I. lia.
      - intros l Nl H. apply Bd; auto. intros a I. destruct (H a I) as (k & K). apply filter_In in K as (K & _). eauto. }
    lia.
Qed.

Fixpoint inner_steps (n : nat) (ps : pos) : list (application * nat) :=
  map (fun k => ((all_as, repeat 97 n, ps), k)) (seq 0 (S n))
  ++ match n with O => [] | S k => inner_steps k (adv ps [97]) end.

Lemma inner_steps_length : forall n ps, (2 * length (inner_steps n ps) = (n + 1) * (n + 2))%nat.
Proof.
  induction n as [|n IH]; intros ps; [reflexivity|]. cbn [inner_steps]. rewrite app_length, map_length, seq_length.
  pose proof (IH (adv ps [97])) as E. rewrite Nat.mul_add_distr_l. etransitivity; [apply f_equal; exact E|]. lia.
Qed.

Lemma inner_steps_in : forall n ps a k, In (a, k) (inner_steps n ps) ->
  exists i, (i + k <= n)%nat /\ a = (all_as, repeat 97 (n - i), adv ps (repeat 97 i)).
Proof.
  induction n as [|n IH]; intros ps a k I; cbn [inner_steps] in I; apply in_app_or in I as [I|I].
  - apply in_map_iff in I as (k' & E & Is). injection E as <- <-. apply in_seq in Is. exists 0%nat. split; [lia|reflexivity].
  - destruct I.
  - apply in_map_iff in I as (k' & E & Is). injection E as <- <-. apply in_seq in Is. exists 0%nat. split; [lia|reflexivity].
  - apply IH in I as (i & L & ->). exists (S i). split; [lia|]. reflexivity.
Qed.

Lemma inner_steps_nodup : forall n ps, NoDup (inner_steps n ps).
Proof.
  induction n as [|n IH]; intros ps; [repeat constructor; intros []|]. cbn [inner_steps]. apply nodup_app.
  - apply map_nodup; [intros a b E; injection E; auto | apply seq_NoDup].
  - apply IH.
  - intros (a & k) I1 I2. apply in_map_iff in I1 as (k' & E & _). injection E as <- <-.
    apply inner_steps_in in I2 as (i & _ & E). injection E as E _. apply (f_equal (@length _)) in E.
    simpl in E. rewrite !repeat_length in E. lia.
Qed.

Section Inner.
Variable sd : std.
Variable env : program.

Lemma as_many : forall k n ps, (k <= n)%nat ->
  many sd env (POneOfC [97]) (repeat 97 n) ps (repeat (VChar 97) k) (repeat 97 (n - k)) (adv ps (repeat 97 k)).
Proof.
  induction k as [|k IH]; intros n ps L.
  - rewrite Nat.sub_0_r. constructor.
  - destruct n as [|n]; [lia|]. cbn [repeat Nat.sub]. eapply many_more.
    + apply g_one_of_c; [left; reflexivity | apply walk_adv].
    + apply IH. lia.
Qed.

Lemma lfold_back : forall l v, exists x, lfold back_inserter l (VSeq v) = Some (VSeq x).
Proof.
  induction l as [|a l IH]; intros v; cbn; eauto.
Qed.

Lemma all_as_gives : forall n ps, exists v, gives sd env all_as (repeat 97 n) ps (Accept v [] (adv ps (repeat 97 n))).
Proof.
  intros n ps. destruct (lfold_back (repeat (VChar 97) n) []) as (x & E). exists (VSeq x).
  pose proof (as_many n n ps (le_n n)) as M. rewrite Nat.sub_diag in M. cbn [repeat] in M.
  eapply g_foldl; [exact M | apply g_one_of_c_error; exact Logic.I | reflexivity | exact E].
Qed.

Lemma again_gives : forall n ps, exists v,
  gives sd env again (repeat 97 (S n)) ps (Accept v (repeat 97 n) (adv ps [97])).
Proof.
  intros n ps. destruct (all_as_gives (S n) ps) as (v & G). eexists. apply g_sequence. eapply in_turn_cons.
  - eapply g_look_ahead. exact G.
  - eapply in_turn_cons; [|constructor]. apply g_one_of_c; [left; reflexivity | apply walk_adv].
Qed.

Lemma again_many : forall i n ps, (i <= n)%nat -> exists rs,
  many sd env again (repeat 97 n) ps rs (repeat 97 (n - i)) (adv ps (repeat 97 i)).
Proof.
  induction i as [|i IH]; intros n ps L.
  - exists []. rewrite Nat.sub_0_r. constructor.
  - destruct n as [|n]; [lia|]. destruct (again_gives n ps) as (v & G).
    destruct (IH n (adv ps [97])) as (rs & M); [lia|]. exists (v :: rs). eapply many_more; eauto.
Qed.

Lemma inner_steps_made : forall n ps a k, In (a, k) (inner_steps n ps) ->
  reaches sd env (again_and_again, repeat 97 n, ps) a /\ fold_step sd env a k.
Proof.
  intros n ps a k I. apply inner_steps_in in I as (i & L & ->). split.
  - destruct (again_many i n ps) as (rs & M); [lia|].
    eapply reaches_more; [eapply calls_repeats; [constructor | exact M]|].
    eapply reaches_more; [eapply (calls_in_turn _ _ _ [] (PLookAhead all_as) [POneOfC [97]]); [constructor | constructor]|].
    eapply reaches_more; [apply calls_wraps; constructor | constructor].
  - rewrite <- (repeat_length (VChar 97) k). eapply step_repeats; [constructor|]. apply as_many. lia.
Qed.

Lemma again_and_again_gives : forall n ps, exists o, gives sd env again_and_again (repeat 97 n) ps o.
Proof.
  intros n ps. destruct (again_many n n ps (le_n n)) as (rs & M). rewrite Nat.sub_diag in M. cbn [repeat] in M.
  destruct (lfold_back rs []) as (x & E). destruct (all_as_gives 0 (adv ps (repeat 97 n))) as (v & G).
  eexists. eapply g_foldl; [exact M | | reflexivity | exact E].
  apply g_sequence_fails. eapply breaks_off_later; [eapply g_look_ahead; exact G|].
  apply breaks_off_here. apply g_one_of_c_error. exact Logic.I.
Qed.
End Inner.
