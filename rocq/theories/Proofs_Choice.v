(** Proofs about changing the alternatives of a choice. *)

From Coq Require Import ZArith List Bool Lia.
From Verif Require Import Base Deep Spec SpecDeep SpecRules SpecReplace SpecErase SpecChoice
  Proofs_Pos Proofs_Deep Proofs_Rules Proofs_Replace Proofs_Variadic Proofs_Laws Proofs_Cost.
Import ListNotations.
Open Scope Z_scope.

Lemma sbm_refl : forall o, same_but_message o o.
Proof. destruct o; reflexivity. Qed.

Lemma sbm_trans : forall a b c, same_but_message a b -> same_but_message b c ->
  same_but_message a c.
Proof. intros [] [] []; cbn; intros H1 H2; try congruence. Qed.

Lemma sbm_sym : forall a b, same_but_message a b -> same_but_message b a.
Proof. intros [] []; cbn; intros; congruence. Qed.

Lemma sbm_accept : forall r s ps o, same_but_message (Accept r s ps) o -> o = Accept r s ps.
Proof. intros r s ps [] H; cbn in H; congruence. Qed.

Lemma sbm_reject : forall m pe o, same_but_message (Reject m pe) o -> exists m', o = Reject m' pe.
Proof. intros m pe [] H; cbn in H; try discriminate. subst. eauto. Qed.

(** ** Replacing *)

Lemma every_here : forall Q e, every Q e -> Q e.
Proof. intros Q e H. inversion H; auto. Qed.
Lemma every_below : forall Q e c, every Q e -> In c (children e) -> every Q c.
Proof. intros Q e c H. inversion H; auto. Qed.

(** ** The position of the error of a choice *)

Lemma choice_position : forall sd ps es m pe, choice_error sd ps es (m, pe) ->
  pos_le ps pe /\ (forall x, In x es -> pos_le (snd x) pe)
  /\ (pe = ps \/ exists x, In x es /\ snd x = pe).
Proof.
  intros sd ps es m pe C.
  assert (X : exists l, last_furthest l (m, pe)
    /\ forall x, In x l <-> x = (none_of_the_expected_cases_found, ps) \/ In x es).
  { destruct sd; cbn [choice_error] in C; eexists; (split; [exact C|]); intros x;
      rewrite ?in_app_iff; cbn [In]; intuition congruence. }
  destruct X as (l & F & I). apply last_furthest_max in F as [F1 F2].
  repeat split.
  - apply (F2 (none_of_the_expected_cases_found, ps)). apply I. auto.
  - intros x Hx. apply F2, I. auto.
  - apply I in F1 as [E|F1]; [inversion E; auto|]. right. exists (m, pe). auto.
Qed.

(** None of the positions [es] is ahead of [es'] and the start. *)
Definition among (ps : pos) (es es' : list (msg * pos)) : Prop :=
  forall x, In x es -> pos_le (snd x) ps \/ exists y, In y es' /\ pos_le (snd x) (snd y).

Lemma choice_agree : forall sd ps es es' m pe m' pe',
  choice_error sd ps es (m, pe) -> choice_error sd ps es' (m', pe') ->
  among ps es es' -> among ps es' es -> pe' = pe.
Proof.
  intros sd ps es es' m pe m' pe' C C' A A'.
  apply choice_position in C as (C1 & C2 & C3). apply choice_position in C' as (D1 & D2 & D3).
  apply pos_le_antisym.
  - destruct D3 as [->|(x & Hx & <-)]; auto.
    destruct (A' x Hx) as [L|(y & Hy & L)]; eapply pos_le_trans; eauto.
  - destruct C3 as [->|(x & Hx & <-)]; auto.
    destruct (A x Hx) as [L|(y & Hy & L)]; eapply pos_le_trans; eauto.
Qed.

(** Outcomes that agree up to the messages. *)
Lemma forall2_rejections : forall os os' es, Forall2 same_but_message os os' ->
  rejections os es ->
  exists es', rejections os' es' /\ forall ps, among ps es es' /\ among ps es' es.
Proof.
  intros os os' es F. revert es. induction F as [|o o' os os' S F IH]; intros es RJ;
    unfold rejections in *.
  - destruct es; [|discriminate]. exists []. split; auto. split; intros x [].
  - destruct es as [|(m & pe) es]; [discriminate|]. injection RJ as -> RJ'.
    destruct (IH es RJ' ) as (es' & -> & A). apply sbm_reject in S as (m' & ->).
    exists ((m', pe) :: es'). split; [reflexivity|]. intros ps. destruct (A ps) as [A1 A2].
    split; intros x [<-|Hx].
    + right. exists (m', pe). split; [left; reflexivity|apply pos_le_refl].
    + destruct (A1 x Hx) as [E|(y & Hy & E)]; auto. right. exists y. split; [right|]; auto.
    + right. exists (m, pe). split; [left; reflexivity|apply pos_le_refl].
    + destruct (A2 x Hx) as [E|(y & Hy & E)]; auto. right. exists y. split; [right|]; auto.
Qed.

Lemma forall2_first_accept : forall os os' o, Forall2 same_but_message os os' ->
  first_accept os o -> first_accept os' o.
Proof.
  intros os os' o F (A & l1 & l2 & -> & J). split; auto.
  apply Forall2_app_inv_l in F as (k1 & k2 & F1 & F2 & ->).
  inversion F2; subst. destruct A as (r & s & ps & ->).
  match goal with S : same_but_message (Accept _ _ _) _ |- _ => apply sbm_accept in S as -> end.
  exists k1. eexists. split; [reflexivity|]. clear F2.
  induction F1 as [|a b l k S F1 IH]; constructor; inversion J; subst; auto.
  match goal with Q : is_reject a |- _ => destruct Q as (m & pe & ->) end.
  apply sbm_reject in S as (m' & ->). do 2 eexists; reflexivity.
Qed.

Section Sound.
Variable sd : std.
Variables env env' : program.
Variable R : pexpr -> pexpr -> Prop.
Hypothesis HP : replaced_program R env env'.
Hypothesis HR : forall a b, R a b -> refines_but_message sd env b a.
Hypothesis HB : program_every message_blind env'.

(** What [e] has to do when [e'] results in [o]. *)
Definition follows (e : pexpr) (s : str) (ps : pos) (o : outcome) : Prop :=
  match o with
  | Accept r s' ps' => gives sd env e s ps (Accept r s' ps')
  | Reject _ pe => exists m', gives sd env e s ps (Reject m' pe)
  | _ => True
  end.

Lemma follows_of : forall e s ps o o', gives sd env e s ps o' -> same_but_message o o' ->
  follows e s ps o.
Proof.
  intros e s ps [] o' G S; cbn [follows]; auto.
  - apply sbm_accept in S as ->. exact G.
  - apply sbm_reject in S as (m' & ->). eauto.
Qed.

Lemma follows_R : forall a b s ps o, R a b -> follows b s ps o -> follows a s ps o.
Proof.
  intros a b s ps [r s' ps'|m pe| |] H F; cbn [follows] in *; auto.
  - destruct (HR _ _ H _ _ _ F) as (o' & G & S). apply sbm_accept in S as ->. exact G.
  - destruct F as (m' & F). destruct (HR _ _ H _ _ _ F) as (o' & G & S).
    apply sbm_reject in S as (m'' & ->). eauto.
Qed.

Lemma below : forall e' s ps o,
  (forall l, Forall2 (replaced R) l (children e') -> follows (with_children e' l) s ps o) ->
  forall e, replaced R e e' -> follows e s ps o.
Proof.
  intros e' s ps o H e HE. destruct (replaced_inv _ _ _ HE) as [A|(l & -> & F)]; auto.
  apply (follows_R _ _ _ _ _ A). rewrite <- (with_children_same e'). apply H.
  clear. induction (children e'); constructor; auto. apply replaced_refl.
Qed.

Definition blind : pexpr -> Prop := every message_blind.

Lemma replaced_follows :
  (forall e' s ps o, gives sd env' e' s ps o ->
     forall e, replaced R e e' -> blind e' -> follows e s ps o)
  /\ (forall p' s ps rs s' ps', many sd env' p' s ps rs s' ps' ->
     forall p, replaced R p p' -> blind p' -> many sd env p s ps rs s' ps')
  /\ (forall l' s ps rs s' ps', in_turn sd env' l' s ps rs s' ps' ->
     forall l, Forall2 (replaced R) l l' -> (forall e, In e l' -> blind e) ->
       in_turn sd env l s ps rs s' ps')
  /\ (forall l' s ps m pe, breaks_off sd env' l' s ps m pe ->
     forall l, Forall2 (replaced R) l l' -> (forall e, In e l' -> blind e) ->
       exists m', breaks_off sd env l s ps m' pe)
  /\ (forall l' s ps os, each sd env' l' s ps os ->
     forall l, Forall2 (replaced R) l l' -> (forall e, In e l' -> blind e) ->
       exists os', each sd env l s ps os' /\ Forall2 same_but_message os os').
Proof.
  apply rules_mind; intros.
  all: match goal with
       | HE : replaced R ?e ?e' |- follows ?e ?s ?ps ?o =>
           revert e HE; apply below; intros l0 F;
           match goal with B : blind e' |- _ =>
             pose proof (every_here _ _ B) as QB; pose proof (fun c => every_below _ _ c B) as CB;
             change (every message_blind) with blind in CB
           end
       | HF : Forall2 _ ?l _ |- _ => try (inversion HF; subst; clear HF)
       | _ => idtac
       end.
  all: cbn [children follows] in *.
  all: repeat match goal with
       | F : Forall2 _ _ (_ :: _) |- _ => inversion F; subst; clear F
       | F : Forall2 _ _ [] |- _ => inversion F; subst; clear F
       end; cbn [with_children].
  all: try match goal with
       | F : Forall2 (replaced R) ?l ?l' |- _ =>
           pose proof (Forall2_len _ _ _ _ _ F) as L; try rewrite <- L in *
       end.
  all: repeat match goal with
       | IH : forall e, replaced R e ?p -> blind ?p -> _, H : replaced R ?x ?p |- _ =>
           let B := fresh in
           assert (B : blind p) by (auto with datatypes || (match goal with C : forall c, _ -> blind c |- _ => apply C; cbn; auto end));
           specialize (IH x H B); clear B; cbn [follows] in IH
       | IH : forall l, Forall2 (replaced R) l ?l' -> _ -> _, H : Forall2 (replaced R) ?x ?l' |- _ =>
           let B := fresh in
           assert (B : forall e, In e l' -> blind e) by (auto with datatypes);
           specialize (IH x H B); clear B
       | E : exists _, _ |- _ => destruct E
       | E : _ /\ _ |- _ => destruct E
       end.
  all: try solve [econstructor; eauto using Forall2_nil, Forall2_cons].
  all: try solve [eexists; econstructor; eauto using Forall2_nil, Forall2_cons].
  all: idtac.
  - (* a named parser *)
    assert (X : follows (env k) s ps o) by (apply H0; [apply HP|apply HB]).
    destruct o; cbn [follows] in *; auto.
    + apply g_ref, X.
    + destruct X as (m' & X). exists m'. apply g_ref, X.
  - (* transform_error *)
    destruct QB as [QN _]. cbn [natives] in QN.
    pose proof (QN m x0 pe) as S.
    apply (follows_of _ _ _ _ (f x0 pe)); [|exact S].
    eapply g_transform_error; [eassumption|reflexivity|].
    destruct H2 as [(r & s1 & p1 & E)|(m2 & p1 & E)]; rewrite E in S.
    + left. apply sbm_accept in S. rewrite S. do 3 eexists; reflexivity.
    + right. apply sbm_reject in S as (m3 & S). rewrite S. do 2 eexists; reflexivity.
  - (* transform_error_message *)
    destruct QB as [_ QT]. cbn [total_messages] in QT.
    destruct (f x0) as [m3|] eqn:Q; [|destruct (QT _ Q)]. exists m3.
    eapply g_transform_error_message; [eassumption|exact Q].
  - (* one_of accepts *)
    match goal with A : first_accept os o, F2 : Forall2 same_but_message os _ |- _ =>
      pose proof (forall2_first_accept _ _ _ F2 A) as A'; destruct A as ((r & s1 & p1 & ->) & _)
    end.
    cbn [follows]. eapply g_one_of; eauto.
  - (* one_of rejects *)
    match goal with A : rejections os es, F2 : Forall2 same_but_message os _ |- _ =>
      destruct (forall2_rejections _ _ _ F2 A) as (es' & A' & M)
    end.
    destruct (M ps) as [M1 M2]. destruct (choice_error_ex sd ps es') as (m' & pe' & C').
    match goal with C : choice_error _ _ es _ |- _ =>
      pose proof (choice_agree _ _ _ _ _ _ _ _ C C' M1 M2); subst pe' end.
    exists m'. eapply g_one_of_fails; eauto.
  - (* middle_of *)
    destruct (H0 [x; x0]) as (m' & B).
    { constructor; [assumption|constructor; [assumption|constructor]]. }
    { intros e [<-|[<-|[]]]; apply CB; cbn; auto. }
    exists m'. apply g_middle_of_fails, B.
  - exists (unpaired (line ps) (col ps) x2). eapply g_middle_of_unpaired; [|eassumption].
    apply H0; [constructor; [assumption|constructor; [assumption|constructor]]|].
    intros e [<-|[<-|[]]]; apply CB; cbn; auto.
  - exists []. split; constructor.
  - destruct (gives_settled _ _ _ _ _ _ H) as [(r & s' & ps' & ->)|(m & pe & ->)];
      cbn [follows] in H0.
    + exists (Accept r s' ps' :: x0). split; constructor; auto. reflexivity.
    + destruct H0 as (m' & G). exists (Reject m' pe :: x0). split; constructor; auto. reflexivity.
Qed.

Lemma replaced_refines : forall e e', replaced R e e' -> blind e' ->
  forall s ps o, gives sd env' e' s ps o ->
  exists o', gives sd env e s ps o' /\ same_but_message o o'.
Proof.
  intros e e' HE HQ s ps o G. pose proof (proj1 replaced_follows _ _ _ _ G _ HE HQ) as F.
  destruct (gives_settled _ _ _ _ _ _ G) as [(r & s' & ps' & ->)|(m & pe & ->)];
    cbn [follows] in F.
  - eexists. split; [exact F|reflexivity].
  - destruct F as (m' & F). eexists. split; [exact F|reflexivity].
Qed.
End Sound.

(** ** Laws *)

(** What a choice makes of the outcomes of its alternatives. *)
Definition chosen (sd : std) (ps : pos) (os : list outcome) (o : outcome) : Prop :=
  first_accept os o
  \/ exists es m pe, rejections os es /\ choice_error sd ps es (m, pe) /\ o = Reject m pe.

Lemma gives_chosen : forall sd env l s ps o, gives sd env (POneOf l) s ps o <->
  exists os, each sd env l s ps os /\ chosen sd ps os o.
Proof.
  intros sd env l s ps o. split.
  - intros G. inversion G; subst; eexists; (split; [eassumption|]); [left; assumption|].
    right. do 3 eexists. split; [eassumption|]. split; [eassumption|reflexivity].
  - intros (os & E & [F|(es & m & pe & RJ & C & ->)]); [eapply g_one_of; eauto|].
    eapply g_one_of_fails; eauto.
Qed.

Lemma among_refl : forall ps es, among ps es es.
Proof. intros ps es x Hx. right. exists x. split; auto. apply pos_le_refl. Qed.

Lemma among_incl : forall ps es es', (forall x, In x es -> In x es') -> among ps es es'.
Proof. intros ps es es' H x Hx. right. exists x. split; auto. apply pos_le_refl. Qed.

Lemma among_app : forall ps a b a' b', among ps a a' -> among ps b b' ->
  among ps (a ++ b) (a' ++ b').
Proof.
  intros ps a b a' b' A B x Hx. apply in_app_iff in Hx as [Hx|Hx].
  - destruct (A x Hx) as [L|(y & Hy & L)]; auto. right. exists y. rewrite in_app_iff. auto.
  - destruct (B x Hx) as [L|(y & Hy & L)]; auto. right. exists y. rewrite in_app_iff. auto.
Qed.

(** The outcomes [os] lead to the same choice as [os'], up to the message. *)
Definition leads (ps : pos) (os os' : list outcome) : Prop :=
  (forall o, first_accept os o -> first_accept os' o)
  /\ (forall es, rejections os es ->
        exists es', rejections os' es' /\ among ps es es' /\ among ps es' es).

Definition same_choice (ps : pos) (os os' : list outcome) : Prop :=
  leads ps os os' /\ leads ps os' os.

Lemma leads_chosen : forall sd ps os os' o, leads ps os os' ->
  chosen sd ps os o -> exists o', chosen sd ps os' o' /\ same_but_message o o'.
Proof.
  intros sd ps os os' o (HA & HJ) [F|(es & m & pe & RJ & C & ->)].
  - exists o. split; [left; auto|apply sbm_refl].
  - destruct (HJ _ RJ) as (es' & RJ' & M1 & M2).
    destruct (choice_error_ex sd ps es') as (m' & pe' & C').
    pose proof (choice_agree _ _ _ _ _ _ _ _ C C' M1 M2). subst pe'.
    exists (Reject m' pe). split; [|reflexivity]. right. eauto 8.
Qed.

Lemma leads_rejects : forall ps os os', leads ps os os' ->
  Forall is_reject os -> Forall is_reject os'.
Proof.
  intros ps os os' (_ & HJ) F. apply rejections_iff in F as (es & F).
  destruct (HJ _ F) as (es' & F' & _). apply rejections_iff. eauto.
Qed.

Lemma leads_refl : forall ps os, leads ps os os.
Proof. intros ps os. split; auto. intros es H. exists es. auto using among_refl. Qed.

Lemma leads_app : forall ps a b a' b', leads ps a a' -> leads ps b b' ->
  leads ps (a ++ b) (a' ++ b').
Proof.
  intros ps a b a' b' LA LB. split.
  - intros o F. apply first_accept_app in F as [F|(J & F)]; apply first_accept_app.
    + left. apply LA, F.
    + right. split; [eapply leads_rejects; eauto|apply LB, F].
  - intros es RJ. apply rejections_app in RJ as (e1 & e2 & -> & R1 & R2).
    destruct (proj2 LA _ R1) as (e1' & R1' & A1 & A1').
    destruct (proj2 LB _ R2) as (e2' & R2' & A2 & A2').
    exists (e1' ++ e2'). split; [apply rejections_app; eauto|].
    split; apply among_app; auto.
Qed.

Lemma leads_in : forall ps a x y b, leads ps x y -> leads ps (a ++ x ++ b) (a ++ y ++ b).
Proof.
  intros ps a x y b L. apply leads_app; [apply leads_refl|].
  apply leads_app; auto; apply leads_refl.
Qed.

Lemma first_accept_nil : forall o, ~ first_accept [] o.
Proof. intros o (_ & l1 & l2 & E & _). destruct l1; discriminate. Qed.

Lemma first_accept_one : forall x o, first_accept [x] o <-> is_accept x /\ o = x.
Proof.
  intros x o. rewrite first_accept_cons. split; [intros [H|(_ & H)]; auto|auto].
  destruct (first_accept_nil _ H).
Qed.

Lemma rejections_cons : forall o os es, rejections (o :: os) es <->
  exists m pe es', es = (m, pe) :: es' /\ o = Reject m pe /\ rejections os es'.
Proof.
  intros o os es. unfold rejections. split.
  - intros H. destruct es as [|(m & pe) es]; [discriminate|]. injection H as -> H. eauto 8.
  - intros (m & pe & es' & -> & -> & ->). reflexivity.
Qed.

Lemma rejections_nil : forall es, rejections [] es <-> es = [].
Proof. intros [|e es]; unfold rejections; split; intros H; auto; discriminate. Qed.

Lemma leads_swap : forall ps a b, settled a -> settled b -> ~ (is_accept a /\ is_accept b) ->
  leads ps [a; b] [b; a].
Proof.
  intros ps a b SA SB N. split.
  - intros o F. apply first_accept_cons in F as [(A & ->)|(A & F)].
    + apply first_accept_cons. right. split; [|apply first_accept_one; auto].
      destruct SB as [SB|SB]; auto. exfalso. auto.
    + apply first_accept_one in F as (B & ->). apply first_accept_cons. left. auto.
  - intros es H. apply rejections_cons in H as (m & pe & es1 & -> & -> & H).
    apply rejections_cons in H as (m1 & pe1 & es2 & -> & -> & H).
    apply rejections_nil in H as ->. exists [(m1, pe1); (m, pe)].
    split; [reflexivity|]. split; apply among_incl; intros x; cbn; tauto.
Qed.

Lemma same_choice_again : forall ps a x, same_choice ps (a :: x ++ [a]) (a :: x).
Proof.
  intros ps a x. change (a :: x ++ [a]) with ((a :: x) ++ [a]). split; split.
  - intros o F. apply first_accept_app in F as [F|(J & F)]; auto.
    apply first_accept_one in F as (F & ->). inversion J; subst.
    exfalso. eapply accept_not_reject; eauto.
  - intros es H. apply rejections_app in H as (e1 & e2 & -> & R1 & R2).
    exists e1. split; auto. apply rejections_cons in R1 as (m & pe & e3 & -> & -> & R1).
    apply rejections_cons in R2 as (m1 & pe1 & e4 & -> & E & R2). injection E as -> ->.
    apply rejections_nil in R2 as ->.
    split; apply among_incl; intros y Hy; rewrite ?in_app_iff in *; cbn in *; tauto.
  - intros o F. apply first_accept_app. auto.
  - intros es H. assert (H' := H). apply rejections_cons in H as (m & pe & e3 & -> & -> & H).
    exists (((m, pe) :: e3) ++ [(m, pe)]). split.
    + apply rejections_app. do 2 eexists. split; [reflexivity|]. split; auto. reflexivity.
    + split; apply among_incl; intros y Hy; rewrite ?in_app_iff in *; cbn in *; tauto.
Qed.

Lemma same_choice_fail : forall ps m, same_choice ps [Reject m ps] [].
Proof.
  intros ps m. split; split.
  - intros o F. apply first_accept_one in F as ((r & s & p & E) & _). discriminate.
  - intros es H. apply rejections_cons in H as (m1 & pe & es1 & -> & E & H).
    injection E as <- <-. apply rejections_nil in H as ->. exists []. split; [reflexivity|].
    split; [intros x [<-|[]]; left; apply pos_le_refl|intros x []].
  - intros o F. destruct (first_accept_nil _ F).
  - intros es H. apply rejections_nil in H as ->. exists [(m, ps)]. split; [reflexivity|].
    split; [intros x []|intros x [<-|[]]; left; apply pos_le_refl].
Qed.

Lemma same_choice_nested : forall sd ps os o, chosen sd ps os o -> same_choice ps [o] os.
Proof.
  intros sd ps os o [F|(es & m & pe & RJ & C & ->)].
  - split; split.
    + intros o' F'. apply first_accept_one in F' as (_ & ->). exact F.
    + intros es H. apply rejections_cons in H as (m & pe & es1 & -> & -> & _).
      destruct F as ((? & ? & ? & E) & _). discriminate.
    + intros o' F'. rewrite (first_accept_unique _ _ _ F' F). apply first_accept_one.
      split; auto. apply F.
    + intros es H. exfalso. eapply first_accept_rejects; eauto. apply rejections_iff. eauto.
  - pose proof (choice_position _ _ _ _ _ C) as (C1 & C2 & C3).
    assert (A : among ps [(m, pe)] es /\ among ps es [(m, pe)]).
    { split.
      - intros x [<-|[]]. cbn [snd]. destruct C3 as [->|(x & Hx & <-)].
        + left. apply pos_le_refl.
        + right. exists x. split; auto using pos_le_refl.
      - intros x Hx. right. exists (m, pe). split; [left; reflexivity|]. apply C2, Hx. }
    destruct A as (A & A'). split; split.
    + intros o F. apply first_accept_one in F as ((? & ? & ? & E) & _). discriminate.
    + intros es' H. apply rejections_cons in H as (m1 & pe1 & es1 & -> & E & H).
      injection E as <- <-. apply rejections_nil in H as ->. exists es. auto.
    + intros o F. exfalso. eapply first_accept_rejects; eauto. apply rejections_iff. eauto.
    + intros es' H. assert (es' = es) as ->.
      { unfold rejections in *. rewrite RJ in H. clear - H. revert es' H.
        induction es as [|(a & b) es IH]; intros [|(c & d) es'] H; try discriminate; auto.
        injection H as -> -> H. f_equal. apply IH, H. }
      exists [(m, pe)]. split; [reflexivity|]. auto.
Qed.

Lemma chosen_ex : forall sd ps os, Forall settled os -> exists o, chosen sd ps os o.
Proof.
  intros sd ps os F. destruct (settled_split os F) as [(o & H)|H].
  - exists o. left. exact H.
  - apply rejections_iff in H as (es & H). destruct (choice_error_ex sd ps es) as (m & pe & C).
    exists (Reject m pe). right. eauto 8.
Qed.

Section Laws.
Variable cfg : config.
Variable env : program.
Hypothesis HE : program_every (fits cfg) env.
Local Notation sd := (cfg_std cfg).
Local Notation fitting := (every (fits cfg)).

Lemma choice_refines : forall l l',
  (forall s ps os, each sd env l s ps os ->
     exists os', each sd env l' s ps os' /\ leads ps os os') ->
  refines_but_message sd env (POneOf l) (POneOf l').
Proof.
  intros l l' H s ps o G. apply gives_chosen in G as (os & E & C).
  destruct (H _ _ _ E) as (os' & E' & L). destruct (leads_chosen _ _ _ _ _ L C) as (o' & C' & S).
  exists o'. split; auto. apply gives_chosen. eauto.
Qed.

Lemma each_cons_inv : forall p l s ps os, each sd env (p :: l) s ps os ->
  exists o os', os = o :: os' /\ gives sd env p s ps o /\ each sd env l s ps os'.
Proof. intros p l s ps os H. inversion H; subst. eauto. Qed.

Lemma swap_refines : forall l1 p q l2, exclusive sd env p q ->
  refines_but_message sd env (POneOf (l1 ++ p :: q :: l2)) (POneOf (l1 ++ q :: p :: l2)).
Proof.
  intros l1 p q l2 X. apply choice_refines. intros s ps os E.
  apply each_app in E as (o1 & o2 & -> & E1 & E).
  apply each_cons_inv in E as (a & o3 & -> & Ga & E).
  apply each_cons_inv in E as (b & o4 & -> & Gb & E).
  exists (o1 ++ b :: a :: o4). split.
  - apply each_app. do 2 eexists. split; [reflexivity|]. split; auto.
    constructor; auto. constructor; auto.
  - apply (leads_app ps o1 (a :: b :: o4) o1 (b :: a :: o4)); [apply leads_refl|].
    apply (leads_app ps [a; b] o4 [b; a] o4); [|apply leads_refl].
    apply leads_swap; try (eapply gives_settled; eassumption).
    intros ((r & s' & p' & ->) & (r1 & s1 & p1 & ->)). apply (X s ps); unfold takes; eauto.
Qed.

Lemma exclusive_sym : forall p q, exclusive sd env p q -> exclusive sd env q p.
Proof. intros p q H s ps A B. exact (H s ps B A). Qed.

Lemma again_refines : forall l1 p l2 l3, fitting p ->
  refines_but_message sd env (POneOf (l1 ++ p :: l2 ++ p :: l3)) (POneOf (l1 ++ p :: l2 ++ l3))
  /\ refines_but_message sd env (POneOf (l1 ++ p :: l2 ++ l3)) (POneOf (l1 ++ p :: l2 ++ p :: l3)).
Proof.
  intros l1 p l2 l3 FP. split; apply choice_refines; intros s ps os E.
  - apply each_app in E as (o1 & o2 & -> & E1 & E).
    apply each_cons_inv in E as (a & o3 & -> & Ga & E).
    apply each_app in E as (o4 & o5 & -> & E2 & E).
    apply each_cons_inv in E as (b & o6 & -> & Gb & E).
    assert (b = a) as -> by exact (one_result cfg env HE _ _ _ _ _ FP Gb Ga).
    exists (o1 ++ a :: o4 ++ o6). split.
    + apply each_app. do 2 eexists. split; [reflexivity|]. split; auto.
      constructor; auto. apply each_app. eauto.
    + replace (a :: o4 ++ a :: o6) with ((a :: o4 ++ [a]) ++ o6)
        by (cbn; rewrite <- app_assoc; reflexivity).
      change (a :: o4 ++ o6) with ((a :: o4) ++ o6).
      apply leads_in. exact (proj1 (same_choice_again ps a o4)).
  - apply each_app in E as (o1 & o2 & -> & E1 & E).
    apply each_cons_inv in E as (a & o3 & -> & Ga & E).
    apply each_app in E as (o4 & o6 & -> & E2 & E).
    exists (o1 ++ a :: o4 ++ a :: o6). split.
    + apply each_app. do 2 eexists. split; [reflexivity|]. split; auto.
      constructor; auto. apply each_app. do 2 eexists. split; [reflexivity|]. split; auto.
      constructor; auto.
    + replace (a :: o4 ++ a :: o6) with ((a :: o4 ++ [a]) ++ o6)
        by (cbn; rewrite <- app_assoc; reflexivity).
      change (a :: o4 ++ o6) with ((a :: o4) ++ o6).
      apply leads_in. exact (proj2 (same_choice_again ps a o4)).
Qed.

Lemma fail_refines : forall l1 m l2,
  refines_but_message sd env (POneOf (l1 ++ PFail m :: l2)) (POneOf (l1 ++ l2))
  /\ refines_but_message sd env (POneOf (l1 ++ l2)) (POneOf (l1 ++ PFail m :: l2)).
Proof.
  intros l1 m l2. split; apply choice_refines; intros s ps os E;
    apply each_app in E as (o1 & o2 & -> & E1 & E).
  - apply each_cons_inv in E as (a & o3 & -> & Ga & E). inversion Ga; subst.
    exists (o1 ++ o3). split; [apply each_app; eauto|].
    apply (leads_in ps o1 [Reject m ps] [] o3). exact (proj1 (same_choice_fail ps m)).
  - exists (o1 ++ Reject m ps :: o2). split.
    + apply each_app. do 2 eexists. split; [reflexivity|]. split; auto.
      constructor; auto. constructor.
    + apply (leads_in ps o1 [] [Reject m ps] o2). exact (proj2 (same_choice_fail ps m)).
Qed.

Lemma nested_refines : forall l1 l2 l3,
  refines_but_message sd env (POneOf (l1 ++ POneOf l2 :: l3)) (POneOf (l1 ++ l2 ++ l3))
  /\ refines_but_message sd env (POneOf (l1 ++ l2 ++ l3)) (POneOf (l1 ++ POneOf l2 :: l3)).
Proof.
  intros l1 l2 l3. split; apply choice_refines; intros s ps os E;
    apply each_app in E as (o1 & o2 & -> & E1 & E).
  - apply each_cons_inv in E as (a & o3 & -> & Ga & E).
    apply gives_chosen in Ga as (os2 & E2 & C).
    exists (o1 ++ os2 ++ o3). split.
    + apply each_app. do 2 eexists. split; [reflexivity|]. split; auto. apply each_app. eauto.
    + apply (leads_in ps o1 [a] os2 o3). exact (proj1 (same_choice_nested _ _ _ _ C)).
  - apply each_app in E as (os2 & o3 & -> & E2 & E).
    destruct (chosen_ex sd ps os2 (each_settled env sd _ _ _ _ E2)) as (a & C).
    exists (o1 ++ a :: o3). split.
    + apply each_app. do 2 eexists. split; [reflexivity|]. split; auto. constructor; auto.
      apply gives_chosen. eauto.
    + apply (leads_in ps o1 os2 [a] o3). exact (proj2 (same_choice_nested _ _ _ _ C)).
Qed.

Lemma single_refines : forall p, goes_ahead sd env p ->
  refines_but_message sd env (POneOf [p]) p /\ refines_but_message sd env p (POneOf [p]).
Proof.
  intros p (_ & H). split; intros s ps o G.
  - apply gives_chosen in G as (os & E & C). apply each_cons_inv in E as (a & o3 & -> & Ga & E).
    inversion E; subst. exists a. split; auto.
    destruct C as [F|(es & m & pe & RJ & C & ->)].
    + apply first_accept_one in F as (_ & ->). apply sbm_refl.
    + apply rejections_cons in RJ as (m1 & pe1 & es1 & -> & -> & RJ).
      apply rejections_nil in RJ as ->. cbn. apply choice_position in C as (C1 & C2 & C3).
      specialize (H _ _ _ _ Ga). destruct C3 as [->|(x & [<-|[]] & <-)]; auto.
      apply pos_le_antisym; auto. apply (C2 (m1, pe1)). left. reflexivity.
  - assert (SO := gives_settled _ _ _ _ _ _ G).
    destruct (chosen_ex sd ps [o]) as (a & C); [constructor; [exact SO|constructor]|].
    exists a. split.
    + apply gives_chosen. exists [o]. split; auto. constructor; auto. constructor.
    + destruct C as [F|(es & m & pe & RJ & C & ->)].
      * apply first_accept_one in F as (_ & ->). apply sbm_refl.
      * apply rejections_cons in RJ as (m1 & pe1 & es1 & -> & -> & RJ).
        apply rejections_nil in RJ as ->. cbn. apply choice_position in C as (C1 & C2 & C3).
        specialize (H _ _ _ _ G). destruct C3 as [->|(x & [<-|[]] & <-)]; auto.
        apply pos_le_antisym; auto. apply (C2 (m1, pe1)). left. reflexivity.
Qed.

(** ** Moving out a common beginning *)

(** What [F a b] does when it runs [a], then [b] and combines the results. *)
Definition runs_both (F : pexpr -> pexpr -> pexpr) (comb : value -> value -> value) : Prop :=
  forall a b s ps o, gives sd env (F a b) s ps o <->
    (exists m pe, gives sd env a s ps (Reject m pe) /\ o = Reject m pe)
    \/ (exists r1 s1 ps1, gives sd env a s ps (Accept r1 s1 ps1)
        /\ ((exists m pe, gives sd env b s1 ps1 (Reject m pe) /\ o = Reject m pe)
            \/ exists r2 s2 ps2, gives sd env b s1 ps1 (Accept r2 s2 ps2)
                 /\ o = Accept (comb r1 r2) s2 ps2)).

Definition lift (f : value -> value) (o : outcome) : outcome :=
  match o with Accept r s ps => Accept (f r) s ps | _ => o end.

Lemma lift_accept : forall f os o, first_accept os o -> first_accept (map (lift f) os) (lift f o).
Proof.
  intros f os o ((r & s & ps & ->) & l1 & l2 & -> & J). split; [do 3 eexists; reflexivity|].
  rewrite map_app. cbn [map]. do 2 eexists. split; [reflexivity|].
  apply Forall_map. eapply Forall_impl; [|exact J]. intros x (m & pe & ->). do 2 eexists; reflexivity.
Qed.

Lemma lift_accept_inv : forall f os o, first_accept (map (lift f) os) o ->
  exists o1, first_accept os o1 /\ o = lift f o1.
Proof.
  induction os as [|x os IH]; intros o F; cbn [map] in F; [destruct (first_accept_nil _ F)|].
  apply first_accept_cons in F as [(A & ->)|(J & F)].
  - exists x. split; auto. apply first_accept_cons. left. split; auto.
    destruct A as (r & s & ps & A). destruct x; try discriminate. do 3 eexists; reflexivity.
  - destruct (IH _ F) as (o1 & F1 & ->). exists o1. split; auto. apply first_accept_cons. right.
    split; auto. destruct J as (m & pe & J). destruct x; try discriminate. do 2 eexists; reflexivity.
Qed.

Lemma lift_rejections : forall f os es, rejections (map (lift f) os) es <-> rejections os es.
Proof.
  induction os as [|x os IH]; intros es; cbn [map]; [reflexivity|].
  rewrite !rejections_cons. split; intros (m & pe & es' & -> & E & H);
    exists m, pe, es'; (split; [reflexivity|]); (split; [|apply IH, H]);
    destruct x; cbn [lift] in *; congruence.
Qed.

Lemma furthest_from : forall ps ps1 es m pe m' pe', es <> [] -> pos_le ps ps1 ->
  (forall x, In x es -> pos_le ps1 (snd x)) ->
  choice_error sd ps es (m, pe) -> choice_error sd ps1 es (m', pe') -> pe = pe'.
Proof.
  intros ps ps1 es m pe m' pe' N L A C C'.
  apply choice_position in C as (C1 & C2 & C3). apply choice_position in C' as (D1 & D2 & D3).
  destruct es as [|e es]; [congruence|].
  assert (LE : pos_le (snd e) pe) by (apply C2; left; reflexivity).
  assert (AE : pos_le ps1 (snd e)) by (apply A; left; reflexivity).
  apply pos_le_antisym.
  - destruct C3 as [->|(x & Hx & <-)]; [exact (pos_le_trans _ _ _ L D1)|auto].
  - destruct D3 as [->|(x & Hx & <-)]; [exact (pos_le_trans _ _ _ AE LE)|auto].
Qed.

Section Factor.
Variable F : pexpr -> pexpr -> pexpr.
Variable comb : value -> value -> value.
Hypothesis HF : runs_both F comb.

Lemma each_after : forall a bs s ps r1 s1 ps1, fitting a ->
  gives sd env a s ps (Accept r1 s1 ps1) -> forall os,
  each sd env (map (F a) bs) s ps os <->
    exists os1, each sd env bs s1 ps1 os1 /\ os = map (lift (comb r1)) os1.
Proof.
  intros a bs s ps r1 s1 ps1 FA GA. induction bs as [|b bs IH]; intros os; cbn [map].
  - split; [intros E; inversion E; subst; exists []; split; [constructor|reflexivity]|].
    intros (os1 & E & ->). inversion E; subst. constructor.
  - split.
    + intros E. apply each_cons_inv in E as (o & os' & -> & G & E).
      apply IH in E as (os1 & E & ->). apply HF in G as [(m & pe & G & ->)|(r & s2 & ps2 & G & H)].
      * discriminate (one_result cfg env HE _ _ _ _ _ FA G GA).
      * pose proof (one_result cfg env HE _ _ _ _ _ FA G GA) as Q. injection Q as -> -> ->.
        destruct H as [(m & pe & H & ->)|(r2 & s3 & ps3 & H & ->)].
        -- exists (Reject m pe :: os1). split; [constructor; auto|reflexivity].
        -- exists (Accept r2 s3 ps3 :: os1). split; [constructor; auto|reflexivity].
    + intros (os1 & E & ->). apply each_cons_inv in E as (o & os' & -> & G & E).
      cbn [map]. constructor; [|apply IH; eauto]. apply HF. right. exists r1, s1, ps1.
      split; auto. destruct (gives_settled _ _ _ _ _ _ G) as [(r & s2 & p2 & ->)|(m & pe & ->)];
        [right|left]; cbn [lift]; eauto 8.
Qed.

Lemma each_broken : forall a bs s ps m pe, fitting a -> gives sd env a s ps (Reject m pe) ->
  forall os, each sd env (map (F a) bs) s ps os <-> os = map (fun _ => Reject m pe) bs.
Proof.
  intros a bs s ps m pe FA GA. induction bs as [|b bs IH]; intros os; cbn [map].
  - split; [intros E; inversion E; subst; reflexivity|intros ->; constructor].
  - split.
    + intros E. apply each_cons_inv in E as (o & os' & -> & G & E). apply IH in E as ->. f_equal.
      apply HF in G as [(m1 & pe1 & G & ->)|(r & s2 & ps2 & G & H)];
        pose proof (one_result cfg env HE _ _ _ _ _ FA G GA); congruence.
    + intros ->. constructor; [|apply IH; reflexivity]. apply HF. left. eauto.
Qed.

Lemma factor_refines : forall a bs, fitting a -> bs <> [] -> goes_ahead sd env a ->
  (forall b, In b bs -> goes_ahead sd env b) ->
  refines_but_message sd env (POneOf (map (F a) bs)) (F a (POneOf bs))
  /\ refines_but_message sd env (F a (POneOf bs)) (POneOf (map (F a) bs)).
Proof.
  intros a bs FA N (A1 & A2) B.
  assert (BR : forall s ps m pe es m' pe', gives sd env a s ps (Reject m pe) ->
    rejections (map (fun _ => Reject m pe) bs) es -> choice_error sd ps es (m', pe') -> pe' = pe).
  { intros s ps m pe es m' pe' GA RJ C. apply choice_position in C as (C1 & C2 & C3).
    assert (X : forall x, In x es -> snd x = pe).
    { unfold rejections in RJ. intros x Hx.
      assert (In (Reject (fst x) (snd x)) (map (fun _ => Reject m pe) bs)) as Q
        by (rewrite RJ; apply (in_map (fun e => Reject (fst e) (snd e))), Hx).
      apply in_map_iff in Q as (? & Q & _). congruence. }
    destruct C3 as [->|(x & Hx & <-)]; [|apply X, Hx].
    apply pos_le_antisym; [eapply A2; eauto|].
    destruct bs as [|b bs]; [congruence|]. unfold rejections in RJ.
    destruct es as [|e es]; [discriminate|]. rewrite <- (X e (or_introl eq_refl)).
    apply C2. left. reflexivity. }
  assert (AF : forall s ps r1 s1 ps1 os1 es, gives sd env a s ps (Accept r1 s1 ps1) ->
    each sd env bs s1 ps1 os1 -> rejections os1 es ->
    es <> [] /\ pos_le ps ps1 /\ forall x, In x es -> pos_le ps1 (snd x)).
  { intros s ps r1 s1 ps1 os1 es GA E RJ. split; [|split].
    - intros ->. apply rejections_nil in RJ || (unfold rejections in RJ; cbn in RJ; subst os1).
      destruct bs; [congruence|inversion E].
    - eapply A1; eauto.
    - clear - B E RJ. unfold rejections in RJ. subst os1.
      revert es E. induction bs as [|b bs IH]; intros [|(m & pe) es] E x Hx; try destruct Hx;
        inversion E; subst.
      + eapply (B b (or_introl eq_refl)); eauto.
      + eapply IH; eauto. intros; apply B; right; auto. }
  split; intros s ps o G.
  - apply gives_chosen in G as (os & E & C).
    assert (GA : exists oa, gives sd env a s ps oa).
    { destruct bs as [|b bs]; [congruence|]. apply each_cons_inv in E as (ob & os' & -> & G & E).
      apply HF in G as [(m & pe & G & _)|(r & s1 & p1 & G & _)]; eauto. }
    destruct GA as (oa & GA).
    destruct (gives_settled _ _ _ _ _ _ GA) as [(r1 & s1 & ps1 & ->)|(m & pe & ->)].
    + apply (each_after a bs s ps r1 s1 ps1 FA GA) in E as (os1 & E1 & ->).
      destruct C as [FI|(es & m & pe & RJ & C & ->)].
      * apply lift_accept_inv in FI as (o1 & FI & ->). assert (K := FI).
        destruct K as ((r & s2 & p2 & ->) & _). eexists. split; [|apply sbm_refl].
        apply HF. right. exists r1, s1, ps1. split; auto. right. exists r, s2, p2.
        split; [|reflexivity]. eapply g_one_of; eauto.
      * apply lift_rejections in RJ. destruct (AF _ _ _ _ _ _ _ GA E1 RJ) as (K1 & K2 & K3).
        destruct (choice_error_ex sd ps1 es) as (m' & pe' & C').
        pose proof (furthest_from _ _ _ _ _ _ _ K1 K2 K3 C C'). subst pe'.
        exists (Reject m' pe). split; [|reflexivity]. apply HF. right. exists r1, s1, ps1.
        split; auto. left. exists m', pe. split; auto. eapply g_one_of_fails; eauto.
    + apply (each_broken a bs s ps m pe FA GA) in E as ->.
      destruct C as [FI|(es & m' & pe' & RJ & C & ->)].
      * exfalso. eapply first_accept_rejects; eauto. apply Forall_map, Forall_forall.
        intros; do 2 eexists; reflexivity.
      * exists (Reject m pe). split; [apply HF; left; eauto|]. cbn. eapply BR; eauto.
  - apply HF in G as [(m & pe & GA & ->)|(r1 & s1 & ps1 & GA & H)].
    + pose proof (proj2 (each_broken a bs s ps m pe FA GA _) eq_refl) as E.
      destruct (chosen_ex sd ps _ (each_settled env sd _ _ _ _ E)) as (o & C).
      exists o. split; [apply gives_chosen; eauto|].
      destruct C as [FI|(es & m' & pe' & RJ & C & ->)].
      * exfalso. eapply first_accept_rejects; eauto. apply Forall_map, Forall_forall.
        intros; do 2 eexists; reflexivity.
      * cbn. symmetry. eapply BR; eauto.
    + destruct H as [(m & pe & G & ->)|(r2 & s2 & ps2 & G & ->)];
        apply gives_chosen in G as (os1 & E1 & C);
        pose proof (proj2 (each_after a bs s ps r1 s1 ps1 FA GA _)
          (ex_intro _ os1 (conj E1 eq_refl))) as E.
      * destruct C as [((? & ? & ? & K) & _)|(es & m' & pe' & RJ & C & K)]; [discriminate|].
        injection K as -> ->. destruct (AF _ _ _ _ _ _ _ GA E1 RJ) as (K1 & K2 & K3).
        destruct (choice_error_ex sd ps es) as (m & pe & C').
        pose proof (furthest_from _ _ _ _ _ _ _ K1 K2 K3 C' C). subst pe'.
        exists (Reject m pe). split; [|reflexivity]. eapply g_one_of_fails; eauto.
        apply lift_rejections, RJ.
      * destruct C as [FI|(? & ? & ? & _ & _ & K)]; [|discriminate].
        eexists. split; [|apply sbm_refl]. eapply g_one_of; [exact E|].
        apply (lift_accept (comb r1) _ _ FI).
Qed.
End Factor.

Ltac two_inv := repeat match goal with
  | H : in_turn _ _ (_ :: _) _ _ _ _ _ |- _ => inversion H; subst; clear H
  | H : in_turn _ _ [] _ _ _ _ _ |- _ => inversion H; subst; clear H
  | H : breaks_off _ _ (_ :: _) _ _ _ _ |- _ => inversion H; subst; clear H
  | H : breaks_off _ _ [] _ _ _ _ |- _ => inversion H; subst; clear H
  end.

Lemma sequence_runs : runs_both (fun a b => PSequence [a; b]) (fun r1 r2 => VSeq [r1; r2]).
Proof.
  intros a b s ps o. split.
  - intros G. inversion G; subst; two_inv; eauto 12.
  - intros [(m & pe & G & ->)|(r1 & s1 & ps1 & G & [(m & pe & H & ->)|(r2 & s2 & ps2 & H & ->)])].
    + apply g_sequence_fails. constructor. exact G.
    + apply g_sequence_fails. eapply breaks_off_later; eauto. constructor. exact H.
    + apply g_sequence. econstructor; eauto. econstructor; eauto. constructor.
Qed.

Lemma first_runs : runs_both (fun a b => PFirstOf [a; b]) (fun r1 _ => r1).
Proof.
  intros a b s ps o. split.
  - intros G. inversion G; subst; two_inv; eauto 12.
  - intros [(m & pe & G & ->)|(r1 & s1 & ps1 & G & [(m & pe & H & ->)|(r2 & s2 & ps2 & H & ->)])].
    + apply g_first_of_fails. constructor. exact G.
    + apply g_first_of_fails. eapply breaks_off_later; eauto. constructor. exact H.
    + eapply g_first_of. econstructor; eauto. econstructor; eauto. constructor.
Qed.

Lemma last_runs : runs_both (fun a b => PLastOf [a; b]) (fun _ r2 => r2).
Proof.
  intros a b s ps o. split.
  - intros G. inversion G; subst; try (two_inv; eauto 12; fail).
    match goal with H : in_turn _ _ _ _ _ (?rs ++ _) _ _ |- _ =>
      destruct rs as [|x [|y [|z rs]]]; cbn [app] in H; two_inv; eauto 12 end.
  - intros [(m & pe & G & ->)|(r1 & s1 & ps1 & G & [(m & pe & H & ->)|(r2 & s2 & ps2 & H & ->)])].
    + apply g_last_of_fails. constructor. exact G.
    + apply g_last_of_fails. eapply breaks_off_later; eauto. constructor. exact H.
    + eapply (g_last_of _ _ _ _ _ _ [r1]). econstructor; eauto. econstructor; eauto. constructor.
Qed.

Lemma in_fits : forall e l p, children e = l -> fitting e -> In p l -> fitting p.
Proof. intros e l p <- F H. eapply every_below; eauto. Qed.

Lemma laws_agree : forall a b, fitting a -> choice_law sd env a b -> agree_but_message sd env a b.
Proof.
  intros a b FA L. destruct L.
  - split; apply swap_refines; auto using exclusive_sym.
  - apply again_refines. eapply every_below; [exact FA|]. cbn [children].
    apply in_app_iff. right. left. reflexivity.
  - apply fail_refines.
  - apply nested_refines.
  - apply single_refines; auto.
  - refine (factor_refines (fun a b => PSequence [a; b]) _ sequence_runs a bs _ _ _ _); auto.
    destruct bs as [|b bs]; [congruence|].
    eapply (every_below _ (PSequence [a; b])); [|left; reflexivity].
    eapply every_below; [exact FA|]. left. reflexivity.
  - refine (factor_refines (fun a b => PLastOf [a; b]) _ last_runs a bs _ _ _ _); auto.
    destruct bs as [|b bs]; [congruence|].
    eapply (every_below _ (PLastOf [a; b])); [|left; reflexivity].
    eapply every_below; [exact FA|]. left. reflexivity.
  - refine (factor_refines (fun a b => PFirstOf [a; b]) _ first_runs a bs _ _ _ _); auto.
    destruct bs as [|b bs]; [congruence|].
    eapply (every_below _ (PFirstOf [a; b])); [|left; reflexivity].
    eapply every_below; [exact FA|]. left. reflexivity.
Qed.
End Laws.

(** ** Alternatives that are never chosen *)

Section Hidden.
Variable cfg : config.
Variable env : program.
Hypothesis HE : program_every (fits cfg) env.
Local Notation sd := (cfg_std cfg).
Local Notation fitting := (every (fits cfg)).

Lemma in_each : forall l s ps os, each sd env l s ps os -> forall p, In p l ->
  exists o, In o os /\ gives sd env p s ps o.
Proof.
  induction l as [|q l IH]; intros s ps os E p []; apply each_cons_inv in E as (o & os' & -> & G & E).
  - subst. exists o. split; [left|]; auto.
  - destruct (IH _ _ _ E _ H) as (o' & I & G'). exists o'. split; [right|]; auto.
Qed.

Lemma hidden_outcome : forall l q s ps os o, (forall p, In p l -> fitting p) ->
  each sd env l s ps os -> gives sd env q s ps o ->
  (forall s ps, takes sd env q s ps -> exists p, In p l /\ takes sd env p s ps) ->
  is_accept o -> ~ Forall is_reject os.
Proof.
  intros l q s ps os o FL E G H (r & s' & p' & ->) J.
  destruct (H s ps) as (p & I & (r1 & s1 & p1 & G1)); [unfold takes; eauto|].
  destruct (in_each _ _ _ _ E _ I) as (o1 & I1 & G2).
  rewrite (one_result cfg env HE _ _ _ _ _ (FL _ I) G2 G1) in I1.
  rewrite Forall_forall in J. destruct (J _ I1) as (? & ? & K). discriminate.
Qed.

Lemma hidden_accept : forall l1 q l2, (forall p, In p l1 -> fitting p) ->
  (forall s ps, takes sd env q s ps -> exists p, In p l1 /\ takes sd env p s ps) ->
  forall s ps o, is_accept o ->
    (gives sd env (POneOf (l1 ++ q :: l2)) s ps o
     <-> (exists oq, gives sd env q s ps oq) /\ gives sd env (POneOf (l1 ++ l2)) s ps o).
Proof.
  intros l1 q l2 FL H s ps o A. split.
  - intros G. inversion G; subst; [|destruct A as (? & ? & ? & K); discriminate].
    match goal with X : each _ _ _ _ _ _ |- _ => rename X into E end.
    apply each_app in E as (o1 & o2 & -> & E1 & E).
    apply each_cons_inv in E as (oq & o3 & -> & Gq & E).
    split; [exists oq; exact Gq|].
    apply (g_one_of sd env (l1 ++ l2) s ps (o1 ++ o3) o); [apply each_app; eauto|].
    match goal with X : first_accept _ _ |- _ => rename X into F end.
    apply first_accept_app in F as [F|(J & F)]; apply first_accept_app; auto. right. split; auto.
    apply first_accept_cons in F as [(F & ->)|(_ & F)]; auto.
    destruct (hidden_outcome _ _ _ _ _ _ FL E1 Gq H F J).
  - intros ((oq & Gq) & G). inversion G; subst; [|destruct A as (? & ? & ? & K); discriminate].
    match goal with X : each _ _ _ _ _ _ |- _ => rename X into E end.
    apply each_app in E as (o1 & o2 & -> & E1 & E).
    apply (g_one_of sd env (l1 ++ q :: l2) s ps (o1 ++ oq :: o2) o).
    + apply each_app. exists o1, (oq :: o2). split; [reflexivity|]. split; [exact E1|].
      constructor; assumption.
    + match goal with X : first_accept _ _ |- _ => rename X into F end.
      apply first_accept_app in F as [F|(J & F)]; apply first_accept_app; auto.
      right. split; auto. apply first_accept_cons. right.
      split; auto. destruct (gives_settled _ _ _ _ _ _ Gq) as [K|K]; auto.
      destruct (hidden_outcome _ _ _ _ _ _ FL E1 Gq H K J).
Qed.

Lemma hidden_reject : forall l1 q l2,
  forall s ps m pe, gives sd env (POneOf (l1 ++ q :: l2)) s ps (Reject m pe) ->
    exists m' pe', gives sd env (POneOf (l1 ++ l2)) s ps (Reject m' pe') /\ pos_le pe' pe.
Proof.
  intros l1 q l2 s ps m pe G. apply gives_chosen in G as (os & E & C).
  destruct C as [((? & ? & ? & K) & _)|(es & m1 & pe1 & RJ & C & K)]; [discriminate|].
  injection K as -> ->.
  apply each_app in E as (o1 & o2 & -> & E1 & E).
  apply each_cons_inv in E as (oq & o3 & -> & Gq & E).
  apply rejections_app in RJ as (e1 & e2 & -> & R1 & R2).
  apply rejections_cons in R2 as (mq & peq & e3 & -> & -> & R3).
  destruct (choice_error_ex sd ps (e1 ++ e3)) as (m' & pe' & C').
  exists m', pe'. split.
  - eapply g_one_of_fails; [apply each_app; eauto|apply rejections_app; eauto|exact C'].
  - apply choice_position in C as (C1 & C2 & C3). apply choice_position in C' as (D1 & D2 & D3).
    destruct D3 as [->|(x & Hx & <-)]; auto. apply C2. apply in_app_iff in Hx.
    apply in_app_iff. cbn [In]. tauto.
Qed.
End Hidden.

(** ** Keywords *)

Lemma prefix_of_same : forall (u w s : str), prefix u s -> prefix w s ->
  (length u <= length w)%nat -> prefix u w.
Proof.
  induction u as [|c u IH]; intros w s (a & A) (b & B) L; [exists w; reflexivity|].
  destruct w as [|d w]; cbn [length] in L; [lia|]. rewrite A in B. cbn [app] in B.
  injection B as -> B. destruct (IH w (u ++ a)) as (x & ->); [exists a; auto|exists b; auto|lia|].
  exists x. reflexivity.
Qed.

Lemma prefix_antisym : forall (u w : str), prefix u w -> prefix w u -> u = w.
Proof.
  intros u w (a & ->) (b & E). rewrite <- app_assoc in E.
  assert (a ++ b = []) as K by (apply (app_inv_head u); rewrite app_nil_r; auto).
  apply app_eq_nil in K as (-> & _). rewrite app_nil_r. reflexivity.
Qed.

Section Keywords.
Variable sd : std.
Variable env : program.

Lemma keyword_accept : forall k s ps o, gives sd env (keyword_of k) s ps o ->
  (is_accept o <-> prefix (fst k) s)
  /\ (is_accept o -> exists s' ps', s = fst k ++ s' /\ walk ps (fst k) ps' /\ o = Accept (snd k) s' ps').
Proof.
  intros (k & v) s ps o G. unfold keyword_of in G. cbn [fst snd] in *. inversion G; subst.
  - split; [|intros _; eauto 6]. split; [intros _; eexists; reflexivity|intros _; do 3 eexists; reflexivity].
  - split; [|intros (? & ? & ? & K); discriminate].
    split; [intros (? & ? & ? & K); discriminate|]. intros (rest & E). exfalso.
    rewrite <- app_assoc in E. apply app_inv_head in E. subst.
    match goal with N : not_starting_with _ _ |- _ => cbn in N; congruence end.
Qed.

Lemma keyword_ex : forall k s ps, exists o, gives sd env (keyword_of k) s ps o.
Proof.
  intros (k & v) s ps. unfold keyword_of. cbn [fst snd]. revert s ps.
  assert (X : forall k s, (exists s', s = k ++ s')
     \/ exists u c k' s', k = u ++ c :: k' /\ s = u ++ s' /\ not_starting_with (fun d => d = c) s').
  { clear. induction k as [|c k IH]; intros s; [left; exists s; reflexivity|].
    destruct s as [|d s].
    - right. exists [], c, k, []. repeat split.
    - destruct (Z.eq_dec d c) as [->|N].
      + destruct (IH s) as [(s' & ->)|(u & c' & k' & s' & -> & -> & N)].
        * left. exists s'. reflexivity.
        * right. exists (c :: u), c', k', s'. auto.
      + right. exists [], c, k, (d :: s). repeat split. exact N. }
  intros s ps. destruct (X k s) as [(s' & ->)|(u & c & k' & s' & -> & -> & N)].
  - eexists. apply g_keyword, walk_adv.
  - eexists. apply g_keyword_differs; [exact N|apply walk_adv].
Qed.

Lemma each_ex : forall l s ps, (forall p, In p l -> exists o, gives sd env p s ps o) ->
  exists os, each sd env l s ps os.
Proof.
  induction l as [|p l IH]; intros s ps H; [exists []; constructor|].
  destruct (H p (or_introl eq_refl)) as (o & G). destruct IH with (s := s) (ps := ps) as (os & E).
  { intros q Hq. apply H. right. exact Hq. }
  exists (o :: os). constructor; auto.
Qed.

Lemma shorter_keyword : forall k k' w, fst k = fst k' ++ w -> forall s ps,
  takes sd env (keyword_of k) s ps -> takes sd env (keyword_of k') s ps.
Proof.
  intros k k' w E s ps (r & s1 & ps1 & G). destruct (keyword_accept _ _ _ _ G) as ((KA & _) & _).
  destruct KA as (rest & ->); [do 3 eexists; reflexivity|].
  destruct (keyword_ex k' (fst k ++ rest) ps) as (o & G').
  destruct (keyword_accept _ _ _ _ G') as ((_ & KB) & KC).
  destruct KC as (s' & ps' & _ & _ & ->).
  - apply KB. exists (w ++ rest). rewrite E, <- app_assoc. reflexivity.
  - do 3 eexists. exact G'.
Qed.

Lemma first_keyword_ex : forall ks s ps os k, each sd env (map keyword_of ks) s ps os ->
  In k ks -> prefix (fst k) s -> exists o, first_accept os o.
Proof.
  induction ks as [|k0 ks IH]; intros s ps os k E I P; [destruct I|].
  cbn [map] in E. inversion E; subst.
  match goal with G : gives _ _ (keyword_of k0) _ _ _ |- _ =>
    destruct (keyword_accept _ _ _ _ G) as ((_ & KA) & _);
    destruct (gives_settled _ _ _ _ _ _ G) as [A|J] end.
  - exists o. apply first_accept_cons. auto.
  - destruct I as [->|I]; [exfalso; eapply accept_not_reject; eauto|].
    match goal with E' : each _ _ (map _ ks) _ _ _ |- _ =>
      destruct (IH _ _ _ _ E' I P) as (o' & F) end.
    exists o'. apply first_accept_cons. auto.
Qed.

Lemma first_keyword : forall ks, longer_first ks -> forall s ps os o,
  each sd env (map keyword_of ks) s ps os -> first_accept os o ->
  exists k s' ps', In k ks /\ s = fst k ++ s' /\ walk ps (fst k) ps' /\ o = Accept (snd k) s' ps'
    /\ forall k', In k' ks -> prefix (fst k') s ->
         (length (fst k') <= length (fst k))%nat /\ (length (fst k') = length (fst k) -> k' = k).
Proof.
  induction ks as [|k ks IH]; intros LF s ps os o E F; cbn [map] in E.
  - inversion E; subst. destruct (first_accept_nil _ F).
  - destruct LF as (N & LF). inversion E; subst.
    match goal with G : gives _ _ (keyword_of k) _ _ _ |- _ =>
      destruct (keyword_accept _ _ _ _ G) as (KA & KB) end.
    apply first_accept_cons in F as [(A & ->)|(J & F)].
    + destruct (KB A) as (s' & ps' & -> & W & ->). exists k, s', ps'.
      split; [left; reflexivity|]. repeat split; auto; destruct H as [<-|I]; auto.
      * destruct (Nat.le_gt_cases (length (fst k')) (length (fst k))) as [L|L]; auto.
        exfalso. apply (N _ I). eapply prefix_of_same; [eexists; reflexivity|exact H0|lia].
      * intros L. exfalso. apply (N _ I). eapply prefix_of_same; [eexists; reflexivity|exact H0|lia].
    + match goal with E' : each _ _ (map _ ks) _ _ _ |- _ =>
        destruct (IH LF _ _ _ _ E' F) as (k0 & s' & ps' & I & -> & W & -> & M) end.
      exists k0, s', ps'. split; [right; exact I|]. split; auto. split; auto. split; auto.
      intros k' [<-|I'] P; [|apply M; auto]. exfalso. apply KA in P.
      eapply accept_not_reject; eauto.
Qed.
End Keywords.
