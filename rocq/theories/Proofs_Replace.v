(** Proofs about replacing parts of a parser. *)

From Coq Require Import ZArith List Bool Lia.
From Verif Require Import Base Deep Spec SpecDeep SpecRules SpecReplace
  Proofs_Deep Proofs_Rules.
Import ListNotations.
Open Scope Z_scope.

Lemma with_children_same : forall e, with_children e (children e) = e.
Proof. destruct e; reflexivity. Qed.

Lemma with_children_back : forall e l, length l = length (children e) ->
  with_children (with_children e l) (children e) = e
  /\ children (with_children e l) = l.
Proof.
  destruct e; intros l0 H; cbn [children length] in H; try (split; reflexivity);
    destruct l0 as [|? [|? [|? [|? ?]]]]; try discriminate H; split; reflexivity.
Qed.

Lemma Forall2_len : forall A B (R : A -> B -> Prop) l l',
  Forall2 R l l' -> length l = length l'.
Proof. induction 1; cbn; congruence. Qed.

Lemma replaced_refl : forall R e, replaced R e e.
Proof.
  intros R. apply pexpr_children_ind. intros e IH.
  rewrite <- (with_children_same e) at 2. apply replaced_inside.
  induction (children e) as [|c l IHl]; constructor.
  - apply IH. left; reflexivity.
  - apply IHl. intros; apply IH. right; assumption.
Qed.

Lemma replaced_inv : forall R e e', replaced R e e' ->
  R e e' \/ exists l, e = with_children e' l /\ Forall2 (replaced R) l (children e').
Proof.
  intros R e e' H. destruct H as [a b H|e l F]; [left; assumption|right].
  exists (children e).
  destruct (with_children_back e l) as (A & B).
  { symmetry. eapply Forall2_len; eauto. }
  rewrite A, B. auto.
Qed.

Lemma Forall2_flip : forall A B (R : A -> B -> Prop) (Q : B -> A -> Prop) l l',
  (forall a b, R a b -> Q b a) -> Forall2 R l l' -> Forall2 Q l' l.
Proof. induction 2; constructor; auto. Qed.

(** Reading the replacements backwards. *)
Lemma replaced_sym : forall R e e', replaced R e e' ->
  replaced (fun a b => R b a) e' e.
Proof.
  intros R. apply (pexpr_children_ind (fun e => forall e', replaced R e e' ->
                     replaced (fun a b => R b a) e' e)).
  intros e IH e' H. destruct H as [a b H|e l F]; [apply replaced_here; assumption|].
  destruct (with_children_back e l) as (A & B).
  { symmetry. eapply Forall2_len; eauto. }
  rewrite <- A at 2. apply replaced_inside. rewrite B. clear A B.
  revert l F. induction (children e) as [|c cs IHc]; intros l F; inversion F; subst;
    constructor.
  - apply IH; [left; reflexivity|assumption].
  - apply IHc; [|assumption]. intros; apply IH; [right|]; assumption.
Qed.

Section Sound.
Variable sd : std.
Variables env env' : program.
Variable R : pexpr -> pexpr -> Prop.
Hypothesis HP : replaced_program R env env'.
Hypothesis HR : forall a b, R a b -> refines sd env b a.

(** It is enough to consider replacements below the top. *)
Lemma below : forall e' s ps o,
  (forall l, Forall2 (replaced R) l (children e') -> gives sd env (with_children e' l) s ps o) ->
  forall e, replaced R e e' -> gives sd env e s ps o.
Proof.
  intros e' s ps o H e HE. destruct (replaced_inv _ _ _ HE) as [A|(l & -> & F)]; auto.
  apply (HR _ _ A). rewrite <- (with_children_same e'). apply H.
  clear. induction (children e'); constructor; auto. apply replaced_refl.
Qed.

Lemma replaced_sound :
  (forall e' s ps o, gives sd env' e' s ps o ->
     forall e, replaced R e e' -> gives sd env e s ps o)
  /\ (forall p' s ps rs s' ps', many sd env' p' s ps rs s' ps' ->
     forall p, replaced R p p' -> many sd env p s ps rs s' ps')
  /\ (forall l' s ps rs s' ps', in_turn sd env' l' s ps rs s' ps' ->
     forall l, Forall2 (replaced R) l l' -> in_turn sd env l s ps rs s' ps')
  /\ (forall l' s ps m pe, breaks_off sd env' l' s ps m pe ->
     forall l, Forall2 (replaced R) l l' -> breaks_off sd env l s ps m pe)
  /\ (forall l' s ps os, each sd env' l' s ps os ->
     forall l, Forall2 (replaced R) l l' -> each sd env l s ps os).
Proof.
  apply rules_mind; intros.
  all: match goal with
       | HE : replaced R ?e _ |- gives _ _ ?e _ _ _ =>
           revert e HE; apply below; cbn [children]; intros l0 F
       | HF : Forall2 _ ?l _ |- _ => try (inversion HF; subst; clear HF)
       | _ => idtac
       end.
  all: repeat match goal with
       | F : Forall2 _ _ (_ :: _) |- _ => inversion F; subst; clear F
       | F : Forall2 _ _ [] |- _ => inversion F; subst; clear F
       end; cbn [with_children].
  all: try match goal with
       | F : Forall2 (replaced R) ?l ?l' |- _ =>
           pose proof (Forall2_len _ _ _ _ _ F) as L; try rewrite <- L in *
       end.
  all: try solve [econstructor; eauto using Forall2_nil, Forall2_cons].
  all: idtac.
Qed.
End Sound.
