(** Proofs for C89. *)

From Coq Require Import ZArith List Bool Lia.
From Verif Require Import Base Deep Spec SpecDeep SpecRules SpecReplace SpecNames
  Proofs_Deep Proofs_Rules Proofs_Replace.
Import ListNotations.
Open Scope Z_scope.

Section Sound.
Variable sd : std.
Variables env env' : program.
Variable C : nat -> nat -> Prop.
Notation sim := (same_up_to_names env env' C).
Hypothesis HC : consistent env env' C.

(** Names on the right are unfolded first. *)
Lemma names_below : forall e s ps o,
  (forall k, e <> PRef k) ->
  (forall l, Forall2 sim (children e) l -> gives sd env' (with_children e l) s ps o) ->
  forall e', sim e e' -> gives sd env' e' s ps o.
Proof.
  intros e s ps o N H e' S. induction S as [j k c|e l N' F|j e' S IH|e k S IH].
  - destruct (N j eq_refl).
  - auto.
  - destruct (N j eq_refl).
  - apply g_ref. auto.
Qed.

Lemma names_ref : forall j s ps o,
  (forall e', sim (env j) e' -> gives sd env' e' s ps o) ->
  forall e', sim (PRef j) e' -> gives sd env' e' s ps o.
Proof.
  intros j s ps o H e' S. remember (PRef j) as e eqn:E. revert j E H.
  induction S as [j k c|e l N' F|j e' S IH|e k S IH]; intros i E H.
  - injection E as ->. apply g_ref, H, HC, c.
  - destruct (N' i E).
  - injection E as ->. apply H, S.
  - apply g_ref. eauto.
Qed.

Lemma names_sound :
  (forall e s ps o, gives sd env e s ps o -> forall e', sim e e' -> gives sd env' e' s ps o)
  /\ (forall p s ps rs s' ps', many sd env p s ps rs s' ps' ->
     forall p', sim p p' -> many sd env' p' s ps rs s' ps')
  /\ (forall l s ps rs s' ps', in_turn sd env l s ps rs s' ps' ->
     forall l', Forall2 sim l l' -> in_turn sd env' l' s ps rs s' ps')
  /\ (forall l s ps m pe, breaks_off sd env l s ps m pe ->
     forall l', Forall2 sim l l' -> breaks_off sd env' l' s ps m pe)
  /\ (forall l s ps os, each sd env l s ps os ->
     forall l', Forall2 sim l l' -> each sd env' l' s ps os).
Proof.
  apply rules_mind; intros.
  all: match goal with
       | HE : same_up_to_names _ _ _ (PRef _) ?e |- gives _ _ ?e _ _ _ =>
           revert e HE; apply names_ref; assumption
       | HE : same_up_to_names _ _ _ _ ?e |- gives _ _ ?e _ _ _ =>
           revert e HE; apply names_below; [discriminate|]; cbn [children]; intros l0 F
       | HF : Forall2 _ _ ?l |- _ => try (inversion HF; subst; clear HF)
       | _ => idtac
       end.
  all: repeat match goal with
       | F : Forall2 _ (_ :: _) _ |- _ => inversion F; subst; clear F
       | F : Forall2 _ [] _ |- _ => inversion F; subst; clear F
       end; cbn [with_children].
  all: try match goal with
       | F : Forall2 (same_up_to_names _ _ _) ?l ?l' |- _ =>
           pose proof (Forall2_len _ _ _ _ _ F) as L; try rewrite L in *
       end.
  all: try solve [econstructor; eauto using Forall2_nil, Forall2_cons].
  all: idtac.
Qed.
End Sound.

Section Sim_ind.
Variables env env' : program.
Variable C : nat -> nat -> Prop.
Variable P : pexpr -> pexpr -> Prop.
Hypothesis H1 : forall j k, C j k -> P (PRef j) (PRef k).
Hypothesis H2 : forall e l, (forall k, e <> PRef k) -> length l = length (children e) ->
  Forall2 P (children e) l -> P e (with_children e l).
Hypothesis H3 : forall j e', P (env j) e' -> P (PRef j) e'.
Hypothesis H4 : forall e k, P e (env' k) -> P e (PRef k).

Fixpoint sim_ind2 (e e' : pexpr) (T : same_up_to_names env env' C e e') {struct T} : P e e' :=
  match T with
  | names_belong _ _ _ j k c => H1 j k c
  | names_inside _ _ _ e l N F =>
      H2 e l N (eq_sym (Forall2_len _ _ _ _ _ F))
        ((fix go (a b : list pexpr) (F : Forall2 (same_up_to_names env env' C) a b)
            : Forall2 P a b :=
            match F with
            | Forall2_nil _ => Forall2_nil _
            | Forall2_cons x y s f => Forall2_cons x y (sim_ind2 x y s) (go _ _ f)
            end) (children e) l F)
  | names_left _ _ _ j e' T => H3 j e' (sim_ind2 _ _ T)
  | names_right _ _ _ e k T => H4 e k (sim_ind2 _ _ T)
  end.
End Sim_ind.

Lemma with_children_not_ref : forall e l, (forall k, e <> PRef k) ->
  forall k, with_children e l <> PRef k.
Proof.
  intros e l N k. destruct e; simpl; try discriminate;
    try (destruct l as [|? [|? [|? [|? ?]]]]; discriminate).
  destruct (N k0 eq_refl).
Qed.

Lemma names_sym : forall env env' C e e', same_up_to_names env env' C e e' ->
  same_up_to_names env' env (fun k j => C j k) e' e.
Proof.
  intros env env' C. apply sim_ind2.
  - intros. constructor. assumption.
  - intros e l N L F. destruct (with_children_back e l L) as (A & B).
    rewrite <- A at 2. apply names_inside.
    + apply with_children_not_ref, N.
    + rewrite B. clear - F. induction F; constructor; auto.
  - intros. apply names_right. assumption.
  - intros. apply names_left. assumption.
Qed.

(** [with_names] and children. *)
Lemma with_names_children : forall f e, (forall k, e <> PRef k) ->
  with_names f e = with_children e (map (with_names f) (children e)).
Proof. intros f e N. destruct e; try reflexivity. destruct (N k eq_refl). Qed.

Lemma is_ref_dec : forall e, (exists k, e = PRef k) \/ (forall k, e <> PRef k).
Proof. intros e. destruct e; try (right; discriminate). left. eauto. Qed.

Lemma names_with : forall env env' (C : nat -> nat -> Prop) f e,
  (forall k, mentioned k e -> same_up_to_names env env' C (PRef k) (f k)) ->
  same_up_to_names env env' C e (with_names f e).
Proof.
  intros env env' C f. apply (pexpr_children_ind (fun e =>
    (forall k, mentioned k e -> same_up_to_names env env' C (PRef k) (f k)) ->
    same_up_to_names env env' C e (with_names f e))).
  intros e IH H. destruct (is_ref_dec e) as [(k & ->)|N].
  - apply H. constructor.
  - rewrite with_names_children by exact N. apply names_inside; [exact N|].
    assert (G : forall c, In c (children e) -> same_up_to_names env env' C c (with_names f c)).
    { intros c I. apply IH; auto. intros k M. apply H. eapply mentioned_inside; eauto. }
    clear - G. induction (children e) as [|c l IHl]; simpl; constructor; simpl in *; auto.
Qed.

Lemma with_names_same : forall e, with_names PRef e = e.
Proof.
  apply pexpr_children_ind. intros e IH. destruct (is_ref_dec e) as [(k & ->)|N]; [reflexivity|].
  rewrite with_names_children by exact N. transitivity (with_children e (children e)).
  - f_equal. induction (children e) as [|c l IHl]; simpl in *; f_equal; auto.
  - apply with_children_same.
Qed.

Lemma names_inlined : forall env env' e e', inlined env e e' ->
  same_up_to_names env env' eq e e'.
Proof.
  intros env env'. apply (pexpr_children_ind (fun e => forall e', inlined env e e' ->
    same_up_to_names env env' eq e e')).
  assert (R : forall e, same_up_to_names env env' eq e e).
  { intros e. rewrite <- (with_names_same e) at 2. apply names_with. intros. constructor. reflexivity. }
  intros e IH e' H. destruct H as [a b (k & -> & ->)|e l F].
  - apply names_left, R.
  - destruct (is_ref_dec e) as [(k & ->)|N].
    + inversion F. subst. apply R.
    + apply names_inside; [exact N|]. clear - IH F.
      induction F; constructor; simpl in *; auto.
Qed.

Lemma nameless_with : forall f e, (forall k, mentioned k e -> nameless (f k)) ->
  nameless (with_names f e).
Proof.
  intros f. apply (pexpr_children_ind (fun e => (forall k, mentioned k e -> nameless (f k)) ->
    nameless (with_names f e))).
  intros e IH H. destruct (is_ref_dec e) as [(k & ->)|N]; [apply H; constructor|].
  rewrite with_names_children by exact N. constructor; [apply with_children_not_ref, N|].
  intros c I.
  destruct (with_children_back e (map (with_names f) (children e)) (map_length _ _)) as (_ & B).
  rewrite B in I. apply in_map_iff in I as (x & <- & I). apply IH; auto.
  intros k M. apply H. eapply mentioned_inside; eauto.
Qed.

(** Definitions that do not go round in circles can be unfolded. *)
Fixpoint unfolded (env : program) (n : nat) (k : nat) : pexpr :=
  match n with
  | O => PRef k
  | S n' => with_names (unfolded env n') (env k)
  end.

Lemma unfolded_names : forall env env' (rank : nat -> nat) (Q : nat -> Prop) n k,
  (forall i j, Q i -> mentioned j (env i) -> Q j /\ (rank j < rank i)%nat) ->
  Q k -> (rank k < n)%nat ->
  nameless (unfolded env n k)
  /\ same_up_to_names env env' (fun _ _ => False) (PRef k) (unfolded env n k).
Proof.
  intros env env' rank Q n. induction n as [|n IH]; intros k HR HQ L; [lia|]. simpl. split.
  - apply nameless_with. intros j M. destruct (HR _ _ HQ M). apply IH; auto. lia.
  - apply names_left, names_with. intros j M. destruct (HR _ _ HQ M). apply IH; auto. lia.
Qed.

Lemma rank_bound : forall (rank : nat -> nat) e,
  exists n, forall k, mentioned k e -> (rank k < n)%nat.
Proof.
  intros rank. apply pexpr_children_ind. intros e IH.
  assert (G : exists n, forall c k, In c (children e) -> mentioned k c -> (rank k < n)%nat).
  { induction (children e) as [|c l IHl]; [exists 0%nat; intros c k []|].
    destruct (IH c (or_introl eq_refl)) as (n1 & A).
    destruct IHl as (n2 & B); [intros x I; apply IH; right; exact I|].
    exists (n1 + n2)%nat. intros x k [<-|I] M; [specialize (A k M)|specialize (B x k I M)]; lia. }
  destruct G as (n & G). destruct (is_ref_dec e) as [(j & ->)|N].
  - exists (S (rank j)). intros k M. inversion M; subst; [lia|contradiction].
  - exists n. intros k M. inversion M as [E|? c I M']; subst; [destruct (N k eq_refl)|eauto].
Qed.
