(** Proofs for the part of C37 about messages. *)

From Coq Require Import ZArith List Bool Lia.
From Verif Require Import Base Util Deep Spec SpecDeep SpecRules SpecVague
  Proofs_Pos Proofs_Deep Proofs_Rules Proofs_Laws Proofs_Moved.
Import ListNotations.
Open Scope Z_scope.

Section Main.
Variables sd1 sd2 : std.
Variable env : program.
Variable V : msg -> msg -> Prop.
(** The parsers that are allowed. *)
Variable A : pexpr -> Prop.

Definition vrel (o o' : outcome) : Prop :=
  match o, o' with
  | Reject m q, Reject m' q' => q = q' /\ V m m'
  | _, _ => o = o'
  end.
Definition verr (a b : msg * pos) : Prop := snd a = snd b /\ V (fst a) (fst b).

Definition respects (e : pexpr) : Prop := A e /\
  match e with
  | PTransformError _ f => forall m m' q, V m m' -> vrel (f m q) (f m' q)
  | PTransformErrorMessage _ f => forall m m', V m m' ->
      match f m, f m' with
      | Some x, Some y => V x y
      | None, None => True
      | _, _ => False
      end
  | _ => True
  end.

Hypothesis V_refl : forall m, V m m.
Hypothesis V_unpaired : forall l c m m', V m m' -> V (unpaired l c m) (unpaired l c m').
Hypothesis V_one_of_c : forall cs s, A (POneOfC cs) -> V (one_of_c_error sd1 cs s) (one_of_c_error sd2 cs s).
Hypothesis V_last_of : A (PLastOf []) -> V
  (index_out_of_range 0 (-1) (match sd1 with Std98 => -1 | _ => 0 end))
  (index_out_of_range 0 (-1) (match sd2 with Std98 => -1 | _ => 0 end)).
Hypothesis V_choice : forall l ps es es' e, A (POneOf l) -> Forall2 verr es es' -> choice_error sd1 ps es e ->
  exists e', choice_error sd2 ps es' e' /\ verr e e'.
Hypothesis HE : program_every respects env.

Definition respects_all (l : list pexpr) : Prop := forall c, In c l -> every respects c.

Lemma vacc : forall e s ps r s' ps',
  (exists o', gives sd2 env e s ps o' /\ vrel (Accept r s' ps') o') ->
  gives sd2 env e s ps (Accept r s' ps').
Proof. intros e s ps r s' ps' (o' & G & R). destruct o'; simpl in R; try discriminate. congruence. Qed.
Lemma vrej : forall e s ps m q,
  (exists o', gives sd2 env e s ps o' /\ vrel (Reject m q) o') ->
  exists m', gives sd2 env e s ps (Reject m' q) /\ V m m'.
Proof.
  intros e s ps m q (o' & G & R). destruct o'; simpl in R; try discriminate.
  destruct R as (-> & R). eauto.
Qed.
Lemma vrel_same : forall o, vrel o o.
Proof. destruct o; simpl; auto. Qed.
Lemma vrel_rej : forall m m' q, V m m' -> vrel (Reject m q) (Reject m' q).
Proof. simpl. auto. Qed.

Lemma gives_vague :
  (forall e s ps o, gives sd1 env e s ps o -> every respects e ->
     exists o', gives sd2 env e s ps o' /\ vrel o o')
  /\ (forall p s ps rs s' ps', many sd1 env p s ps rs s' ps' -> every respects p ->
     many sd2 env p s ps rs s' ps')
  /\ (forall l s ps rs s' ps', in_turn sd1 env l s ps rs s' ps' -> respects_all l ->
     in_turn sd2 env l s ps rs s' ps')
  /\ (forall l s ps m pe, breaks_off sd1 env l s ps m pe -> respects_all l ->
     exists m', breaks_off sd2 env l s ps m' pe /\ V m m')
  /\ (forall l s ps os, each sd1 env l s ps os -> respects_all l ->
     exists os', each sd2 env l s ps os' /\ Forall2 vrel os os').
Proof.
  apply rules_mind.
  all: try (intros; match goal with H : every respects ?x |- _ =>
         inversion H as [? (?Ha & ?Hq) ?Hc]; subst; simpl in Hq, Hc; try contradiction end).
  all: try match goal with IH : every respects ?p -> _ |- _ =>
         specialize (IH ltac:(first [assumption | apply HE | apply Hc; simpl; auto])) end.
  all: try match goal with IH : every respects ?p -> _ |- _ =>
         specialize (IH ltac:(first [assumption | apply Hc; simpl; auto])) end.
  all: try match goal with IH : every respects ?p -> _ |- _ =>
         specialize (IH ltac:(first [assumption | apply Hc; simpl; auto])) end.
  all: try match goal with IH : respects_all ?l -> _ |- _ =>
         specialize (IH ltac:(intros ?c ?I; simpl in *; apply Hc; intuition (subst; auto))) end.
  all: repeat match goal with
       | IH : exists o', gives _ _ _ _ _ o' /\ vrel (Accept _ _ _) o' |- _ => apply vacc in IH
       | IH : exists o', gives _ _ _ _ _ o' /\ vrel (Reject _ _) o' |- _ =>
           apply vrej in IH as (?m' & IH & ?M)
       | IH : exists m', breaks_off _ _ _ _ _ m' _ /\ V _ m' |- _ => destruct IH as (?m' & IH & ?M)
       end.
  all: try (eexists; split; [solve [econstructor; eauto]|];
            first [apply vrel_same | apply vrel_rej; auto]; fail).
  all: try solve [econstructor; eauto].
  - destruct H0 as (o' & G & R). exists o'. split; [constructor; exact G|exact R].
  - exists (f m' pe). specialize (Hq m m' pe M). split; [|exact Hq].
    eapply g_transform_error; [exact H0|reflexivity|].
    destruct H2 as [(r & s' & q & E)|(x & q & E)]; rewrite E in Hq; simpl in Hq.
    + destruct (f m' pe); try discriminate. left. do 3 eexists. reflexivity.
    + destruct (f m' pe); try discriminate. right. do 2 eexists. reflexivity.
  - specialize (Hq m m'0 M). rewrite H1 in Hq. destruct (f m'0) as [y|] eqn:E; [|contradiction].
    exists (Reject y pe). split; [eapply g_transform_error_message; eauto|simpl; auto].
  - destruct H0 as (os' & G & F). destruct H1 as (Ac & o1 & o2 & -> & B).
    apply Forall2_app_inv_l in F as (k1 & k' & F1 & F2 & ->).
    inversion F2 as [|? x ? k2 R F3]; subst. exists x. split; [|exact R].
    eapply g_one_of; [exact G|]. split.
    + destruct Ac as (r & s' & q & ->). destruct x; simpl in R; try discriminate. do 3 eexists; reflexivity.
    + exists k1, k2. split; [reflexivity|].
      clear - B F1. induction F1 as [|a b l k R F IH]; [constructor|].
      inversion B as [|? ? Ba Bl]; subst. constructor; auto.
      destruct Ba as (m & q & ->). destruct b; simpl in R; try discriminate. do 2 eexists. reflexivity.
  - destruct H0 as (os' & G & F). unfold rejections in H1. subst os.
    assert (X : exists es2, rejections os' es2 /\ Forall2 verr es es2).
    { clear - F. revert os' F. induction es as [|e es IH]; simpl; intros os2 F;
        inversion F as [|? x ? k R F3]; subst.
      - exists []. split; [reflexivity|constructor].
      - destruct (IH _ F3) as (es2 & E & F4). destruct x as [|m' q'| |]; simpl in R; try discriminate.
        destruct R as (Eq & Vm).
        exists ((m', q') :: es2). split; [unfold rejections in *; simpl; congruence|].
        constructor; auto. split; auto. }
    destruct X as (es2 & E & F2).
    destruct (V_choice l ps es es2 (m, pe) Ha F2 H2) as ((m2 & pe2) & C & Eq & Vm). simpl in Eq, Vm. subst pe2.
    exists (Reject m2 pe). split; [|simpl; auto]. eapply g_one_of_fails; eauto.
  - intros p l s ps r s1 ps1 rs s2 ps2 _ IH1 _ IH2 B.
    econstructor; [apply vacc, IH1, B; left; reflexivity|apply IH2; intros x I; apply B; right; exact I].
  - intros p l s ps m pe _ IH B.
    apply vrej in IH as (m' & G & M); [|apply B; left; reflexivity].
    exists m'. split; [constructor; exact G|exact M].
  - intros p l s ps r s1 ps1 m pe _ IH1 _ IH2 B.
    destruct (IH2 (fun x I => B x (or_intror I))) as (m' & T & M).
    exists m'. split; [eapply breaks_off_later; [apply vacc, IH1, B; left; reflexivity|exact T]|exact M].
  - intros. exists []. split; constructor.
  - intros p l s ps o os _ IH1 _ IH2 B.
    destruct (IH1 (B p (or_introl eq_refl))) as (o2 & G & R).
    destruct (IH2 (fun x I => B x (or_intror I))) as (os2 & T & F).
    exists (o2 :: os2). split; constructor; auto.
Qed.
End Main.

(** The choice of the error by the two implementations. *)
Lemma verr_in_r : forall V es es' y, Forall2 (verr V) es es' -> In y es' ->
  exists x, In x es /\ snd x = snd y.
Proof.
  intros V es es' y F I. destruct (Forall2_in_r _ _ _ _ _ _ F I) as (x & Ix & E & _). eauto.
Qed.

Lemma choice_98_11 : forall ps es es' e, Forall2 (verr vaguer) es es' ->
  last_furthest ((none_of_the_expected_cases_found, ps) :: es) e ->
  exists e', last_furthest (es' ++ [(none_of_the_expected_cases_found, ps)]) e'
    /\ verr vaguer e e'.
Proof.
  intros ps es es' e F (l1 & l2 & E & B1 & B2). destruct l1 as [|d l1]; injection E as <- ->.
  - exists (none_of_the_expected_cases_found, ps). split; [|split; [reflexivity|constructor]].
    exists es', []. split; [reflexivity|]. split; [|intros x []].
    intros y I. destruct (verr_in_r _ _ _ _ F I) as (x & Ix & Ey). rewrite <- Ey. left. apply B2, Ix.
  - pose proof (B1 _ (or_introl eq_refl)) as L. simpl in L.
    apply Forall2_app_inv_l in F as (k1 & k' & F1 & F2 & ->).
    inversion F2 as [|? e' ? k2 R F3]; subst. destruct R as (Ee & Ve).
    destruct L as [L|L].
    + exists e'. split; [|split; assumption].
      exists k1, (k2 ++ [(none_of_the_expected_cases_found, ps)]).
      split; [rewrite <- app_assoc; reflexivity|]. rewrite <- Ee. split.
      * intros y I. destruct (verr_in_r _ _ _ _ F1 I) as (x & Ix & Ey). rewrite <- Ey.
        apply B1. right. exact Ix.
      * intros y I. apply in_app_or in I as [I|[<-|[]]]; [|exact L].
        destruct (verr_in_r _ _ _ _ F3 I) as (x & Ix & Ey). rewrite <- Ey. apply B2, Ix.
    + exists (none_of_the_expected_cases_found, ps).
      split; [|split; [simpl; congruence|simpl; constructor]].
      exists (k1 ++ e' :: k2), []. split; [reflexivity|]. split; [|intros x []].
      intros y I. simpl. rewrite L. apply in_app_or in I as [I|[<-|I]].
      * destruct (verr_in_r _ _ _ _ F1 I) as (x & Ix & Ey). rewrite <- Ey. apply B1. right. exact Ix.
      * rewrite <- Ee. apply pos_le_refl.
      * destruct (verr_in_r _ _ _ _ F3 I) as (x & Ix & Ey). rewrite <- Ey. left. apply B2, Ix.
Qed.

Lemma choice_11_98 : forall ps es es' e, Forall2 (verr (fun a b => vaguer b a)) es es' ->
  last_furthest (es ++ [(none_of_the_expected_cases_found, ps)]) e ->
  exists e', last_furthest ((none_of_the_expected_cases_found, ps) :: es') e'
    /\ verr (fun a b => vaguer b a) e e'.
Proof.
  intros ps es es' e F (l1 & l2 & E & B1 & B2).
  destruct (exists_last (l := (none_of_the_expected_cases_found, ps) :: es')) as (i & d & Ei); [discriminate|].
  destruct l2 as [|x l2] using rev_ind; [|clear IHl2].
  - apply app_inj_tail in E as (<- & <-). simpl in B1.
    destruct (furthest_ex i d) as (e' & W & _). rewrite <- Ei in W. exists e'. split; [exact W|].
    assert (snd e' = ps).
    { destruct W as (k1 & k2 & Ek & C1 & C2). apply pos_le_antisym.
      - assert (I : In e' ((none_of_the_expected_cases_found, ps) :: es')) by (rewrite Ek; apply in_elt).
        destruct I as [<-|I]; [apply pos_le_refl|].
        destruct (verr_in_r _ _ _ _ F I) as (x & Ix & Ey). rewrite <- Ey. apply B1, Ix.
      - destruct k1 as [|y k1]; injection Ek as <- _; [apply pos_le_refl|].
        apply (C1 (none_of_the_expected_cases_found, ps)). left. reflexivity. }
    split; [simpl; congruence|constructor].
  - rewrite app_comm_cons, app_assoc in E. apply app_inj_tail in E as (-> & <-).
    apply Forall2_app_inv_l in F as (k1 & k' & F1 & F2 & ->).
    inversion F2 as [|? e' ? k2 R F3]; subst. destruct R as (Ee & Ve). exists e'.
    split; [|split; assumption].
    assert (L : pos_lt ps (snd e)).
    { apply (B2 (none_of_the_expected_cases_found, ps)). apply in_or_app. right. left. reflexivity. }
    exists ((none_of_the_expected_cases_found, ps) :: k1), k2. split; [reflexivity|].
    rewrite <- Ee. split.
    + intros y [<-|I]; [left; exact L|].
      destruct (verr_in_r _ _ _ _ F1 I) as (x & Ix & Ey). rewrite <- Ey. apply B1, Ix.
    + intros y I. destruct (verr_in_r _ _ _ _ F3 I) as (x & Ix & Ey). rewrite <- Ey.
      apply B2. apply in_or_app. left. exact Ix.
Qed.
