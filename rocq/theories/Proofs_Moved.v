(** Proofs for the part of C38 about messages. *)

From Coq Require Import ZArith List Bool Lia.
From Verif Require Import Base Util Deep Spec SpecDeep SpecRules SpecMoved
  Proofs_Pos Proofs_Deep Proofs_Rules Proofs_Rel.
Import ListNotations.
Open Scope Z_scope.

Definition srel (s : str) (ps1 ps2 : pos) (o1 o2 : outcome) : Prop :=
  match o1, o2 with
  | Accept r1 rem1 q1, Accept r2 rem2 q2 =>
      r1 = r2 /\ rem1 = rem2 /\ exists w, s = w ++ rem1 /\ q1 = adv ps1 w /\ q2 = adv ps2 w
  | Reject m1 q1, Reject m2 q2 =>
      moved s ps1 ps2 m1 m2 /\ exists w, prefix w s /\ q1 = adv ps1 w /\ q2 = adv ps2 w
  | Illformed, Illformed => True
  | OutOfFuel, OutOfFuel => True
  | _, _ => False
  end.

Lemma srel_same_all : forall s ps1 ps2 o1 o2,
  srel s ps1 ps2 o1 o2 <-> same_all s ps1 ps2 o1 o2.
Proof.
  intros. unfold same_all. rewrite <- orel_same_at. destruct o1, o2; simpl; tauto.
Qed.

Lemma moved_later : forall w s ps1 ps2 m1 m2, moved s (adv ps1 w) (adv ps2 w) m1 m2 ->
  moved (w ++ s) ps1 ps2 m1 m2.
Proof.
  intros w s ps1 ps2 m1 m2 H. induction H as [m|v q1 q2 m1 m2 (t & ->) W1 W2 H IH]; [constructor|].
  apply (moved_unpaired _ _ _ (w ++ v)); auto.
  - exists t. rewrite app_assoc. auto.
  - rewrite walk_iff in *. rewrite adv_app. auto.
  - rewrite walk_iff in *. rewrite adv_app. auto.
Qed.

Lemma srel_later : forall w s1 ps1 ps2 o1 o2,
  srel s1 (adv ps1 w) (adv ps2 w) o1 o2 -> srel (w ++ s1) ps1 ps2 o1 o2.
Proof.
  intros w s1 ps1 ps2 o1 o2 H. destruct o1, o2; simpl in *; auto.
  - destruct H as (A & B & w2 & -> & -> & ->). repeat split; auto.
    exists (w ++ w2). rewrite app_assoc, !adv_app. auto.
  - destruct H as (A & w2 & [t ->] & -> & ->). split; [apply moved_later; auto|].
    exists (w ++ w2). rewrite !adv_app. split; auto. exists t. rewrite app_assoc. auto.
Qed.

Lemma srel_here : forall s ps1 ps2 v, srel s ps1 ps2 (Accept v s ps1) (Accept v s ps2).
Proof. intros. repeat split; auto. exists []. auto. Qed.
Lemma srel_no : forall s ps1 ps2 m, srel s ps1 ps2 (Reject m ps1) (Reject m ps2).
Proof.
  intros. split; [constructor|]. exists []. split; auto. exists s. auto.
Qed.
#[global] Hint Resolve srel_here srel_no : srel.

Lemma srel_acc : forall s ps1 ps2 r rem q o, srel s ps1 ps2 (Accept r rem q) o ->
  exists w, s = w ++ rem /\ q = adv ps1 w /\ o = Accept r rem (adv ps2 w).
Proof.
  intros s ps1 ps2 r rem q [] H; simpl in H; try contradiction.
  destruct H as (-> & -> & w & A & B & C). exists w. subst. auto.
Qed.
Lemma srel_rej : forall s ps1 ps2 m q o, srel s ps1 ps2 (Reject m q) o ->
  exists w m', prefix w s /\ q = adv ps1 w /\ o = Reject m' (adv ps2 w) /\ moved s ps1 ps2 m m'.
Proof.
  intros s ps1 ps2 m q [] H; simpl in H; try contradiction.
  destruct H as (D & w & A & B & C). exists w. subst. eauto.
Qed.

Lemma adv_neq : forall w ps1 ps2, adv ps1 w <> ps1 -> adv ps2 w <> ps2.
Proof. intros w ps1 ps2 H E. apply H. apply adv_fix. apply adv_fix in E. auto. Qed.
Lemma adv_eq : forall w ps1 ps2, ps1 = adv ps1 w -> adv ps2 w = ps2.
Proof. intros w ps1 ps2 E. apply adv_fix. symmetry in E. apply adv_fix in E. auto. Qed.

Lemma Forall2_in_r : forall A B (R : A -> B -> Prop) l k y, Forall2 R l k -> In y k ->
  exists x, In x l /\ R x y.
Proof.
  intros A B R l k y F. induction F as [|a b l k H F IH]; intros []; [subst; exists a; simpl; auto|].
  destruct (IH H0) as (x & I & Q). exists x. simpl. auto.
Qed.

(** The last one of the furthest errors is the same one. *)
Lemma furthest_moved : forall s ps1 ps2 es1 es2 e1,
  Forall2 (fun a b => srel s ps1 ps2 (Reject (fst a) (snd a)) (Reject (fst b) (snd b))) es1 es2 ->
  last_furthest es1 e1 ->
  exists e2, last_furthest es2 e2
    /\ srel s ps1 ps2 (Reject (fst e1) (snd e1)) (Reject (fst e2) (snd e2)).
Proof.
  intros s ps1 ps2 es1 es2 e1 F (l1 & l2 & -> & A & B).
  apply Forall2_app_inv_l in F as (k1 & k' & F1 & F2 & ->).
  inversion F2 as [|? e2 ? k2 R F3]; subst. exists e2. split; [|exact R].
  exists k1, k2. split; [reflexivity|].
  destruct R as (_ & w & Pw & E1 & E2).
  split; intros x I.
  - destruct (Forall2_in_r _ _ _ _ _ _ F1 I) as (y & Iy & (_ & v & Pv & Ey & Ex)).
    specialize (A y Iy). rewrite Ey, E1 in A. rewrite Ex, E2.
    apply pos_less_false_iff. rewrite (pos_less_adv_cases w v s ps2 ps1 Pw Pv).
    apply pos_less_false_iff. exact A.
  - destruct (Forall2_in_r _ _ _ _ _ _ F3 I) as (y & Iy & (_ & v & Pv & Ey & Ex)).
    specialize (B y Iy). rewrite Ey, E1 in B. rewrite Ex, E2.
    apply pos_less_iff. rewrite (pos_less_adv_cases v w s ps2 ps1 Pv Pw). apply pos_less_iff. exact B.
Qed.

Section Main.
Variable sd : std.
Variable env : program.
Hypothesis HE : program_every position_blind env.

Definition blind_all (l : list pexpr) : Prop := forall c, In c l -> every position_blind c.

Lemma acc_form : forall e s ps r s' ps',
  (forall ps2, exists o2, gives sd env e s ps2 o2 /\ srel s ps ps2 (Accept r s' ps') o2) ->
  exists w, s = w ++ s' /\ ps' = adv ps w /\
    forall ps2, gives sd env e s ps2 (Accept r s' (adv ps2 w)).
Proof.
  intros e s ps r s' ps' H. destruct (H ps) as (o & _ & R). apply srel_acc in R as (w & -> & -> & _).
  exists w. repeat split; auto. intros ps2. destruct (H ps2) as (o2 & G & R).
  apply srel_acc in R as (w' & E & _ & ->). apply app_inv_tail in E. subst w'. exact G.
Qed.

Lemma rej_form : forall e s ps m pe,
  (forall ps2, exists o2, gives sd env e s ps2 o2 /\ srel s ps ps2 (Reject m pe) o2) ->
  forall ps2, exists w m', prefix w s /\ pe = adv ps w /\
    gives sd env e s ps2 (Reject m' (adv ps2 w)) /\ moved s ps ps2 m m'.
Proof.
  intros e s ps m pe H ps2. destruct (H ps2) as (o & G & R).
  apply srel_rej in R as (w & m' & P & -> & -> & M). eauto 8.
Qed.

Lemma srel_accept : forall w s ps1 ps2 v,
  srel (w ++ s) ps1 ps2 (Accept v s (adv ps1 w)) (Accept v s (adv ps2 w)).
Proof. intros. repeat split; auto. exists w. auto. Qed.
Lemma srel_reject : forall w s ps1 ps2 m1 m2, prefix w s -> moved s ps1 ps2 m1 m2 ->
  srel s ps1 ps2 (Reject m1 (adv ps1 w)) (Reject m2 (adv ps2 w)).
Proof. intros. split; eauto. Qed.

Ltac fin := first [solve [eauto using srel_accept, srel_reject with srel] | apply srel_later; fin].
Ltac acc H := apply srel_acc in H as (?w & -> & -> & ->).
Ltac rej H := apply srel_rej in H as (?w & ?m' & ?P & -> & -> & ?M).

Lemma gives_moved :
  (forall e s ps o, gives sd env e s ps o -> every position_blind e ->
     forall ps2, exists o2, gives sd env e s ps2 o2 /\ srel s ps ps2 o o2)
  /\ (forall p s ps rs s' ps', many sd env p s ps rs s' ps' -> every position_blind p ->
     exists w, s = w ++ s' /\ ps' = adv ps w /\
       forall ps2, many sd env p s ps2 rs s' (adv ps2 w))
  /\ (forall l s ps rs s' ps', in_turn sd env l s ps rs s' ps' -> blind_all l ->
     exists w, s = w ++ s' /\ ps' = adv ps w /\
       forall ps2, in_turn sd env l s ps2 rs s' (adv ps2 w))
  /\ (forall l s ps m pe, breaks_off sd env l s ps m pe -> blind_all l ->
     forall ps2, exists m2 pe2, breaks_off sd env l s ps2 m2 pe2
       /\ srel s ps ps2 (Reject m pe) (Reject m2 pe2))
  /\ (forall l s ps os, each sd env l s ps os -> blind_all l ->
     forall ps2, exists os2, each sd env l s ps2 os2 /\ Forall2 (srel s ps ps2) os os2).
Proof.
  apply rules_mind.
  all: try (intros; match goal with H : every position_blind ?x |- _ =>
         inversion H as [? ?Hq ?Hc]; subst; simpl in Hq, Hc; try contradiction end).
  all: try match goal with IH : every position_blind ?p -> _ |- _ =>
         specialize (IH ltac:(first [assumption | apply HE | apply Hc; simpl; auto])) end.
  all: try match goal with IH : every position_blind ?p -> _ |- _ =>
         specialize (IH ltac:(first [assumption | apply Hc; simpl; auto])) end.
  all: try match goal with IH : every position_blind ?p -> _ |- _ =>
         specialize (IH ltac:(first [assumption | apply Hc; simpl; auto])) end.
  all: try match goal with IH : blind_all ?l -> _ |- _ =>
         specialize (IH ltac:(intros ?c ?I; simpl in *; apply Hc; intuition (subst; auto))) end.
  all: repeat match goal with
       | IH : forall ps2, exists o2, gives _ _ _ _ ps2 o2 /\ srel _ _ ps2 (Accept _ _ _) o2 |- _ =>
           apply acc_form in IH as (?w & ?E & ?E & IH)
       | IH : exists w, _ = w ++ _ /\ _ |- _ => destruct IH as (?w & ?E & ?E & IH)
       end.
  all: subst.
  all: try match goal with |- exists o2, gives _ _ _ _ ?ps2 o2 /\ srel _ ?ps ?ps2 _ _ =>
         repeat match goal with
         | IH : forall q, exists o2, gives _ _ _ _ q o2 /\ srel _ ?st q (Reject _ _) o2 |- _ =>
             let q := (match st with context C [ps] => let x := context C [ps2] in x end) in
             apply rej_form with (ps2 := q) in IH as (?w & ?m' & ?P & ?E & IH & ?M)
         | IH : forall q, exists m2 pe2, breaks_off _ _ _ _ q m2 pe2 /\ srel _ ?st q _ _ |- _ =>
             specialize (IH ps2) as (?m2 & ?pe2 & IH & ?R)
         end end.
  all: subst.
  all: try match goal with E : ?a = adv ?a ?w, G : gives _ _ _ _ ?b (Reject _ (adv ?b ?w)) |- _ =>
         rewrite (adv_eq w a b E) in G end.
  all: repeat match goal with W : walk _ _ _ |- _ => apply walk_iff in W; subst end.
  all: try (eexists; split; [solve [econstructor; eauto using adv_neq]|]; fin).
  all: try (eexists; split; [solve [econstructor; eauto; apply walk_iff; eauto]|]; fin).
  all: try (specialize (Hq _ ps _ ps2 _ _ M) as (? & ? & ? & ? & ?); congruence).
  - (* native *)
    specialize (Hq s ps ps2). apply srel_same_all in Hq. rewrite H in Hq.
    apply srel_acc in Hq as (w & -> & -> & E). eexists; split; [econstructor; exact E|]. fin.
  - specialize (Hq s ps ps2). apply srel_same_all in Hq. rewrite H in Hq.
    apply srel_rej in Hq as (w & m' & P & -> & E & M). eexists; split; [econstructor; exact E|]. fin.
  - (* named *) destruct (H0 ps2) as (o2 & G & R). exists o2. split; [constructor; exact G|exact R].
  - eexists; split; [constructor; apply walk_iff; reflexivity|]. apply (srel_accept [c] s).
  - eexists; split; [constructor; [assumption|apply walk_iff; reflexivity]|]. apply (srel_accept [c] s).
  - eexists; split; [constructor; [assumption|apply walk_iff; reflexivity]|]. apply (srel_accept [c] s).
  - destruct (Hq s ps ps2 (adv ps w) (adv ps2 w) m m' M) as (m1 & m2 & E1 & E2 & M2).
    rewrite E1. exists (Reject m2 (adv ps2 w)). split; [|fin].
    eapply g_transform_error; [exact H0|exact E2|]. right. do 2 eexists. reflexivity.
  - destruct (Hq s ps ps2 m m'0 M) as (m1 & m2 & E1 & E2 & M2).
    rewrite E1 in H1. injection H1 as ->. exists (Reject m2 (adv ps2 w)). split; [|fin].
    eapply g_transform_error_message; eauto.
  - (* one_of, accepted *)
    destruct (H0 ps2) as (os2 & G & F). destruct H1 as (A & o1 & o2 & -> & B).
    apply Forall2_app_inv_l in F as (k1 & k' & F1 & F2 & ->).
    inversion F2 as [|? x ? k2 R F3]; subst. exists x. split; [|exact R].
    eapply g_one_of; [exact G|]. split.
    + destruct A as (r & s' & q & ->). apply srel_acc in R as (w & _ & _ & ->).
      do 3 eexists. reflexivity.
    + exists k1, k2. split; [reflexivity|].
      clear - B F1. induction F1 as [|a b l k R F IH]; [constructor|].
      inversion B as [|? ? Ba Bl]; subst. constructor; auto.
      destruct Ba as (m & q & ->). apply srel_rej in R as (w & m' & _ & _ & -> & _).
      do 2 eexists. reflexivity.
  - (* one_of, rejected *)
    destruct (H0 ps2) as (os2 & G & F). unfold rejections in H1. subst os.
    assert (X : exists es2, rejections os2 es2 /\ Forall2
      (fun a b => srel s ps ps2 (Reject (fst a) (snd a)) (Reject (fst b) (snd b))) es es2).
    { clear - F. revert os2 F. induction es as [|e es IH]; simpl; intros os2 F; inversion F as [|? x ? k R F3]; subst.
      - exists []. split; [reflexivity|constructor].
      - destruct (IH _ F3) as (es2 & E & F4). apply srel_rej in R as (w & m' & P & E2 & -> & M).
        exists ((m', adv ps2 w) :: es2). split; [unfold rejections in *; simpl; congruence|].
        constructor; auto. simpl. rewrite E2. split; eauto. }
    destruct X as (es2 & E & F2).
    assert (Y : exists e2, choice_error sd ps2 es2 e2
      /\ srel s ps ps2 (Reject m pe) (Reject (fst e2) (snd e2))).
    { unfold choice_error in *. destruct sd;
        (eapply furthest_moved in H2; [exact H2|]).
      - constructor; [apply srel_no|exact F2].
      - apply Forall2_app; [exact F2|]. constructor; [apply srel_no|constructor].
      - apply Forall2_app; [exact F2|]. constructor; [apply srel_no|constructor]. }
    destruct Y as ((m2 & pe2) & C & R). exists (Reject m2 pe2). split; [|exact R].
    eapply g_one_of_fails; eauto.
  - (* middle_of, unpaired *)
    eexists. split; [eapply g_middle_of_unpaired; eauto|].
    split.
    + apply (moved_unpaired _ _ _ []).
      * exists (w ++ s'). reflexivity.
      * apply walk_iff. reflexivity.
      * apply walk_iff. reflexivity.
      * apply moved_later. exact M.
    + exists (w ++ w0). rewrite !adv_app. repeat split; auto. destruct P as (t & ->).
      exists t. rewrite app_assoc. reflexivity.
  - exists []. repeat split; auto. intros. constructor.
  - exists (w ++ w0). rewrite app_assoc, adv_app. repeat split; auto.
    intros q. rewrite adv_app, <- app_assoc. econstructor; eauto.
  - intros s ps _. exists []. repeat split; auto. intros. constructor.
  - intros p l s ps r s1 ps1 rs s2 ps2 _ IH1 _ IH2 B.
    specialize (IH1 (B p (or_introl eq_refl))). apply acc_form in IH1 as (w & -> & -> & G).
    destruct IH2 as (w2 & -> & -> & T); [intros x I; apply B; right; exact I|].
    exists (w ++ w2). rewrite app_assoc, adv_app. repeat split; auto.
    intros q. rewrite adv_app, <- app_assoc. econstructor; eauto.
  - intros p l s ps m pe _ IH B ps2.
    apply rej_form with (ps2 := ps2) in IH as (w & m' & P & -> & G & M); [|apply B; left; reflexivity].
    exists m', (adv ps2 w). split; [constructor; exact G|fin].
  - intros p l s ps r s1 ps1 m pe _ IH1 _ IH2 B ps2.
    specialize (IH1 (B p (or_introl eq_refl))). apply acc_form in IH1 as (w & -> & -> & G).
    destruct (IH2 (fun x I => B x (or_intror I)) (adv ps2 w)) as (m2 & pe2 & T & R).
    exists m2, pe2. split; [eapply breaks_off_later; eauto|]. apply srel_later. exact R.
  - intros p l s ps o os _ IH1 _ IH2 B ps2.
    destruct (IH1 (B p (or_introl eq_refl)) ps2) as (o2 & G & R).
    destruct (IH2 (fun x I => B x (or_intror I)) ps2) as (os2 & T & F).
    exists (o2 :: os2). split; constructor; auto.
Qed.
End Main.
