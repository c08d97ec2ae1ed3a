(** Proofs of the laws of SpecLaws.v. *)

From Coq Require Import ZArith List Bool Lia.
From Verif Require Import Base Deep Spec SpecDeep SpecRules SpecReplace SpecLaws
  Proofs_Pos Proofs_Fold Proofs_Variadic Proofs_Deep Proofs_Final3 Proofs_Rules Proofs_Replace.
Import ListNotations.
Open Scope Z_scope.

Ltac is_applied e := first [is_var e; fail 1 | idtac].
Ltac inv1 :=
  match goal with
  | H : gives _ _ ?e _ _ _ |- _ => is_applied e; inversion H; subst; clear H
  | H : in_turn _ _ ?l _ _ _ _ _ |- _ => is_applied l; inversion H; subst; clear H
  | H : breaks_off _ _ ?l _ _ _ _ |- _ => is_applied l; inversion H; subst; clear H
  | H : each _ _ ?l _ _ _ |- _ => is_applied l; inversion H; subst; clear H
  | H : Some _ = Some _ |- _ => injection H; intros; subst; clear H
  end.
Ltac inv := repeat inv1.

#[local] Hint Constructors gives many in_turn breaks_off each : rules.


(** ** The last one of the furthest errors *)

Definition best (a b e : msg * pos) : Prop :=
  (pos_le (snd a) (snd b) /\ e = b) \/ (pos_lt (snd b) (snd a) /\ e = a).

Lemma best_ex : forall a b, exists e, best a b e.
Proof.
  intros a b. destruct (pos_lt_total (snd a) (snd b)) as [H|[H|H]].
  - exists b. left; split; [left|]; auto.
  - exists b. left; split; [right|]; auto.
  - exists a. right; auto.
Qed.

Lemma furthest_app : forall a b ea eb e, last_furthest a ea -> last_furthest b eb ->
  best ea eb e -> last_furthest (a ++ b) e.
Proof.
  intros a b ea eb e Ha Hb [(L & ->)|(L & ->)].
  - destruct (last_furthest_max _ _ Ha) as (_ & M).
    destruct Hb as (l1 & l2 & -> & A & B). exists (a ++ l1), l2.
    rewrite <- app_assoc. split; [reflexivity|]. split; auto.
    intros x Hx. apply in_app_or in Hx as [Hx|Hx]; auto.
    eapply pos_le_trans; eauto.
  - destruct (last_furthest_max _ _ Hb) as (_ & M).
    destruct Ha as (l1 & l2 & -> & A & B). exists l1, (l2 ++ b).
    rewrite <- app_assoc. split; [reflexivity|]. split; auto.
    intros x Hx. apply in_app_or in Hx as [Hx|Hx]; auto.
    eapply pos_le_lt_trans; eauto.
Qed.

Lemma furthest_ex : forall es d, exists e, last_furthest (es ++ [d]) e /\ pos_le (snd d) (snd e).
Proof.
  induction es as [|x es IH]; intros d.
  - exists d. split; [apply last_furthest_single|apply pos_le_refl].
  - destruct (IH d) as (e & H & L). destruct (best_ex x e) as (r & B). exists r. split.
    + apply (furthest_app [x] (es ++ [d]) x e r); auto. apply last_furthest_single.
    + destruct B as [(_ & ->)|(B & ->)]; auto. left. eapply pos_le_lt_trans; eauto.
Qed.

Lemma furthest_swap : forall b b', (exists e, last_furthest b e /\ last_furthest b' e) ->
  forall a, exists e, last_furthest (a ++ b) e /\ last_furthest (a ++ b') e.
Proof.
  intros b b' H. induction a as [|x a (e & H1 & H2)]; [exact H|].
  destruct (best_ex x e) as (r & B). exists r.
  split; eapply (furthest_app [x]); eauto using last_furthest_single.
Qed.

Lemma choice_error_nested : forall sd ps es1 es2 es3 e2 e, sd <> Std98 ->
  choice_error sd ps es2 e2 ->
  (choice_error sd ps (es1 ++ e2 :: es3) e <-> choice_error sd ps (es1 ++ es2 ++ es3) e).
Proof.
  intros sd ps es1 es2 es3 e2 e N C.
  set (d := (none_of_the_expected_cases_found, ps)).
  assert (X : forall es x, choice_error sd ps es x <-> last_furthest (es ++ [d]) x)
    by (intros; destruct sd; [congruence|reflexivity|reflexivity]).
  apply X in C. rewrite !X. rewrite <- !app_assoc. cbn [app].
  destruct (furthest_ex es3 d) as (eb & HB & L).
  destruct (furthest_swap (d :: es3 ++ [d]) (es3 ++ [d])) with (a := es2) as (e0 & H1 & H2).
  { exists eb. split; auto. apply (furthest_app [d] (es3 ++ [d]) d eb); auto.
    - apply last_furthest_single.
    - left; auto. }
  destruct (furthest_swap (e2 :: es3 ++ [d]) (es2 ++ es3 ++ [d])) with (a := es1)
    as (r & R1 & R2).
  { destruct (best_ex e2 eb) as (r & B). exists r.
    split; [apply (furthest_app [e2] (es3 ++ [d]) e2 eb); auto using last_furthest_single|].
    assert (Q : last_furthest (es2 ++ d :: es3 ++ [d]) r).
    { change (d :: es3 ++ [d]) with ([d] ++ es3 ++ [d]). rewrite app_assoc.
      eapply furthest_app; eauto. }
    rewrite (last_furthest_unique _ _ _ Q H1). exact H2. }
  split; intros H.
  - rewrite (last_furthest_unique _ _ _ H R1). exact R2.
  - rewrite (last_furthest_unique _ _ _ H R2). exact R1.
Qed.

Lemma choice_error_nested_98 : forall ps es1 es2 es3 e2 e, es2 <> [] ->
  (forall x, In x es2 -> pos_le ps (snd x)) -> choice_error Std98 ps es2 e2 ->
  (choice_error Std98 ps (es1 ++ e2 :: es3) e <-> choice_error Std98 ps (es1 ++ es2 ++ es3) e).
Proof.
  intros ps es1 es2 es3 e2 e N B C. cbn [choice_error] in *.
  apply last_furthest_drop_first in C; auto.
  set (d := (none_of_the_expected_cases_found, ps)).
  assert (X : exists r, last_furthest (e2 :: es3) r /\ last_furthest (es2 ++ es3) r).
  { destruct es3 as [|x es3] using rev_ind.
    - exists e2. rewrite app_nil_r. split; auto. apply last_furthest_single.
    - clear IHes3. destruct (furthest_ex es3 x) as (eb & HB & _).
      destruct (best_ex e2 eb) as (r & R). exists r. split.
      + apply (furthest_app [e2] (es3 ++ [x]) e2 eb); auto. apply last_furthest_single.
      + eapply furthest_app; eauto. }
  destruct (furthest_swap _ _ X (d :: es1)) as (r & R1 & R2). cbn [app] in R1, R2.
  split; intros H.
  - rewrite (last_furthest_unique _ _ _ H R1). exact R2.
  - rewrite (last_furthest_unique _ _ _ H R2). exact R1.
Qed.

Lemma choice_error_ex : forall sd ps es, exists m pe, choice_error sd ps es (m, pe).
Proof.
  intros sd ps es.
  assert (X : exists e, choice_error sd ps es e).
  { destruct sd; cbn [choice_error].
    - destruct (furthest_ex (removelast ((none_of_the_expected_cases_found, ps) :: es))
                  (last es (none_of_the_expected_cases_found, ps))) as (e & H & _).
      exists e.
      assert (Q : (none_of_the_expected_cases_found, ps) :: es
        = removelast ((none_of_the_expected_cases_found, ps) :: es)
          ++ [last es (none_of_the_expected_cases_found, ps)]).
      { rewrite (app_removelast_last (none_of_the_expected_cases_found, ps)
          (l := (none_of_the_expected_cases_found, ps) :: es)) at 1 by discriminate.
        f_equal. f_equal. destruct es; reflexivity. }
      rewrite Q. exact H.
    - destruct (furthest_ex es (none_of_the_expected_cases_found, ps)) as (e & H & _); eauto.
    - destruct (furthest_ex es (none_of_the_expected_cases_found, ps)) as (e & H & _); eauto. }
  destruct X as ((m & pe) & X). eauto.
Qed.

(** ** The first acceptance *)

Lemma accept_not_reject : forall o, is_accept o -> is_reject o -> False.
Proof. intros o (a & b & c & ->) (d & f & H). discriminate. Qed.

Lemma first_accept_app : forall a b o, first_accept (a ++ b) o <->
  first_accept a o \/ (Forall is_reject a /\ first_accept b o).
Proof.
  induction a as [|x a IH]; intros b o; cbn [app].
  - split; [intros H; right; auto|]. intros [(_ & l1 & l2 & H & _)|(_ & H)]; auto.
    destruct l1; discriminate.
  - split.
    + intros (A & l1 & l2 & E & F). destruct l1 as [|y l1]; cbn [app] in E.
      * injection E as -> <-. left. split; auto. exists [], a. auto.
      * injection E as -> E. inversion F; subst.
        destruct (proj1 (IH b o)) as [(_ & l1' & l2' & -> & F')|(F' & H)].
        -- split; auto. exists l1, l2. auto.
        -- left. split; auto. exists (y :: l1'), l2'. auto.
        -- right. auto.
    + intros [(A & l1 & l2 & E & F)|(F & H)].
      * split; auto. exists l1, (l2 ++ b). split; auto.
        change (x :: a ++ b) with ((x :: a) ++ b). rewrite E, <- app_assoc. reflexivity.
      * inversion F; subst.
        destruct (proj2 (IH b o)) as (A & l1 & l2 & E & F'); [right; auto|].
        split; auto. exists (x :: l1), l2. cbn. rewrite E. auto.
Qed.

Lemma first_accept_cons : forall x b o, first_accept (x :: b) o <->
  (is_accept x /\ o = x) \/ (is_reject x /\ first_accept b o).
Proof.
  intros x b o. change (x :: b) with ([x] ++ b). rewrite first_accept_app.
  split; (intros [H|(F & H)]; [left|right]).
  - destruct H as (A & l1 & l2 & E & F). destruct l1 as [|y l1]; cbn in E.
    + injection E as -> _. auto.
    + injection E as _ E. destruct l1; discriminate.
  - inversion F; auto.
  - destruct H as (F & ->). split; auto. exists [], []. auto.
  - auto.
Qed.

Lemma rejections_iff : forall os, (exists es, rejections os es) <-> Forall is_reject os.
Proof.
  induction os as [|o os IH]; split.
  - constructor.
  - intros _. exists []. reflexivity.
  - intros (es & H). destruct es as [|(m & pe) es]; [discriminate|].
    injection H as -> H. constructor; [do 2 eexists; reflexivity|]. apply IH. eauto.
  - intros F. inversion F as [|? ? (m & pe & ->) F']; subst. apply IH in F' as (es & R).
    exists ((m, pe) :: es). unfold rejections in *. rewrite R. reflexivity.
Qed.

Lemma rejections_app : forall a b es, rejections (a ++ b) es <->
  exists e1 e2, es = e1 ++ e2 /\ rejections a e1 /\ rejections b e2.
Proof.
  intros a b es. unfold rejections. split.
  - intros H. symmetry in H. apply map_eq_app in H as (e1 & e2 & -> & <- & <-). eauto.
  - intros (e1 & e2 & -> & -> & ->). rewrite map_app. reflexivity.
Qed.

Lemma settled_split : forall os, Forall settled os ->
  (exists o, first_accept os o) \/ Forall is_reject os.
Proof.
  induction 1 as [|x os H F IH]; [right; constructor|].
  destruct H as [H|H].
  - left. exists x. apply first_accept_cons. auto.
  - destruct IH as [(o & IH)|IH]; [left; exists o; apply first_accept_cons; auto|right].
    constructor; auto.
Qed.

Lemma first_accept_rejects : forall os o, first_accept os o -> Forall is_reject os -> False.
Proof.
  intros os o (A & l1 & l2 & -> & _) F. apply Forall_app in F as (_ & F).
  inversion F; subst. eapply accept_not_reject; eauto.
Qed.

Lemma first_accept_unique : forall os o o', first_accept os o -> first_accept os o' -> o = o'.
Proof.
  induction os as [|x os IH]; intros o o' H H'.
  - destruct H as (_ & l1 & l2 & E & _). destruct l1; discriminate.
  - apply first_accept_cons in H as [(A & ->)|(A & H)];
      apply first_accept_cons in H' as [(A' & ->)|(A' & H')]; auto;
      exfalso; eapply accept_not_reject; eauto.
Qed.

(** ** Lists of parsers *)

Section Lists.
Variable sd : std.
Variable env : program.
Notation gives := (gives sd env).
Notation in_turn := (in_turn sd env).
Notation breaks_off := (breaks_off sd env).
Notation each := (each sd env).
Notation many := (many sd env).

Lemma each_app : forall a b s ps os, each (a ++ b) s ps os <->
  exists o1 o2, os = o1 ++ o2 /\ each a s ps o1 /\ each b s ps o2.
Proof.
  induction a as [|p a IH]; intros b s ps os; cbn [app]; split.
  - intros H. exists [], os. repeat split; auto. constructor.
  - intros (o1 & o2 & -> & H1 & H2). inversion H1; subst. exact H2.
  - intros H. inversion H; subst. apply IH in H6 as (o1 & o2 & -> & A & B).
    exists (o :: o1), o2. repeat split; auto. constructor; auto.
  - intros (o1 & o2 & -> & H1 & H2). inversion H1; subst. cbn [app]. constructor; auto.
    apply IH. eauto.
Qed.

Lemma in_turn_app : forall a b s ps rs s' ps', in_turn (a ++ b) s ps rs s' ps' <->
  exists r1 r2 s1 ps1, rs = r1 ++ r2 /\ in_turn a s ps r1 s1 ps1
    /\ in_turn b s1 ps1 r2 s' ps'.
Proof.
  induction a as [|p a IH]; intros b s ps rs s' ps'; cbn [app]; split.
  - intros H. exists [], rs, s, ps. repeat split; auto. constructor.
  - intros (r1 & r2 & s1 & ps1 & -> & H1 & H2). inversion H1; subst. exact H2.
  - intros H. inversion H; subst. apply IH in H8 as (r1 & r2 & s2 & ps2' & -> & A & B).
    exists (r :: r1), r2, s2, ps2'. repeat split; auto. econstructor; eauto.
  - intros (r1 & r2 & s1 & ps1 & -> & H1 & H2). inversion H1; subst. cbn [app].
    econstructor; eauto. apply IH. do 4 eexists; eauto.
Qed.

Lemma breaks_off_app : forall a b s ps m pe, breaks_off (a ++ b) s ps m pe <->
  breaks_off a s ps m pe
  \/ exists rs s1 ps1, in_turn a s ps rs s1 ps1 /\ breaks_off b s1 ps1 m pe.
Proof.
  induction a as [|p a IH]; intros b s ps m pe; cbn [app]; split.
  - intros H. right. do 3 eexists. split; [constructor|exact H].
  - intros [H|(rs & s1 & ps1 & H1 & H2)]; [inversion H|]. inversion H1; subst; auto.
  - intros H. inversion H; subst.
    + left. constructor. auto.
    + apply IH in H7 as [H7|(rs & s2 & ps2 & A & B)].
      * left. eapply breaks_off_later; eauto.
      * right. do 3 eexists. split; [econstructor; eauto|exact B].
  - intros [H|(rs & s1 & ps1 & H1 & H2)].
    + inversion H; subst; [constructor; auto|]. eapply breaks_off_later; eauto.
      apply IH. auto.
    + inversion H1; subst. eapply breaks_off_later; eauto. apply IH. right. eauto.
Qed.

Lemma in_turn_length : forall l s ps rs s' ps', in_turn l s ps rs s' ps' ->
  length rs = length l.
Proof.
  induction l as [|p l IH]; intros s ps rs s' ps' H; inversion H; subst; cbn; auto.
  f_equal. eauto.
Qed.

Lemma many_repeat : forall p k s ps rs s' ps', length rs = k ->
  many p s ps rs s' ps' <-> in_turn (repeat p k) s ps rs s' ps'.
Proof.
  intros p k. induction k as [|k IH]; intros s ps rs s' ps' L; destruct rs as [|r rs];
    try discriminate; cbn [repeat].
  - split; intros H; inversion H; subst; constructor.
  - injection L as L. split; intros H; inversion H; subst; econstructor; eauto;
      apply (IH _ _ _ _ _ eq_refl); auto.
Qed.

Lemma many_breaks_off : forall p k s ps m pe,
  (exists rs s' ps', many p s ps rs s' ps' /\ (length rs < k)%nat
     /\ gives p s' ps' (Reject m pe))
  <-> breaks_off (repeat p k) s ps m pe.
Proof.
  intros p k. induction k as [|k IH]; intros s ps m pe; cbn [repeat]; split.
  - intros (rs & s' & ps' & _ & L & _). lia.
  - intros H. inversion H.
  - intros (rs & s' & ps' & H & L & G). inversion H; subst.
    + constructor. exact G.
    + cbn [length] in L. eapply breaks_off_later; eauto. apply IH.
      do 3 eexists. split; [eassumption|]. split; [lia|exact G].
  - intros H. inversion H; subst.
    + do 3 eexists. split; [constructor|]. cbn [length]. split; [lia|eassumption].
    + apply IH in H7 as (rs & s' & ps' & A & L & G).
      do 3 eexists. split; [eapply many_more; eauto|]. cbn [length]. split; [lia|eassumption].
Qed.

Lemma one_of_ex : forall l s ps os, each l s ps os -> exists o, gives (POneOf l) s ps o.
Proof.
  intros l s ps os H.
  destruct (settled_split os (each_settled env sd _ _ _ _ H)) as [(o & F)|F].
  - exists o. eapply g_one_of; eauto.
  - apply rejections_iff in F as (es & F).
    destruct (choice_error_ex sd ps es) as (m & pe & C).
    exists (Reject m pe). eapply g_one_of_fails; eauto.
Qed.

Lemma one_of_inv : forall l s ps o, gives (POneOf l) s ps o -> exists os, each l s ps os
  /\ (first_accept os o
      \/ exists es m pe, rejections os es /\ choice_error sd ps es (m, pe) /\ o = Reject m pe).
Proof.
  intros l s ps o H. inversion H; subst.
  - exists os. split; auto.
  - exists os. split; auto. right. exists es, m, pe. auto.
Qed.

Lemma one_of_nested_if : forall l1 l2 l3 s ps o,
  (forall os2 es2 e2, each l2 s ps os2 -> rejections os2 es2 -> choice_error sd ps es2 e2 ->
     forall es1 es3 e, choice_error sd ps (es1 ++ e2 :: es3) e
       <-> choice_error sd ps (es1 ++ es2 ++ es3) e) ->
  gives (POneOf (l1 ++ POneOf l2 :: l3)) s ps o <-> gives (POneOf (l1 ++ l2 ++ l3)) s ps o.
Proof.
  intros l1 l2 l3 s ps o N.
  assert (K : forall os1 os2 o2 os3, each l2 s ps os2 ->
    (first_accept os2 o2
     \/ exists es2 m pe, rejections os2 es2 /\ choice_error sd ps es2 (m, pe) /\ o2 = Reject m pe) ->
    (first_accept (os1 ++ o2 :: os3) o <-> first_accept (os1 ++ os2 ++ os3) o)
    /\ forall m pe,
       (exists es, rejections (os1 ++ o2 :: os3) es /\ choice_error sd ps es (m, pe))
       <-> (exists es, rejections (os1 ++ os2 ++ os3) es /\ choice_error sd ps es (m, pe))).
  { intros os1 os2 o2 os3 EA [F|(es2 & m2 & pe2 & R & C & ->)].
    - pose proof F as F'. destruct F' as (A & _). split.
      + rewrite !first_accept_app, first_accept_cons. split.
        * intros [H|(H & [(_ & ->)|(H' & _)])]; auto.
          exfalso. eapply accept_not_reject; eauto.
        * intros [H|(H & [H'|(H' & _)])]; auto.
          -- right. split; auto. left. split; auto. eapply first_accept_unique; eauto.
          -- exfalso. eapply first_accept_rejects; eauto.
      + intros m pe. split; intros (es & H & _); exfalso.
        * assert (X : Forall is_reject (os1 ++ o2 :: os3)) by (apply rejections_iff; eauto).
          apply Forall_app in X as (_ & X). inversion X; subst. eapply accept_not_reject; eauto.
        * assert (X : Forall is_reject (os1 ++ os2 ++ os3)) by (apply rejections_iff; eauto).
          apply Forall_app in X as (_ & X). apply Forall_app in X as (X & _).
          eapply first_accept_rejects; eauto.
    - assert (X : Forall is_reject os2) by (apply rejections_iff; eauto). split.
      + rewrite !first_accept_app, first_accept_cons. split.
        * intros [H|(H & [(H' & _)|(_ & H')])]; auto.
          destruct H' as (? & ? & ? & ?); discriminate.
        * intros [H|(H & [H'|(_ & H')])]; auto.
          -- exfalso. eapply first_accept_rejects; eauto.
          -- right. split; auto. right. split; auto. do 2 eexists; reflexivity.
      + intros m pe. split; intros (es & H & D).
        * apply rejections_app in H as (e1 & e2 & -> & H1 & H2).
          destruct e2 as [|(m' & pe') e2]; [discriminate|]. injection H2 as <- <- H2.
          exists (e1 ++ es2 ++ e2). split.
          -- apply rejections_app. do 2 eexists. split; [reflexivity|]. split; auto.
             apply rejections_app. eauto.
          -- eapply N; eauto.
        * apply rejections_app in H as (e1 & e2 & -> & H1 & H2).
          apply rejections_app in H2 as (e2' & e3 & -> & H2 & H3).
          assert (e2' = es2) as ->.
          { unfold rejections in R, H2. rewrite R in H2. clear -H2.
            revert e2' H2. induction es2 as [|(a & b) l IH]; intros [|(a' & b') l'] H;
              try discriminate; auto.
            injection H as -> -> H. f_equal. apply IH. exact H. }
          exists (e1 ++ (m2, pe2) :: e3). split.
          -- apply rejections_app. do 2 eexists. split; [reflexivity|]. split; auto.
             unfold rejections in *. cbn. rewrite H3. reflexivity.
          -- eapply N; eauto. }
  pose proof (one_of_inv l2 s ps) as I2.
  split; intros G.
  - assert (Z : forall os, each (l1 ++ POneOf l2 :: l3) s ps os -> exists os1 o2 os2 os3,
      os = os1 ++ o2 :: os3 /\ each (l1 ++ l2 ++ l3) s ps (os1 ++ os2 ++ os3)
      /\ each l2 s ps os2
      /\ (first_accept os2 o2
          \/ exists es2 m pe, rejections os2 es2 /\ choice_error sd ps es2 (m, pe)
             /\ o2 = Reject m pe)).
    { intros os X. apply each_app in X as (os1 & o' & -> & A & B).
      inversion B as [|? ? ? ? o2 os3 B1 B2]; subst.
      destruct (I2 _ B1) as (os2 & E2 & D). exists os1, o2, os2, os3. split; auto.
      split; auto. apply each_app. do 2 eexists. split; [reflexivity|]. split; auto.
      apply each_app. eauto. }
    destruct (one_of_inv _ _ _ _ G) as (os & X & Y).
    destruct (Z _ X) as (os1 & o2 & os2 & os3 & -> & E & D0 & D).
    destruct (K os1 os2 o2 os3 D0 D) as (K1 & K2).
    destruct Y as [Y|(es & m & pe & Y1 & Y2 & ->)].
    + eapply g_one_of; [exact E|]. apply K1; auto.
    + destruct (proj1 (K2 m pe)) as (es' & R & C); [eauto|].
      eapply g_one_of_fails; eauto.
  - assert (Z : forall os, each (l1 ++ l2 ++ l3) s ps os -> exists os1 o2 os2 os3,
      os = os1 ++ os2 ++ os3 /\ each (l1 ++ POneOf l2 :: l3) s ps (os1 ++ o2 :: os3)
      /\ each l2 s ps os2
      /\ (first_accept os2 o2
          \/ exists es2 m pe, rejections os2 es2 /\ choice_error sd ps es2 (m, pe)
             /\ o2 = Reject m pe)).
    { intros os X. apply each_app in X as (os1 & o' & -> & A & B).
      apply each_app in B as (os2 & os3 & -> & B & C).
      assert (Y : exists o2, gives (POneOf l2) s ps o2 /\ (first_accept os2 o2
          \/ exists es2 m pe, rejections os2 es2 /\ choice_error sd ps es2 (m, pe)
             /\ o2 = Reject m pe)).
      { destruct (settled_split os2 (each_settled env sd _ _ _ _ B)) as [(o2 & F)|F].
        - exists o2. split; auto. eapply g_one_of; eauto.
        - apply rejections_iff in F as (es & F).
          destruct (choice_error_ex sd ps es) as (m & pe & Q).
          exists (Reject m pe). split; [eapply g_one_of_fails; eauto|].
          right. do 3 eexists; eauto. }
      destruct Y as (o2 & Y & D). exists os1, o2, os2, os3. split; auto. split; auto.
      apply each_app. do 2 eexists. split; [reflexivity|]. split; auto.
      constructor; auto. }
    destruct (one_of_inv _ _ _ _ G) as (os & X & Y).
    destruct (Z _ X) as (os1 & o2 & os2 & os3 & -> & E & D0 & D).
    destruct (K os1 os2 o2 os3 D0 D) as (K1 & K2).
    destruct Y as [Y|(es & m & pe & Y1 & Y2 & ->)].
    + eapply g_one_of; [exact E|]. apply K1; auto.
    + destruct (proj2 (K2 m pe)) as (es' & R & C); [eauto|].
      eapply g_one_of_fails; eauto.
Qed.

Lemma one_of_nested : forall l1 l2 l3 s ps o, sd <> Std98 ->
  gives (POneOf (l1 ++ POneOf l2 :: l3)) s ps o <-> gives (POneOf (l1 ++ l2 ++ l3)) s ps o.
Proof.
  intros l1 l2 l3 s ps o N. apply one_of_nested_if. intros. apply choice_error_nested; auto.
Qed.
End Lists.

(** ** The laws *)

Section OneLaw.
Variable sd : std.
Variable env : program.
Notation gives := (gives sd env).

Lemma law_one_of_map : forall f l s ps o, total1 f ->
  gives (PTransform (POneOf l) f) s ps o
  <-> gives (POneOf (map (fun p => PTransform p f) l)) s ps o.
Proof.
  intros f l s ps o T.
  set (tr := fun (o o' : outcome) => match o with
     | Accept r s' ps' => exists v, f r = Some v /\ o' = Accept v s' ps'
     | Reject m pe => o' = Reject m pe
     | _ => False end).
  assert (E1 : forall l os, each sd env l s ps os -> exists os', Forall2 tr os os'
    /\ each sd env (map (fun p => PTransform p f) l) s ps os').
  { intros l0 os H. induction H as [|p l1 s0 ps0 o0 os G H IH]; [eexists; split; constructor|].
    destruct IH as (os' & F & E).
    destruct (gives_settled _ _ _ _ _ _ G) as [(r & s' & ps' & ->)|(m & pe & ->)].
    - destruct (T r) as (v & V). exists (Accept v s' ps' :: os'). split.
      + constructor; auto. exists v. auto.
      + cbn [map]. constructor; auto. eapply g_transform; eauto.
    - exists (Reject m pe :: os'). split; [constructor; auto; reflexivity|].
      cbn [map]. constructor; auto. apply g_transform_fails. auto. }
  assert (E2 : forall l os', each sd env (map (fun p => PTransform p f) l) s ps os' ->
    exists os, Forall2 tr os os' /\ each sd env l s ps os).
  { intros l0. induction l0 as [|p l0 IH]; intros os' H; cbn [map] in H; inversion H; subst.
    - eexists; split; constructor.
    - match goal with X : each _ _ _ _ _ _ |- _ => destruct (IH _ X) as (os1 & F & E) end.
      match goal with X : SpecRules.gives _ _ (PTransform _ _) _ _ _ |- _ => inversion X; subst end;
        eexists; (split; [|constructor; eassumption]); constructor; eauto; cbn; eauto. }
  assert (FA : forall os os', Forall2 tr os os' -> forall o', first_accept os' o' <->
    exists o0, first_accept os o0 /\ tr o0 o').
  { induction 1 as [|x x' os os' X F IH]; intros o'.
    - split; [intros (_ & l1 & l2 & Q & _)|intros (? & (_ & l1 & l2 & Q & _) & _)];
        destruct l1; discriminate.
    - rewrite first_accept_cons. split.
      + intros [(A & ->)|(A & H)].
        * exists x. split; auto. apply first_accept_cons. left. split; auto.
          destruct x; cbn in X; try contradiction; [do 3 eexists; reflexivity|].
          subst. destruct A as (? & ? & ? & ?); discriminate.
        * apply IH in H as (o0 & H & Q). exists o0. split; auto. apply first_accept_cons.
          right. split; auto. destruct x; cbn in X; try contradiction.
          -- destruct X as (v & _ & ->). destruct A as (? & ? & ?); discriminate.
          -- do 2 eexists; reflexivity.
      + intros (o0 & H & Q). apply first_accept_cons in H as [(A & ->)|(A & H)].
        * left. destruct A as (r & s' & ps' & ->). cbn in X, Q.
          destruct X as (v & V & ->). destruct Q as (w & W & ->).
          assert (v = w) as -> by congruence. split; auto. do 3 eexists; reflexivity.
        * right. split; [|apply IH; eauto]. destruct A as (m & pe & ->). cbn in X. subst.
          do 2 eexists; reflexivity. }
  assert (RJ : forall os os', Forall2 tr os os' -> forall es,
    rejections os es <-> rejections os' es).
  { unfold rejections. induction 1 as [|x x' os os' X F IH]; intros es; [reflexivity|].
    destruct es as [|(m & pe) es]; cbn [map fst snd]; [split; discriminate|].
    split; intros Q; injection Q as -> Q.
    - cbn in X. subst. f_equal. apply IH. auto.
    - f_equal; [|apply IH; auto]. destruct x; cbn in X; try contradiction; try congruence.
      destruct X as (v & _ & X). discriminate. }
  split; intros G.
  - assert (Y : (exists r s' ps' v, gives (POneOf l) s ps (Accept r s' ps') /\ f r = Some v
                   /\ o = Accept v s' ps')
                \/ exists m pe, gives (POneOf l) s ps (Reject m pe) /\ o = Reject m pe).
    { inversion G; subst; [left|right]; eauto 8. }
    destruct Y as [(r & s' & ps' & v & Y & V & ->)|(m & pe & Y & ->)];
      destruct (one_of_inv _ _ _ _ _ _ Y) as (os & E & D);
      destruct (E1 _ _ E) as (os' & F & E');
      destruct D as [D|(es & m' & pe' & D1 & D2 & Q)].
    + eapply g_one_of; eauto. apply (FA _ _ F). eexists; split; [eassumption|]. cbn. eauto.
    + discriminate.
    + destruct D as ((? & ? & ? & ?) & _). discriminate.
    + injection Q as <- <-. eapply g_one_of_fails; eauto. apply (RJ _ _ F). auto.
  - destruct (one_of_inv _ _ _ _ _ _ G) as (os' & E & D);
      destruct (E2 _ _ E) as (os & F & E');
      destruct D as [D|(es & m & pe & D1 & D2 & ->)].
    + destruct (proj1 (FA _ _ F o) D) as (o0 & A & Q).
      pose proof A as A'. destruct A' as ((r & s' & ps' & ->) & _). cbn in Q.
      destruct Q as (v & V & ->). eapply g_transform; eauto. eapply g_one_of; eauto.
    + apply g_transform_fails. eapply g_one_of_fails; eauto. apply (RJ _ _ F). auto.
Qed.

Lemma law_optional_one_of : forall p d s ps o,
  gives (POptional p d) s ps o <-> gives (POneOf [p; PReturn d]) s ps o.
Proof.
  intros p d s ps o. split; intros G.
  - inversion G; subst.
    + eapply g_one_of; [apply each_cons; [eassumption|apply each_cons; [|apply each_nil]];
        apply g_return|].
      apply first_accept_cons. left. split; auto. do 3 eexists; reflexivity.
    + eapply g_one_of; [apply each_cons; [eassumption|apply each_cons; [|apply each_nil]];
        apply g_return|].
      apply first_accept_cons. right. split; [do 2 eexists; reflexivity|].
      apply first_accept_cons. left. split; auto. do 3 eexists; reflexivity.
  - destruct (one_of_inv _ _ _ _ _ _ G) as (os & E & D). clear G. inv.
    destruct D as [D|(es & m & pe & D & _)].
    + apply first_accept_cons in D as [(A & ->)|(A & D)].
      * destruct A as (r & s' & ps' & ->). apply g_optional. auto.
      * destruct A as (m & pe & ->).
        apply first_accept_cons in D as [(A & ->)|(A & D)].
        -- eapply g_optional_default; eauto.
        -- destruct A as (? & ? & ?); discriminate.
    + destruct es as [|? [|? ?]]; discriminate.
Qed.

Lemma keyword_inv : forall kw v s ps o, gives (PKeyword kw v) s ps o ->
  (exists s', s = kw ++ s' /\ o = Accept v s' (adv ps kw))
  \/ exists u c k s', kw = u ++ c :: k /\ s = u ++ s' /\ not_starting_with (fun d => d = c) s'
       /\ o = Reject (literal_expected c) (adv ps u).
Proof.
  intros kw v s ps o G. inversion G; subst; [left|right].
  - match goal with W : walk _ _ _ |- _ => apply walk_iff in W; subst end. eauto.
  - match goal with W : walk _ _ _ |- _ => apply walk_iff in W; subst end. eauto 10.
Qed.

Lemma in_turn_cons_inv : forall p l s ps rs s' ps', in_turn sd env (p :: l) s ps rs s' ps' ->
  exists r s1 ps1 rs', rs = r :: rs' /\ gives p s ps (Accept r s1 ps1)
    /\ in_turn sd env l s1 ps1 rs' s' ps'.
Proof. intros p l s ps rs s' ps' H. inversion H; subst. eauto 10. Qed.

Lemma in_turn_nil_inv : forall s ps rs s' ps', in_turn sd env [] s ps rs s' ps' ->
  rs = [] /\ s' = s /\ ps' = ps.
Proof. intros s ps rs s' ps' H. inversion H; subst. auto. Qed.

Lemma breaks_off_cons_inv : forall p l s ps m pe, breaks_off sd env (p :: l) s ps m pe ->
  gives p s ps (Reject m pe)
  \/ exists r s1 ps1, gives p s ps (Accept r s1 ps1) /\ breaks_off sd env l s1 ps1 m pe.
Proof. intros p l s ps m pe H. inversion H; subst; eauto 6. Qed.

Lemma breaks_off_nil_inv : forall s ps m pe, ~ breaks_off sd env [] s ps m pe.
Proof. intros s ps m pe H. inversion H. Qed.

Lemma last_of_inv : forall l s ps o, l <> [] -> gives (PLastOf l) s ps o ->
  (exists rs v s' ps', in_turn sd env l s ps (rs ++ [v]) s' ps' /\ o = Accept v s' ps')
  \/ exists m pe, breaks_off sd env l s ps m pe /\ o = Reject m pe.
Proof. intros l s ps o N G. inversion G; subst; eauto 8. congruence. Qed.

Lemma first_of_inv : forall l s ps o, l <> [] -> gives (PFirstOf l) s ps o ->
  (exists rs v s' ps', in_turn sd env l s ps (v :: rs) s' ps' /\ o = Accept v s' ps')
  \/ exists m pe, breaks_off sd env l s ps m pe /\ o = Reject m pe.
Proof. intros l s ps o N G. inversion G; subst; eauto 8. congruence. Qed.

Lemma law_keyword_cut : forall k1 k2 v w s ps o,
  gives (PKeyword (k1 ++ k2) v) s ps o
  <-> gives (PLastOf [PKeyword k1 w; PKeyword k2 v]) s ps o.
Proof.
  intros k1 k2 v w s ps o. split; intros G.
  - apply keyword_inv in G as [(s' & -> & ->)|(u & c & k & s' & E & -> & N & ->)].
    + rewrite adv_app, <- app_assoc.
      apply g_last_of with (rs := [w]). eapply in_turn_cons.
      * apply g_keyword. apply walk_adv.
      * eapply in_turn_cons; [|apply in_turn_nil]. apply g_keyword. apply walk_adv.
    + apply g_last_of_fails.
      destruct (Nat.lt_ge_cases (length u) (length k1)) as [L|L].
      * apply breaks_off_here.
        assert (X : exists k1', k1 = u ++ c :: k1').
        { clear -L E. revert k1 L E. induction u as [|x u IH]; intros [|y k1] L E;
            cbn [length] in L; try lia; cbn [app] in *; injection E as -> E; eauto.
          destruct (IH k1) as (k' & ->); [lia|auto|]. eauto. }
        destruct X as (k1' & ->). apply g_keyword_differs; auto. apply walk_adv.
      * assert (X : exists u', u = k1 ++ u' /\ k2 = u' ++ c :: k).
        { clear -L E. revert k1 L E. induction u as [|x u IH]; intros [|y k1] L E;
            cbn [length] in L; try lia; cbn [app] in *; try injection E as -> E; eauto.
          destruct (IH k1) as (k' & -> & ->); [lia|auto|]. eauto. }
        destruct X as (u' & -> & ->). rewrite adv_app, <- app_assoc.
        eapply breaks_off_later; [apply g_keyword; apply walk_adv|].
        apply breaks_off_here. apply g_keyword_differs; auto. apply walk_adv.
  - apply last_of_inv in G; [|discriminate].
    destruct G as [(rs & x & s' & ps' & G & ->)|(m & pe & G & ->)].
    + apply in_turn_cons_inv in G as (r1 & s1 & ps1 & rs1 & Q1 & G1 & G).
      apply in_turn_cons_inv in G as (r2 & s2 & ps2 & rs2 & Q2 & G2 & G).
      apply in_turn_nil_inv in G as (-> & -> & ->). subst.
      destruct rs as [|? [|? rs0]]; try discriminate; [|destruct rs0; discriminate].
      injection Q1 as -> ->.
      apply keyword_inv in G1 as [(s3 & -> & E1)|(? & ? & ? & ? & _ & _ & _ & E1)];
        [|discriminate].
      injection E1 as -> -> ->.
      apply keyword_inv in G2 as [(s4 & -> & E2)|(? & ? & ? & ? & _ & _ & _ & E2)];
        [|discriminate].
      injection E2 as -> -> ->.
      rewrite <- adv_app, app_assoc. apply g_keyword. apply walk_adv.
    + apply breaks_off_cons_inv in G as [G|(r1 & s1 & ps1 & G1 & G)].
      * apply keyword_inv in G as [(s3 & _ & E1)|(u & c & k & s3 & -> & -> & N & E1)];
          [discriminate|].
        injection E1 as -> ->. rewrite <- app_assoc. cbn [app].
        apply g_keyword_differs; auto. apply walk_adv.
      * apply breaks_off_cons_inv in G as [G|(r2 & s2 & ps2 & _ & G)];
          [|destruct (breaks_off_nil_inv _ _ _ _ G)].
        apply keyword_inv in G1 as [(s3 & -> & E1)|(? & ? & ? & ? & _ & _ & _ & E1)];
          [|discriminate].
        injection E1 as -> -> ->.
        apply keyword_inv in G as [(s4 & _ & E1)|(u & c & k & s4 & -> & -> & N & E1)];
          [discriminate|].
        injection E1 as -> ->. rewrite <- adv_app, !app_assoc.
        apply g_keyword_differs; auto. apply walk_adv.
Qed.

Lemma law_last_of_split : forall l1 l2 s ps o, l2 <> [] ->
  gives (PLastOf (l1 ++ [PLastOf l2])) s ps o <-> gives (PLastOf (l1 ++ l2)) s ps o.
Proof.
  intros l1 l2 s ps o N. split; intros G.
  - apply last_of_inv in G; [|destruct l1; discriminate].
    destruct G as [(rs & x & s' & ps' & G & ->)|(m & pe & G & ->)].
    + apply in_turn_app in G as (r1 & r2 & s1 & ps1 & Q & G1 & G2).
      apply in_turn_cons_inv in G2 as (y & s2 & ps2 & rs2 & -> & G2 & G).
      apply in_turn_nil_inv in G as (-> & -> & ->).
      apply app_inj_tail in Q as (<- & <-).
      apply last_of_inv in G2 as [(rs3 & v & s3 & ps3 & G2 & E)|(? & ? & _ & E)];
        [|discriminate|exact N].
      injection E as -> -> ->. apply g_last_of with (rs := rs ++ rs3).
      apply in_turn_app. do 4 eexists. rewrite <- app_assoc. split; [reflexivity|eauto].
    + apply g_last_of_fails. apply breaks_off_app.
      apply breaks_off_app in G as [G|(rs & s1 & ps1 & G1 & G)]; [left; auto|right].
      apply breaks_off_cons_inv in G as [G|(r2 & s2 & ps2 & _ & G)];
        [|destruct (breaks_off_nil_inv _ _ _ _ G)].
      apply last_of_inv in G as [(rs3 & v & s3 & ps3 & _ & E)|(? & ? & G & E)];
        [discriminate| |exact N].
      injection E as -> ->. eauto.
  - apply last_of_inv in G; [|destruct l1; auto; discriminate].
    destruct G as [(rs & x & s' & ps' & G & ->)|(m & pe & G & ->)].
    + apply in_turn_app in G as (r1 & r2 & s1 & ps1 & Q & G1 & G2).
      assert (X : exists r2', r2 = r2' ++ [x]).
      { pose proof (in_turn_length _ _ _ _ _ _ _ _ G2) as L.
        destruct (exists_last (l := r2)) as (r2' & y & ->).
        { intros ->. destruct l2; [congruence|discriminate]. }
        rewrite app_assoc in Q. apply app_inj_tail in Q as (_ & ->). eauto. }
      destruct X as (r2' & ->). apply g_last_of with (rs := r1).
      apply in_turn_app. do 4 eexists. split; [reflexivity|]. split; [exact G1|].
      eapply in_turn_cons; [|apply in_turn_nil]. eapply g_last_of; eauto.
    + apply g_last_of_fails. apply breaks_off_app.
      apply breaks_off_app in G as [G|(rs & s1 & ps1 & G1 & G)]; [left; auto|right].
      do 3 eexists. split; [exact G1|]. apply breaks_off_here. apply g_last_of_fails. auto.
Qed.

Lemma law_first_of_split : forall p l1 l2 s ps o,
  gives (PFirstOf (PFirstOf (p :: l1) :: l2)) s ps o <-> gives (PFirstOf (p :: l1 ++ l2)) s ps o.
Proof.
  intros p l1 l2 s ps o. change (p :: l1 ++ l2) with ((p :: l1) ++ l2).
  assert (N : p :: l1 <> []) by discriminate. revert N. generalize (p :: l1). clear p l1.
  intros l1 N. split; intros G.
  - apply first_of_inv in G; [|discriminate].
    destruct G as [(rs & x & s' & ps' & G & ->)|(m & pe & G & ->)].
    + apply in_turn_cons_inv in G as (y & s2 & ps2 & rs2 & Q & G2 & G). injection Q as <- <-.
      apply first_of_inv in G2 as [(rs3 & v & s3 & ps3 & G2 & E)|(? & ? & _ & E)];
        [|discriminate|exact N].
      injection E as -> -> ->. apply g_first_of with (rs := rs3 ++ rs).
      apply in_turn_app. do 4 eexists. split; [|eauto]. reflexivity.
    + apply g_first_of_fails. apply breaks_off_app.
      apply breaks_off_cons_inv in G as [G|(r2 & s2 & ps2 & G1 & G)]; [left|right].
      * apply first_of_inv in G as [(rs3 & v & s3 & ps3 & _ & E)|(? & ? & G & E)];
          [discriminate| |exact N].
        injection E as -> ->. auto.
      * apply first_of_inv in G1 as [(rs3 & v & s3 & ps3 & G1 & E)|(? & ? & _ & E)];
          [|discriminate|exact N].
        injection E as -> -> ->. eauto.
  - apply first_of_inv in G; [|destruct l1; [congruence|discriminate]].
    destruct G as [(rs & x & s' & ps' & G & ->)|(m & pe & G & ->)].
    + apply in_turn_app in G as (r1 & r2 & s1 & ps1 & Q & G1 & G2).
      destruct r1 as [|y r1].
      { pose proof (in_turn_length _ _ _ _ _ _ _ _ G1). destruct l1; [congruence|discriminate]. }
      injection Q as <- ->. eapply g_first_of. eapply in_turn_cons; [|exact G2].
      eapply g_first_of; eauto.
    + apply g_first_of_fails. apply breaks_off_app in G as [G|(rs & s1 & ps1 & G1 & G)].
      * apply breaks_off_here. apply g_first_of_fails. auto.
      * destruct rs as [|y r1].
        { pose proof (in_turn_length _ _ _ _ _ _ _ _ G1). destruct l1; [congruence|discriminate]. }
        eapply breaks_off_later; [|exact G]. eapply g_first_of; eauto.
Qed.

Lemma return_inv : forall v s ps o, gives (PReturn v) s ps o -> o = Accept v s ps.
Proof. intros v s ps o G. inversion G; subst; auto. Qed.

Lemma law_last_of_two_returns : forall l v w s ps o,
  gives (PLastOf (l ++ [PReturn v; PReturn w])) s ps o <-> gives (PLastOf (l ++ [PReturn w])) s ps o.
Proof.
  intros l v w s ps o. split; intros G.
  - apply last_of_inv in G; [|destruct l; discriminate].
    destruct G as [(rs & x & s' & ps' & G & ->)|(m & pe & G & ->)].
    + apply in_turn_app in G as (r1 & r2 & s1 & ps1 & Q & G1 & G2).
      apply in_turn_cons_inv in G2 as (y & s2 & ps2 & rs2 & -> & G2 & G).
      apply in_turn_cons_inv in G as (y' & s3 & ps3 & rs3 & -> & G3 & G).
      apply in_turn_nil_inv in G as (-> & -> & ->).
      apply return_inv in G2, G3. injection G2 as -> -> ->. injection G3 as -> -> ->.
      change [v; w] with ([v] ++ [w]) in Q.
      rewrite app_assoc in Q. apply app_inj_tail in Q as (_ & ->).
      apply g_last_of with (rs := r1). apply in_turn_app. do 4 eexists.
      split; [reflexivity|]. split; [exact G1|]. eauto with rules.
    + apply g_last_of_fails. apply breaks_off_app.
      apply breaks_off_app in G as [G|(rs & s1 & ps1 & G1 & G)]; [left; auto|].
      apply breaks_off_cons_inv in G as [G|(y & s2 & ps2 & _ & G)];
        [apply return_inv in G; discriminate|].
      apply breaks_off_cons_inv in G as [G|(y' & s3 & ps3 & _ & G)];
        [apply return_inv in G; discriminate|destruct (breaks_off_nil_inv _ _ _ _ G)].
  - apply last_of_inv in G; [|destruct l; discriminate].
    destruct G as [(rs & x & s' & ps' & G & ->)|(m & pe & G & ->)].
    + apply in_turn_app in G as (r1 & r2 & s1 & ps1 & Q & G1 & G2).
      apply in_turn_cons_inv in G2 as (y & s2 & ps2 & rs2 & -> & G2 & G).
      apply in_turn_nil_inv in G as (-> & -> & ->).
      apply return_inv in G2. injection G2 as -> -> ->.
      apply app_inj_tail in Q as (_ & ->).
      apply g_last_of with (rs := r1 ++ [v]). apply in_turn_app. do 4 eexists.
      split; [rewrite <- app_assoc; reflexivity|]. split; [exact G1|]. cbn [app].
      eauto with rules.
    + apply g_last_of_fails. apply breaks_off_app.
      apply breaks_off_app in G as [G|(rs & s1 & ps1 & G1 & G)]; [left; auto|].
      apply breaks_off_cons_inv in G as [G|(y & s2 & ps2 & _ & G)];
        [apply return_inv in G; discriminate|destruct (breaks_off_nil_inv _ _ _ _ G)].
Qed.

Lemma law_last_of_nth : forall l s ps o, l <> [] ->
  gives (PLastOf l) s ps o <-> gives (PNthOf (Z.of_nat (length l) - 1) l) s ps o.
Proof.
  intros l s ps o N.
  assert (P : (0 < length l)%nat) by (destruct l; [congruence|cbn; lia]).
  split; intros G.
  - apply last_of_inv in G; [|exact N].
    destruct G as [(rs & x & s' & ps' & G & ->)|(m & pe & G & ->)].
    + pose proof (in_turn_length _ _ _ _ _ _ _ _ G) as L. rewrite app_length in L.
      cbn [length] in L. eapply g_nth_of; [exact G|lia|].
      rewrite nth_error_app2 by lia.
      replace (Z.to_nat (Z.of_nat (length l) - 1) - length rs)%nat with 0%nat by lia.
      reflexivity.
    + apply g_nth_of_fails; auto. lia.
  - inversion G; subst.
    + match goal with X : in_turn _ _ _ _ _ _ _ _ |- _ =>
        pose proof (in_turn_length _ _ _ _ _ _ _ _ X) as L end.
      destruct (exists_last (l := rs)) as (rs' & y & ->).
      { intros ->. cbn in L. lia. }
      match goal with X : nth_error _ _ = Some _ |- _ =>
        rewrite nth_error_app2 in X; rewrite app_length in L; cbn [length] in L; [|lia];
        replace (Z.to_nat (Z.of_nat (length l) - 1) - length rs')%nat with 0%nat in X by lia;
        injection X as -> end.
      eapply g_last_of; eauto.
    + apply g_last_of_fails. auto.
    + lia.
Qed.

Lemma law_iterate_repeat : forall p k s ps o,
  gives (PIterate p (Z.of_nat k)) s ps o <-> gives (PSequence (repeat p k)) s ps o.
Proof.
  intros p k s ps o. split; intros G.
  - inversion G; subst.
    + apply g_sequence. apply many_repeat; auto. lia.
    + apply g_sequence_fails. apply many_breaks_off. do 3 eexists. split; [eassumption|].
      split; [lia|eassumption].
  - inversion G; subst.
    + match goal with X : in_turn _ _ _ _ _ _ _ _ |- _ =>
        pose proof (in_turn_length _ _ _ _ _ _ _ _ X) as L end.
      rewrite repeat_length in L. apply g_iterate; [|congruence].
      apply (many_repeat _ _ _ k); auto.
    + match goal with X : breaks_off _ _ _ _ _ _ _ |- _ =>
        apply many_breaks_off in X as (rs & s' & ps' & A & B & C) end.
      eapply g_iterate_fails; eauto. right. lia.
Qed.
End OneLaw.

Section SmallLaws.
Variable sd : std.
Variable env : program.
Notation gives := (gives sd env).

Lemma split_settled : forall p s ps o, gives p s ps o ->
  (exists r s' ps', o = Accept r s' ps') \/ (exists m pe, o = Reject m pe).
Proof. intros p s ps o G. exact (gives_settled _ _ _ _ _ _ G). Qed.

Lemma law_transform2 : forall p f g s ps o,
  gives (PTransform (PTransform p f) g) s ps o <-> gives (PTransform p (after g f)) s ps o.
Proof.
  intros p f g s ps o. split; intros G; inv; eauto with rules.
  - eapply g_transform; eauto. unfold after.
    match goal with X : f _ = Some _ |- _ => rewrite X end. auto.
  - match goal with X : after _ _ _ = Some _ |- _ => unfold after in X end.
    destruct (f r) eqn:F; [|discriminate]. eauto with rules.
Qed.

Lemma law_transform1 : forall p s ps o, gives (PTransform p Some) s ps o <-> gives p s ps o.
Proof.
  intros p s ps o. split; intros G; [inv; auto|].
  destruct (split_settled _ _ _ _ G) as [(r & s' & ps' & ->)|(m & pe & ->)];
    eauto with rules.
Qed.

Lemma law_accept1 : forall p m s ps o,
  gives (PAcceptWhen p (fun _ => Some true) m) s ps o <-> gives p s ps o.
Proof.
  intros p m s ps o. split; intros G; [inv; auto; discriminate|].
  destruct (split_settled _ _ _ _ G) as [(r & s' & ps' & ->)|(m' & pe & ->)];
    eauto with rules.
Qed.

Lemma law_accept2 : forall p a b m s ps o,
  gives (PAcceptWhen (PAcceptWhen p a m) b m) s ps o
  <-> gives (PAcceptWhen p (both a b) m) s ps o.
Proof.
  intros p a b m s ps o. split; intros G.
  - inv.
    + eapply g_accept_when; eauto. unfold both.
      match goal with X : a _ = _ |- _ => rewrite X end. auto.
    + eapply g_accept_when_not; eauto. unfold both.
      match goal with X : a _ = _ |- _ => rewrite X end. auto.
    + eapply g_accept_when_not; eauto. unfold both.
      match goal with X : a _ = _ |- _ => rewrite X end. auto.
    + eapply g_accept_when_fails; eauto.
  - inversion G; subst;
      try (match goal with X : both _ _ _ = Some _ |- _ => unfold both in X end;
           destruct (a r) as [[|]|] eqn:A; try discriminate);
      eauto with rules.
Qed.

Lemma law_message2 : forall p f g s ps o,
  gives (PTransformErrorMessage (PTransformErrorMessage p f) g) s ps o
  <-> gives (PTransformErrorMessage p (after g f)) s ps o.
Proof.
  intros p f g s ps o. split; intros G; inv; eauto with rules.
  - eapply g_transform_error_message; eauto. unfold after.
    match goal with X : f _ = Some _ |- _ => rewrite X end. auto.
  - match goal with X : after _ _ _ = Some _ |- _ => unfold after in X end.
    destruct (f m) eqn:F; [|discriminate]. eauto with rules.
Qed.

Lemma law_message_error : forall p f s ps o,
  gives (PTransformErrorMessage p f) s ps o
  <-> gives (PTransformError p (fun m pe => match f m with
                                            | Some m' => Reject m' pe
                                            | None => Illformed
                                            end)) s ps o.
Proof.
  intros p f s ps o. split; intros G; inversion G; subst; eauto with rules.
  - eapply g_transform_error; eauto.
    + match goal with X : f _ = Some _ |- _ => rewrite X end. reflexivity.
    + right. do 2 eexists; reflexivity.
  - destruct (f m) eqn:F; [eauto with rules|].
    match goal with X : _ \/ _ |- _ => destruct X as [(? & ? & ? & X)|(? & ? & X)] end;
      discriminate.
Qed.

Lemma law_foldl1_start : forall p v f s ps o, (forall r, f v r <> Some VVoid) ->
  gives (PFoldl1 p (Some v) f) s ps o
  <-> gives (PFoldlStartWithParser p (PTransform p (fun r => f v r)) f) s ps o.
Proof.
  intros p v f s ps o NV. split; intros G.
  - inversion G; subst; eauto with rules.
    match goal with X : Some _ = Some _ |- _ => injection X as <- end.
    match goal with X : many _ _ _ _ _ (_ :: _) _ _ |- _ => inversion X; subst end.
    match goal with X : lfold _ (_ :: _) _ = _ |- _ => cbn [lfold] in X end.
    destruct (f v r) eqn:F; [|discriminate].
    eapply g_foldl_swp; [eapply g_transform; eauto|intros ->; eapply NV; exact F|eauto|eauto|eauto].
  - inversion G; subst.
    + match goal with X : SpecRules.gives _ _ (PTransform _ _) _ _ _ |- _ =>
        inversion X; subst end.
      eapply g_foldl1; [eapply many_more; eauto|eassumption|reflexivity|].
      cbn [lfold]. match goal with X : f v _ = _ |- _ => rewrite X end. auto.
    + match goal with X : SpecRules.gives _ _ (PTransform _ _) _ _ _ |- _ =>
        inversion X; subst end. eauto with rules.
Qed.

Lemma law_foldl_optional : forall p v f s ps o,
  gives (PFoldl p (Some v) f) s ps o <-> gives (POptional (PFoldl1 p (Some v) f) v) s ps o.
Proof.
  intros p v f s ps o. split; intros G.
  - inversion G; subst.
    match goal with X : Some _ = Some _ |- _ => injection X as <- end.
    destruct rs as [|r rs].
    + match goal with X : many _ _ _ _ _ [] _ _ |- _ => inversion X; subst end.
      match goal with X : lfold _ [] _ = _ |- _ => injection X as -> end.
      eapply g_optional_default. eapply g_foldl1_fails. eauto.
    + eapply g_optional. eapply g_foldl1; eauto.
  - inversion G; subst;
      match goal with X : SpecRules.gives _ _ (PFoldl1 _ _ _) _ _ _ |- _ =>
        inversion X; subst end; eauto with rules.
Qed.

Lemma law_foldr_optional : forall p v f s ps o,
  gives (PFoldr p v f) s ps o <-> gives (POptional (PFoldr1 p v f) v) s ps o.
Proof.
  intros p v f s ps o. split; intros G.
  - inversion G; subst. destruct rs as [|r rs].
    + match goal with X : many _ _ _ _ _ [] _ _ |- _ => inversion X; subst end.
      match goal with X : rfold _ [] _ = _ |- _ => injection X as -> end.
      eapply g_optional_default. eapply g_foldr1_fails. eauto.
    + eapply g_optional. eapply g_foldr1; eauto.
  - inversion G; subst;
      match goal with X : SpecRules.gives _ _ (PFoldr1 _ _ _) _ _ _ |- _ =>
        inversion X; subst end; eauto with rules.
Qed.

Lemma law_foldl_ri_return : forall p v f s ps o, v <> VVoid ->
  gives (PFoldlRejectIncompleteStartWithParser p (PReturn v) f) s ps o
  <-> gives (PFoldlRejectIncomplete p (Some v) f) s ps o.
Proof.
  intros p v f s ps o NV. split; intros G.
  - inversion G; subst;
      match goal with X : SpecRules.gives _ _ (PReturn _) _ _ _ |- _ =>
        inversion X; subst end; eauto 8 with rules.
  - inversion G; subst; try (match goal with X : Some _ = Some _ |- _ => injection X as <- end).
    + eapply g_foldl_ri_swp; eauto with rules.
    + match goal with X : _ = [] \/ _ |- _ => destruct X as [->|(v0 & w & Q & X)] end.
      * eapply g_foldl_ri_swp_incomplete; [constructor|contradiction|eauto|eauto|eauto|reflexivity].
      * injection Q as <-. eapply g_foldl_ri_swp_incomplete; [constructor|contradiction|eauto|eauto|eauto|eauto].
Qed.

Lemma law_one_of_0 : forall s ps o,
  gives (POneOf []) s ps o <-> gives (PFail none_of_the_expected_cases_found) s ps o.
Proof.
  intros s ps o. split; intros G.
  - destruct (one_of_inv _ _ _ _ _ _ G) as (os & E & D). inversion E; subst.
    destruct D as [(_ & l1 & l2 & Q & _)|(es & m & pe & R & C & ->)];
      [destruct l1; discriminate|].
    destruct es; [|discriminate].
    assert (X : (m, pe) = (none_of_the_expected_cases_found, ps)).
    { destruct sd; cbn [choice_error app] in C;
        apply (last_furthest_unique _ _ _ C); apply last_furthest_single. }
    injection X as -> ->. constructor.
  - inversion G; subst. eapply g_one_of_fails; [constructor|exact (eq_refl : rejections [] [])|].
    destruct sd; apply last_furthest_single.
Qed.

Lemma law_first_1 : forall p s ps o, gives (PFirstOf [p]) s ps o <-> gives p s ps o.
Proof.
  intros p s ps o. split; intros G.
  - apply first_of_inv in G; [|discriminate].
    destruct G as [(rs & x & s' & ps' & G & ->)|(m & pe & G & ->)]; inv; auto.
  - destruct (split_settled _ _ _ _ G) as [(r & s' & ps' & ->)|(m & pe & ->)];
      eauto with rules.
Qed.

Lemma law_last_1 : forall p s ps o, gives (PLastOf [p]) s ps o <-> gives p s ps o.
Proof.
  intros p s ps o. split; intros G.
  - apply last_of_inv in G; [|discriminate].
    destruct G as [(rs & x & s' & ps' & G & ->)|(m & pe & G & ->)].
    + apply in_turn_cons_inv in G as (r & s1 & ps1 & rs' & Q & G & N).
      apply in_turn_nil_inv in N as (-> & -> & ->).
      change [r] with ([] ++ [r]) in Q. apply app_inj_tail in Q as (_ & ->). auto.
    + inv. auto.
  - destruct (split_settled _ _ _ _ G) as [(r & s' & ps' & ->)|(m & pe & ->)].
    + apply g_last_of with (rs := []). cbn [app]. eauto with rules.
    + eauto with rules.
Qed.

Lemma law_first_nth : forall p l s ps o,
  gives (PFirstOf (p :: l)) s ps o <-> gives (PNthOf 0 (p :: l)) s ps o.
Proof.
  intros p l s ps o. split; intros G.
  - apply first_of_inv in G; [|discriminate].
    destruct G as [(rs & x & s' & ps' & G & ->)|(m & pe & G & ->)].
    + eapply g_nth_of; [exact G|lia|reflexivity].
    + apply g_nth_of_fails; auto. cbn [length]. lia.
  - inversion G; subst.
    + destruct rs as [|r rs]; [discriminate|].
      match goal with X : nth_error _ _ = _ |- _ => injection X as -> end.
      eapply g_first_of; eauto.
    + apply g_first_of_fails; auto.
    + match goal with X : _ \/ _ |- _ => cbn [length] in X; lia end.
Qed.

Lemma law_empty_except : forall v s ps o,
  gives (PEmpty v) s ps o <-> gives (PExcept POneChar v end_of_input_expected) s ps o.
Proof.
  intros v s ps o. split; intros G.
  - inversion G; subst; [eauto with rules|].
    eapply g_except_fails. apply g_one_char. apply walk_adv.
  - inv; eauto with rules.
Qed.

Lemma law_keyword_empty : forall v s ps o,
  gives (PKeyword [] v) s ps o <-> gives (PReturn v) s ps o.
Proof.
  intros v s ps o. split; intros G.
  - apply keyword_inv in G as [(s' & -> & ->)|(u & c & k & s' & Q & _)];
      [constructor|destruct u; discriminate].
  - inversion G; subst. apply (g_keyword sd env [] v s ps ps). constructor.
Qed.
End SmallLaws.

Lemma laws_hold : forall sd a b, law sd a b -> equivalent sd a b.
Proof.
  intros sd a b L env s ps o. destruct L.
  all: try solve [split; intros G; inv; eauto 6 with rules].
  all: auto using law_transform2, law_transform1, law_accept1, law_accept2, law_message2,
    law_message_error, law_foldl1_start, law_foldl_optional, law_foldr_optional,
    law_foldl_ri_return, law_one_of_0, law_first_1, law_last_1, law_first_nth,
    law_empty_except, law_keyword_empty, law_one_of_map, law_optional_one_of,
    law_keyword_cut, law_last_of_split, law_first_of_split, law_last_of_two_returns,
    law_last_of_nth, law_iterate_repeat, one_of_nested.
  split; intros G; inv; [|eauto with rules].
  match goal with
  | |- gives _ _ (PReturn ?y) _ _ (Accept ?x _ _) =>
      assert (E : x = y) by congruence; rewrite E
  end. constructor.
Qed.
