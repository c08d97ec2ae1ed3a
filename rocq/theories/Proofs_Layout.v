(** Proofs about white space between tokens (C93). *)

From Coq Require Import ZArith List Bool Lia Arith.
From Verif Require Import Base Util Combinators Variadic Parsers Deep Spec SpecDeep SpecRules SpecLayout
  Proofs_Pos Proofs_Parsers2 Proofs_Rules Proofs_Laws.
Import ListNotations.
Open Scope Z_scope.

Local Ltac splits := repeat match goal with |- _ /\ _ => split end.

Lemma choice_ex : forall sd ps es, exists e, choice_error sd ps es e.
Proof.
  intros sd ps es. set (d := (none_of_the_expected_cases_found, ps)).
  assert (X : exists e, last_furthest (es ++ [d]) e) by (destruct (furthest_ex es d) as (e & H & _); eauto).
  destruct sd; auto. unfold choice_error. fold d.
  assert (N : d :: es <> []) by discriminate.
  rewrite (app_removelast_last d N).
  destruct (furthest_ex (removelast (d :: es)) (last (d :: es) d)) as (e & H & _). eauto.
Qed.

Lemma choice_max : forall sd ps es m pe, choice_error sd ps es (m, pe) ->
  (pe = ps \/ In pe (map snd es)) /\ pos_le ps pe /\ forall x, In x (map snd es) -> pos_le x pe.
Proof.
  intros sd ps es m pe C. set (d := (none_of_the_expected_cases_found, ps)) in *.
  assert (X : exists l, last_furthest l (m, pe) /\ forall x, In x l <-> x = d \/ In x es).
  { assert (H1 : forall x, In x (d :: es) <-> x = d \/ In x es)
      by (intros x; simpl; split; intros [H|H]; auto).
    assert (H2 : forall x, In x (es ++ [d]) <-> x = d \/ In x es)
      by (intros x; rewrite in_app_iff; simpl; split; [intros [H|[H|[]]] | intros [H|H]]; auto).
    destruct sd; eexists; (split; [exact C|]); auto. }
  destruct X as (l & (l1 & l2 & E & A & B) & I).
  assert (M : forall x, In x l -> pos_le (snd x) pe).
  { intros x. rewrite E. intros H. apply in_app_or in H as [H|[<-|H]].
    - apply A; auto.
    - apply pos_le_refl.
    - left. apply B; auto. }
  split; [|split].
  - assert (H : In (m, pe) l) by (rewrite E; apply in_or_app; right; left; reflexivity).
    apply I in H as [H|H]; [left; injection H; auto | right]. apply in_map_iff. exists (m, pe). auto.
  - apply (M d). apply I. auto.
  - intros x H. apply in_map_iff in H as (y & <- & H). apply M. apply I. auto.
Qed.

(** ** Related texts give related results *)

Section Simulation.
Variable sd : std.
Variable env : program.
(** The texts where parsers are applied, and where errors are. *)
Variables At Er : str -> str -> Prop.
Hypothesis At_Er : forall s s', At s s' -> Er s s'.
Hypothesis Er_same : forall s s' u t u' t', At s s' -> s = u ++ t -> s' = u' ++ t' -> Er t t' ->
  (u = [] <-> u' = []).
Hypothesis Er_choice : forall s s' u1 t1 u2 t2 u1' t1' u2' t2', At s s' ->
  s = u1 ++ t1 -> s = u2 ++ t2 -> s' = u1' ++ t1' -> s' = u2' ++ t2' ->
  Er t1 t1' -> Er t2 t2' -> (length u2 <= length u1)%nat -> (length u1' <= length u2')%nat ->
  Er t1 t2'.

Definition acc (s : str) (ps : pos) (t : str) (q : pos) (s' : str) (ps' : pos) (t' : str) (q' : pos) : Prop :=
  At t t' /\ exists w w', s = w ++ t /\ q = adv ps w /\ s' = w' ++ t' /\ q' = adv ps' w'.
Definition rej (s : str) (ps q : pos) (s' : str) (ps' q' : pos) : Prop :=
  exists w t w' t', s = w ++ t /\ q = adv ps w /\ s' = w' ++ t' /\ q' = adv ps' w' /\ Er t t'.
Definition related s ps s' ps' (o o' : outcome) : Prop :=
  match o with
  | Accept v t q => exists t' q', o' = Accept v t' q' /\ acc s ps t q s' ps' t' q'
  | Reject m q => exists m' q', o' = Reject m' q' /\ rej s ps q s' ps' q'
  | _ => False
  end.
Definition simulates (e : pexpr) : Prop := forall s ps o, gives sd env e s ps o ->
  forall s' ps', At s s' -> exists o', gives sd env e s' ps' o' /\ related s ps s' ps' o o'.

Variable names : nat -> Prop.
Variable ends : Prop.
Hypothesis At_ends : ends -> forall s s', At s s' -> (s = [] <-> s' = []).

Inductive good : pexpr -> Prop :=
| good_leaf e : simulates e -> good e
| good_ref i : names i -> good (PRef i)
| good_empty v : ends -> good (PEmpty v)
| good_entire_input p m : ends -> good p -> good (PEntireInput p m)
| good_combinator e : combinator e -> (forall c, In c (children e) -> good c) -> good e.
Hypothesis names_good : forall i, names i -> good (env i).

Lemma acc_refl : forall s ps s' ps', At s s' -> acc s ps s ps s' ps' s' ps'.
Proof. intros. split; auto. exists [], []. auto. Qed.
Lemma acc_trans : forall s ps t q s' ps' t' q' r x r' x',
  acc s ps t q s' ps' t' q' -> acc t q r x t' q' r' x' -> acc s ps r x s' ps' r' x'.
Proof.
  intros s ps t q s' ps' t' q' r x r' x' (_ & w & w' & -> & -> & -> & ->) (A & v & v' & -> & -> & -> & ->).
  split; auto. exists (w ++ v), (w' ++ v'). rewrite <- !app_assoc, !adv_app. auto.
Qed.
Lemma acc_rej : forall s ps t q s' ps' t' q' x x',
  acc s ps t q s' ps' t' q' -> rej t q x t' q' x' -> rej s ps x s' ps' x'.
Proof.
  intros s ps t q s' ps' t' q' x x' (_ & w & w' & -> & -> & -> & ->) (v & r & v' & r' & -> & -> & -> & -> & E).
  exists (w ++ v), r, (w' ++ v'), r'. rewrite <- !app_assoc, !adv_app. auto.
Qed.
Lemma rej_here : forall s ps s' ps', At s s' -> rej s ps ps s' ps' ps'.
Proof. intros. exists [], s, [], s'. splits; auto. Qed.
Lemma rej_end : forall s ps t q s' ps' t' q', acc s ps t q s' ps' t' q' -> rej s ps q s' ps' q'.
Proof. intros. eapply acc_rej; eauto. apply rej_here. destruct H; auto. Qed.
Lemma rej_same : forall s ps q s' ps' q', At s s' -> rej s ps q s' ps' q' -> (q = ps <-> q' = ps').
Proof.
  intros s ps q s' ps' q' A (w & t & w' & t' & E & -> & E' & -> & R). rewrite !adv_fix.
  exact (Er_same _ _ _ _ _ _ A E E' R).
Qed.

Lemma rej_choice : forall s ps s' ps' q1 q1' q2 q2', At s s' ->
  rej s ps q1 s' ps' q1' -> rej s ps q2 s' ps' q2' -> pos_le q2 q1 -> pos_le q1' q2' ->
  rej s ps q1 s' ps' q2'.
Proof.
  intros s ps s' ps' q1 q1' q2 q2' A (u1 & t1 & u1' & t1' & E1 & -> & E1' & -> & R1)
    (u2 & t2 & u2' & t2' & E2 & -> & E2' & -> & R2) L L'.
  exists u1, t1, u2', t2'. splits; auto.
  eapply (Er_choice s s' u1 t1 u2 t2 u1' t1' u2' t2'); eauto.
  - destruct (le_lt_dec (length u2) (length u1)) as [|G]; auto. exfalso.
    apply (prefix_lt u1 u2 s ps) in G; [|exists t1; auto|exists t2; auto].
    apply (pos_lt_irrefl (adv ps u1)). eapply pos_lt_le_trans; eauto.
  - destruct (le_lt_dec (length u1') (length u2')) as [|G]; auto. exfalso.
    apply (prefix_lt u2' u1' s' ps') in G; [|exists t2'; auto|exists t1'; auto].
    apply (pos_lt_irrefl (adv ps' u2')). eapply pos_lt_le_trans; eauto.
Qed.

Lemma rej_choices : forall s ps s' ps' es es' m pe, At s s' ->
  Forall2 (fun x x' => rej s ps (snd x) s' ps' (snd x')) es es' ->
  choice_error sd ps es (m, pe) ->
  exists m' pe', choice_error sd ps' es' (m', pe') /\ rej s ps pe s' ps' pe'.
Proof.
  intros s ps s' ps' es es' m pe A F C. destruct (choice_ex sd ps' es') as ((m' & pe') & C').
  exists m', pe'. split; auto.
  apply choice_max in C as (I & L & M). apply choice_max in C' as (I' & L' & M').
  assert (X : exists q1', rej s ps pe s' ps' q1' /\ pos_le q1' pe').
  { destruct I as [->|I]; [exists ps'; split; auto using rej_here|].
    clear - F I M'. induction F as [|x x' es es' R F IH]; [destruct I|]. simpl in *.
    destruct I as [<-|I]; [exists (snd x'); auto|]. apply IH; auto. }
  assert (Y : exists q2, rej s ps q2 s' ps' pe' /\ pos_le q2 pe).
  { destruct I' as [->|I']; [exists ps; split; auto using rej_here|].
    clear - F I' M. induction F as [|x x' es es' R F IH]; [destruct I'|]. simpl in *.
    destruct I' as [<-|I']; [exists (snd x); auto|]. apply IH; auto. }
  destruct X as (q1' & R1 & L1). destruct Y as (q2 & R2 & L2).
  eapply rej_choice; eauto.
Qed.

Definition gives_sim e s ps o := gives sd env e s ps o -> good e -> forall s' ps', At s s' ->
  exists o', gives sd env e s' ps' o' /\ related s ps s' ps' o o'.
Definition many_sim p s ps (rs : list value) t q := good p -> forall s' ps', At s s' ->
  exists t' q', many sd env p s' ps' rs t' q' /\ acc s ps t q s' ps' t' q'.
Definition in_turn_sim l s ps (rs : list value) t q := (forall p, In p l -> good p) -> forall s' ps', At s s' ->
  exists t' q', in_turn sd env l s' ps' rs t' q' /\ acc s ps t q s' ps' t' q'.
Definition breaks_sim l s ps (m : msg) q := (forall p, In p l -> good p) -> forall s' ps', At s s' ->
  exists m' q', breaks_off sd env l s' ps' m' q' /\ rej s ps q s' ps' q'.
Definition each_sim l s ps os := (forall p, In p l -> good p) -> forall s' ps', At s s' ->
  exists os', each sd env l s' ps' os' /\ Forall2 (related s ps s' ps') os os'.

Lemma sim_accept : forall e s ps v t q, gives_sim e s ps (Accept v t q) -> gives sd env e s ps (Accept v t q) ->
  good e -> forall s0 ps0 s0' ps0' s' ps', acc s0 ps0 s ps s0' ps0' s' ps' ->
  exists t' q', gives sd env e s' ps' (Accept v t' q') /\ acc s0 ps0 t q s0' ps0' t' q'.
Proof.
  intros e s ps v t q H D G s0 ps0 s0' ps0' s' ps' A.
  destruct (H D G s' ps' (proj1 A)) as (o' & D' & (t' & q' & -> & R)).
  exists t', q'. split; auto. eapply acc_trans; eauto.
Qed.
Lemma sim_reject : forall e s ps m q, gives_sim e s ps (Reject m q) -> gives sd env e s ps (Reject m q) ->
  good e -> forall s0 ps0 s0' ps0' s' ps', acc s0 ps0 s ps s0' ps0' s' ps' ->
  exists m' q', gives sd env e s' ps' (Reject m' q') /\ rej s0 ps0 q s0' ps0' q' /\ (q = ps <-> q' = ps').
Proof.
  intros e s ps m q H D G s0 ps0 s0' ps0' s' ps' A.
  destruct (H D G s' ps' (proj1 A)) as (o' & D' & (m' & q' & -> & R)).
  exists m', q'. splits; auto; [eapply acc_rej; eauto | eapply rej_same; eauto; apply A ..].
Qed.
Lemma sim_many : forall p s ps rs t q, many_sim p s ps rs t q -> good p ->
  forall s0 ps0 s0' ps0' s' ps', acc s0 ps0 s ps s0' ps0' s' ps' ->
  exists t' q', many sd env p s' ps' rs t' q' /\ acc s0 ps0 t q s0' ps0' t' q'.
Proof.
  intros p s ps rs t q H G s0 ps0 s0' ps0' s' ps' A.
  destruct (H G s' ps' (proj1 A)) as (t' & q' & D' & R). exists t', q'. split; auto. eapply acc_trans; eauto.
Qed.
Lemma sim_in_turn : forall l s ps rs t q, in_turn_sim l s ps rs t q -> (forall p, In p l -> good p) ->
  forall s0 ps0 s0' ps0' s' ps', acc s0 ps0 s ps s0' ps0' s' ps' ->
  exists t' q', in_turn sd env l s' ps' rs t' q' /\ acc s0 ps0 t q s0' ps0' t' q'.
Proof.
  intros l s ps rs t q H G s0 ps0 s0' ps0' s' ps' A.
  destruct (H G s' ps' (proj1 A)) as (t' & q' & D' & R). exists t', q'. split; auto. eapply acc_trans; eauto.
Qed.
Lemma sim_breaks : forall l s ps m q, breaks_sim l s ps m q -> (forall p, In p l -> good p) ->
  forall s0 ps0 s0' ps0' s' ps', acc s0 ps0 s ps s0' ps0' s' ps' ->
  exists m' q', breaks_off sd env l s' ps' m' q' /\ rej s0 ps0 q s0' ps0' q'.
Proof.
  intros l s ps m q H G s0 ps0 s0' ps0' s' ps' A.
  destruct (H G s' ps' (proj1 A)) as (m' & q' & D' & R). exists m', q'. split; auto. eapply acc_rej; eauto.
Qed.

Lemma related_accept : forall e s ps s' ps' v t q t' q',
  gives sd env e s' ps' (Accept v t' q') -> acc s ps t q s' ps' t' q' ->
  exists o', gives sd env e s' ps' o' /\ related s ps s' ps' (Accept v t q) o'.
Proof. intros. eexists. split; eauto. exists t', q'. auto. Qed.
Lemma related_reject : forall e s ps s' ps' m q m' q',
  gives sd env e s' ps' (Reject m' q') -> rej s ps q s' ps' q' ->
  exists o', gives sd env e s' ps' o' /\ related s ps s' ps' (Reject m q) o'.
Proof. intros. eexists. split; eauto. exists m', q'. auto. Qed.

Ltac part := match goal with K : forall c, In c _ -> good c |- _ => solve [intros; apply K; simpl in *; intuition] end.

Ltac premises :=
  repeat match goal with
  | L : gives_sim ?e ?s ?ps (Accept ?v ?t ?q), D : gives sd env ?e ?s ?ps (Accept ?v ?t ?q),
    C : acc ?s0 ?ps0 ?s ?ps ?s0' ?ps0' ?s' ?ps' |- _ =>
      let P := fresh in
      assert (P : good e) by part;
      destruct (sim_accept _ _ _ _ _ _ L D P _ _ _ _ _ _ C) as (? & ? & ? & ?); clear L P
  | L : gives_sim ?e ?s ?ps (Reject ?m ?q), D : gives sd env ?e ?s ?ps (Reject ?m ?q),
    C : acc ?s0 ?ps0 ?s ?ps ?s0' ?ps0' ?s' ?ps' |- _ =>
      let P := fresh in
      assert (P : good e) by part;
      destruct (sim_reject _ _ _ _ _ L D P _ _ _ _ _ _ C) as (? & ? & ? & ? & ?); clear L P
  | L : many_sim ?p ?s ?ps ?rs ?t ?q, C : acc ?s0 ?ps0 ?s ?ps ?s0' ?ps0' ?s' ?ps' |- _ =>
      let P := fresh in
      assert (P : good p) by part;
      destruct (sim_many _ _ _ _ _ _ L P _ _ _ _ _ _ C) as (? & ? & ? & ?); clear L P
  | L : in_turn_sim ?l ?s ?ps ?rs ?t ?q, C : acc ?s0 ?ps0 ?s ?ps ?s0' ?ps0' ?s' ?ps' |- _ =>
      let P := fresh in
      assert (P : forall p, In p l -> good p) by part;
      destruct (sim_in_turn _ _ _ _ _ _ L P _ _ _ _ _ _ C) as (? & ? & ? & ?); clear L P
  | L : breaks_sim ?l ?s ?ps ?m ?q, C : acc ?s0 ?ps0 ?s ?ps ?s0' ?ps0' ?s' ?ps' |- _ =>
      let P := fresh in
      assert (P : forall p, In p l -> good p) by part;
      destruct (sim_breaks _ _ _ _ _ L P _ _ _ _ _ _ C) as (? & ? & ? & ?); clear L P
  end.

Lemma sim_all :
  (forall e s ps o, gives sd env e s ps o -> gives_sim e s ps o)
  /\ (forall p s ps rs s' ps', many sd env p s ps rs s' ps' -> many_sim p s ps rs s' ps')
  /\ (forall l s ps rs s' ps', in_turn sd env l s ps rs s' ps' -> in_turn_sim l s ps rs s' ps')
  /\ (forall l s ps m pe, breaks_off sd env l s ps m pe -> breaks_sim l s ps m pe)
  /\ (forall l s ps os, each sd env l s ps os -> each_sim l s ps os).
Proof.
  apply rules_mind; intros;
  match goal with
  | |- gives_sim _ ?s ?ps _ =>
      let D := fresh "D" in let G := fresh "G" in let X := fresh "X" in let Y := fresh "Y" in let A := fresh "A" in
      intros D G X Y A; inversion G as [? L|? L|? L|? ? L Kp|? L K]; subst;
      [exact (L _ _ _ D X Y A)|..];
      cbn [combinator children] in *; try contradiction; clear D G;
      pose proof (acc_refl s ps X Y A)
  | _ => idtac
  end;
  premises;
  try (eapply related_accept; [solve [econstructor; eauto]|solve [eauto using acc_refl]]);
  try (eapply related_reject; [solve [econstructor; eauto]|solve [eauto using rej_here]]).

  all: match goal with
  | |- exists o', gives _ _ (PRef _) _ _ o' /\ _ =>
      match goal with H : gives_sim _ _ _ _, D : gives _ _ _ _ _ _ |- _ =>
        destruct (H D (names_good _ L) X Y A) as (o' & D' & R); exists o'; split; [constructor; exact D'|exact R] end
  | _ => idtac
  end.

  all: repeat match goal with
  | H : ?a = ?a <-> ?b = ?c |- _ => assert (b = c) by (apply H; reflexivity); subst; clear H
  | N : ?a <> ?d, H : ?a = ?d <-> ?b = ?c |- _ => assert (b <> c) by (rewrite <- H; exact N); clear H
  end.
  all: try (eapply related_accept; [solve [econstructor; eauto]|solve [eauto using acc_refl]]).
  all: try (eapply related_reject; [solve [econstructor; eauto]|solve [eauto using rej_here]]).

  - (* empty *) apply (At_ends L) in A. destruct A as [A _]. rewrite (A eq_refl) in *.
    eapply related_accept; [constructor|exact H].
  - destruct X as [|d X]; [apply (At_ends L) in A; destruct A as [_ A]; discriminate (A eq_refl)|].
    eapply related_reject; [constructor|apply rej_here; exact A].
  - (* transform_error_message *)
    match goal with D : gives sd env p X Y (Reject ?m1 ?q1), R : rej s ps pe X Y ?q1 |- _ =>
      destruct (f m1) as [m2|] eqn:F; [|destruct (L _ F)];
      eapply related_reject; [eapply g_transform_error_message; [exact D|exact F]|exact R] end.
  - (* one_of *) destruct H1 as (IA & os1 & os2 & -> & FR).
    destruct (H0 ltac:(part) X Y A) as (os' & E & F).
    apply Forall2_app_inv_l in F as (os1' & l' & F1 & F2 & ->).
    inversion F2 as [|? o' ? os2' R F3]; subst. exists o'. split; [|exact R].
    eapply g_one_of; [exact E|]. split.
    + destruct IA as (r & t & q & ->). destruct R as (? & ? & -> & _). repeat eexists.
    + exists os1', os2'. split; auto. clear - F1 FR.
      induction F1 as [|a b l l' R F IH]; inversion FR; subst; constructor; auto.
      destruct H1 as (m & q & ->). destruct R as (? & ? & -> & _). repeat eexists.
  - red in H1. subst os. destruct (H0 ltac:(part) X Y A) as (os' & E & F).
    assert (Z : exists es', rejections os' es' /\ Forall2 (fun x x' => rej s ps (snd x) X Y (snd x')) es es').
    { clear - F. revert os' F. induction es as [|e es IH]; intros os' F; inversion F; subst.
      - exists []. split; [reflexivity|constructor].
      - destruct (IH _ H3) as (es' & R & G). destruct H1 as (m' & q' & -> & R1).
        exists ((m', q') :: es'). split; [unfold rejections in *; cbn; f_equal; auto|constructor; auto]. }
    destruct Z as (es' & R & F2).
    destruct (rej_choices _ _ _ _ _ _ _ _ A F2 H2) as (m' & pe' & C & R').
    eapply related_reject; [eapply g_one_of_fails; eauto|exact R'].
  - (* entire_input *)
    destruct (sim_accept _ _ _ _ _ _ H0 H Kp _ _ _ _ _ _ H1) as (t' & q' & D & C).
    pose proof (proj1 (At_ends L _ _ (proj1 C)) eq_refl) as E. subst t'.
    eapply related_accept; [constructor; exact D|exact C].
  - destruct (sim_accept _ _ _ _ _ _ H0 H Kp _ _ _ _ _ _ H1) as (t' & q' & D & C).
    destruct t' as [|d t']; [discriminate (proj2 (At_ends L _ _ (proj1 C)) eq_refl)|].
    eapply related_reject; [eapply g_entire_input_more; exact D|eapply rej_end; exact C].
  - destruct (sim_reject _ _ _ _ _ H0 H Kp _ _ _ _ _ _ H1) as (m1 & q' & D & C & _).
    eapply related_reject; [eapply g_entire_input_fails; exact D|exact C].
  - (* many *) intros G X Y A. exists X, Y. split; [constructor|apply acc_refl; exact A].
  - intros G X Y A. pose proof (acc_refl s ps X Y A) as C.
    destruct (sim_accept _ _ _ _ _ _ H0 H G _ _ _ _ _ _ C) as (t' & q' & D & C1).
    destruct (sim_many _ _ _ _ _ _ H2 G _ _ _ _ _ _ C1) as (t2 & q2 & D2 & C2).
    exists t2, q2. split; [econstructor; eauto|exact C2].
  - (* in_turn *) intros G X Y A. exists X, Y. split; [constructor|apply acc_refl; exact A].
  - intros G X Y A. pose proof (acc_refl s ps X Y A) as C.
    destruct (sim_accept _ _ _ _ _ _ H0 H (G p (or_introl eq_refl)) _ _ _ _ _ _ C) as (t' & q' & D & C1).
    destruct (sim_in_turn _ _ _ _ _ _ H2 (fun x i => G x (or_intror i)) _ _ _ _ _ _ C1) as (t2 & q2 & D2 & C2).
    exists t2, q2. split; [econstructor; eauto|exact C2].
  - (* breaks_off *) intros G X Y A. pose proof (acc_refl s ps X Y A) as C.
    destruct (sim_reject _ _ _ _ _ H0 H (G p (or_introl eq_refl)) _ _ _ _ _ _ C) as (m1 & q' & D & C1 & _).
    exists m1, q'. split; [constructor; exact D|exact C1].
  - intros G X Y A. pose proof (acc_refl s ps X Y A) as C.
    destruct (sim_accept _ _ _ _ _ _ H0 H (G p (or_introl eq_refl)) _ _ _ _ _ _ C) as (t' & q' & D & C1).
    destruct (sim_breaks _ _ _ _ _ H2 (fun x i => G x (or_intror i)) _ _ _ _ _ _ C1) as (t2 & q2 & D2 & C2).
    exists t2, q2. split; [eapply breaks_off_later; eauto|exact C2].
  - (* each *) intros G X Y A. exists []. split; constructor.
  - intros G X Y A.
    destruct (H0 H (G p (or_introl eq_refl)) X Y A) as (o' & D & R).
    destruct (H2 (fun x i => G x (or_intror i)) X Y A) as (os' & D2 & R2).
    exists (o' :: os'). split; constructor; auto.
Qed.

Lemma good_simulates : forall e, good e -> simulates e.
Proof. intros e G s ps o D s' ps' A. exact (proj1 sim_all e s ps o D D G s' ps' A). Qed.
End Simulation.

(** ** White space *)

Lemma whitespace_iff : forall c, is_whitespace_c c = true <-> space_char c.
Proof.
  intros c. unfold is_whitespace_c, space_char. rewrite !orb_true_iff, !Z.eqb_eq. tauto.
Qed.
Lemma whitespace_dec : forall c, {space_char c} + {~ space_char c}.
Proof.
  intros c. destruct (is_whitespace_c c) eqn:E; [left; apply whitespace_iff; exact E|right].
  intros H. apply whitespace_iff in H. congruence.
Qed.

Lemma skip_ex : forall s, exists sp t, s = sp ++ t /\ Forall space_char sp /\ not_starting_with space_char t.
Proof.
  induction s as [|c s (sp & t & -> & F & N)]; [exists [], []; repeat constructor|].
  destruct (whitespace_dec c) as [W|W].
  - exists (c :: sp), t. auto.
  - exists [], (c :: sp ++ t). auto.
Qed.

Section Spaces.
Variable sd : std.
Variable env : program.
Lemma space_gives : forall c s ps, space_char c -> gives sd env PSpace (c :: s) ps (Accept (VChar c) s (adv ps [c])).
Proof.
  intros c s ps H. apply whitespace_iff in H. eapply g_accept_when; [constructor; apply walk_iff; reflexivity|].
  cbn. rewrite H. reflexivity.
Qed.
Lemma space_fails : forall s ps, not_starting_with space_char s -> exists m, gives sd env PSpace s ps (Reject m ps).
Proof.
  intros [|c s] ps N.
  - eexists. eapply g_accept_when_fails. constructor.
  - eexists. eapply g_accept_when_not; [constructor; apply walk_iff; reflexivity|].
    cbn. destruct (is_whitespace_c c) eqn:E; auto. apply whitespace_iff in E. destruct (N E).
Qed.
Lemma space_inv : forall s ps o, gives sd env PSpace s ps o ->
  (exists c t, s = c :: t /\ space_char c /\ o = Accept (VChar c) t (adv ps [c]))
  \/ (not_starting_with space_char s /\ exists m, o = Reject m ps).
Proof.
  intros s ps o G. inversion G; subst;
  match goal with H : gives _ _ POneChar _ _ _ |- _ => inversion H; subst end;
  repeat match goal with H : walk _ _ _ |- _ => apply walk_iff in H; subst end.
  - left. do 2 eexists. splits; [reflexivity| |reflexivity].
    apply whitespace_iff. match goal with H : is_whitespace _ = _ |- _ => cbn in H; injection H; auto end.
  - right. split; eauto. intros X. apply whitespace_iff in X.
    match goal with H : is_whitespace _ = _ |- _ => cbn in H; congruence end.
  - right. cbn. eauto.
Qed.
Lemma many_spaces : forall sp t ps, Forall space_char sp ->
  many sd env PSpace (sp ++ t) ps (map VChar sp) t (adv ps sp).
Proof.
  induction sp as [|c sp IH]; intros t ps F; [constructor|]. inversion F; subst.
  econstructor; [apply space_gives; auto|]. apply IH; auto.
Qed.
Lemma lfold_back : forall rs a, lfold back_inserter rs (VSeq a) = Some (VSeq (a ++ rs)).
Proof.
  induction rs as [|r rs IH]; intros a; cbn; [rewrite app_nil_r; reflexivity|].
  rewrite IH, <- app_assoc. reflexivity.
Qed.
Lemma spaces_give : forall sp t ps, Forall space_char sp -> not_starting_with space_char t ->
  gives sd env (PRepeated PSpace) (sp ++ t) ps (Accept (VSeq (map VChar sp)) t (adv ps sp)).
Proof.
  intros sp t ps F N. destruct (space_fails t (adv ps sp) N) as (m & R).
  eapply g_foldl; [apply many_spaces; exact F|exact R|reflexivity|apply lfold_back].
Qed.
Lemma many_spaces_inv : forall s ps rs t q, many sd env PSpace s ps rs t q ->
  exists sp, s = sp ++ t /\ Forall space_char sp /\ q = adv ps sp /\ rs = map VChar sp.
Proof.
  intros s ps rs t q M. remember PSpace as p eqn:E. revert E. induction M; intros ->.
  - exists []. auto.
  - destruct (IHM eq_refl) as (sp & -> & F & -> & ->).
    apply space_inv in H as [(c & t & -> & W & E)|(_ & m & E)]; [|discriminate].
    inversion E; subst. exists (c :: sp). splits; auto.
Qed.
Lemma spaces_inv : forall s ps o, gives sd env (PRepeated PSpace) s ps o ->
  exists sp t, s = sp ++ t /\ Forall space_char sp /\ not_starting_with space_char t
    /\ o = Accept (VSeq (map VChar sp)) t (adv ps sp).
Proof.
  intros s ps o G. inversion G; subst.
  match goal with H : many _ _ _ _ _ _ _ _ |- _ => apply many_spaces_inv in H as (sp & -> & F & -> & ->) end.
  match goal with H : gives _ _ _ _ _ _ |- _ =>
    apply space_inv in H as [(c & t & -> & W & E)|(N & m' & E)]; [discriminate|] end.
  exists sp, s'. splits; auto.
  repeat match goal with H : Some _ = Some _ |- _ => injection H as <- end.
  match goal with H : lfold _ _ _ = Some _ |- _ => rewrite lfold_back in H; injection H as <- end. reflexivity.
Qed.
End Spaces.

(** ** The tokens of a text *)

Section Tokens.
Variable kind_of : char -> kind.
Hypothesis spaces : spaces_known kind_of.
Notation split := (split kind_of).
Notation same_tokens := (same_tokens kind_of).
Notation same_from_token := (same_from_token kind_of).

Lemma kind_dec : forall (k k' : kind), {k = k'} + {k <> k'}.
Proof. decide equality. apply Nat.eq_dec. Qed.

Definition solid (c : char) : bool := match kind_of c with Space => false | _ => true end.
Definition weight (s : str) : nat := length (filter solid s).

Lemma weight_app : forall a b, weight (a ++ b) = (weight a + weight b)%nat.
Proof. intros. unfold weight. rewrite filter_app, app_length. reflexivity. Qed.
Lemma weight_full : forall w, Forall (fun c => kind_of c <> Space) w -> weight w = length w.
Proof.
  induction w as [|c w IH]; intros F; auto. inversion F; subst. unfold weight, solid in *. cbn.
  destruct (kind_of c); cbn; rewrite ?IH by auto; congruence.
Qed.
Lemma weight_none : forall w, weight w = 0%nat -> Forall (of_kind kind_of Space) w.
Proof.
  induction w as [|c w IH]; intros E; constructor; unfold weight, solid, of_kind in *; cbn in E;
  destruct (kind_of c) eqn:K; cbn in E; auto; discriminate.
Qed.
Lemma split_weight : forall s ts, split s ts -> weight s = length (concat ts).
Proof.
  intros s ts S. induction S; cbn [concat]; rewrite ?app_length; auto.
  - unfold weight, solid, of_kind in *. cbn. rewrite H. exact IHS.
  - unfold weight, solid, of_kind in *. cbn. rewrite H. cbn. f_equal. exact IHS.
  - rewrite weight_app, IHS. f_equal. apply weight_full. eapply Forall_impl; [|exact H0].
    unfold of_kind. intros. congruence.
Qed.
Lemma same_weight : forall s s', same_tokens s s' -> weight s = weight s'.
Proof. intros s s' (ts & S & S'). rewrite (split_weight _ _ S), (split_weight _ _ S'). reflexivity. Qed.

Lemma same_sym : forall s s', same_tokens s s' -> same_tokens s' s.
Proof. intros s s' (ts & S & S'). exists ts. auto. Qed.
Lemma same_at_sym : forall s s', same_from_token s s' -> same_from_token s' s.
Proof. intros s s' (S & A & A'). unfold SpecLayout.same_from_token. auto using same_sym. Qed.

Lemma split_unspace : forall c s ts, of_kind kind_of Space c -> split (c :: s) ts -> split s ts.
Proof.
  unfold of_kind. intros c s ts K S. inversion S; subst; auto; unfold of_kind in *.
  - congruence.
  - destruct w as [|d w]; [congruence|]. cbn in H. inversion H; subst. inversion H1; subst. unfold of_kind in *.
    congruence.
Qed.
Lemma split_unspaces : forall sp s ts, Forall (of_kind kind_of Space) sp -> split (sp ++ s) ts -> split s ts.
Proof. induction sp; intros s ts F S; auto. inversion F; subst. eauto using split_unspace. Qed.
Lemma split_spaces : forall sp s ts, Forall (of_kind kind_of Space) sp -> split s ts -> split (sp ++ s) ts.
Proof. induction sp; intros s ts F S; auto. inversion F; subst. cbn. constructor; auto. Qed.

Lemma same_skip : forall sp s sp' s', Forall (of_kind kind_of Space) sp -> Forall (of_kind kind_of Space) sp' ->
  same_tokens (sp ++ s) (sp' ++ s') -> same_tokens s s'.
Proof. intros sp s sp' s' F F' (ts & S & S'). exists ts. eauto using split_unspaces. Qed.

Lemma Er_same_tokens : forall s s' u t u' t', same_from_token s s' -> s = u ++ t -> s' = u' ++ t' ->
  same_tokens t t' -> (u = [] <-> u' = []).
Proof.
  assert (X : forall s s' t u' t', same_from_token s s' -> s = t -> s' = u' ++ t' -> same_tokens t t' -> u' = []).
  { intros s s' t u' t' (S & A & A') -> -> S2. apply same_weight in S. apply same_weight in S2.
    rewrite weight_app in S. assert (W : weight u' = 0%nat) by lia. apply weight_none in W.
    destruct u' as [|c u']; auto. inversion W; subst. destruct (A' H1). }
  intros s s' u t u' t' S E E' S2. split; intros ->.
  - eapply X; eauto.
  - apply (X s' s t' u t); auto using same_at_sym, same_sym.
Qed.

Lemma Er_choice_tokens : forall s s' u1 t1 u2 t2 u1' t1' u2' t2', same_from_token s s' ->
  s = u1 ++ t1 -> s = u2 ++ t2 -> s' = u1' ++ t1' -> s' = u2' ++ t2' ->
  same_tokens t1 t1' -> same_tokens t2 t2' -> (length u2 <= length u1)%nat -> (length u1' <= length u2')%nat ->
  same_tokens t1 t2'.
Proof.
  intros s s' u1 t1 u2 t2 u1' t1' u2' t2' _ E1 E2 E1' E2' S1 S2 L L'.
  assert (X : forall (a b c d : str), a ++ b = c ++ d -> (length c <= length a)%nat -> exists e, d = e ++ b).
  { induction a as [|x a IH]; intros b [|y c] d E M; cbn in *; try (exfalso; lia).
    - exists []. auto.
    - exists (x :: a). auto.
    - injection E as -> E. apply (IH b c d E). lia. }
  destruct (X u1 t1 u2 t2 ltac:(congruence) L) as (e & ->).
  destruct (X u2' t2' u1' t1' ltac:(congruence) L') as (e' & ->).
  pose proof (same_weight _ _ S1) as W1. pose proof (same_weight _ _ S2) as W2.
  rewrite weight_app in W1, W2. assert (W : weight e = 0%nat) by lia.
  apply (same_skip e t1 [] t2'); auto. apply weight_none, W.
Qed.

Lemma same_at_ends : forall s s', same_from_token s s' -> (s = [] <-> s' = []).
Proof.
  assert (X : forall s', same_from_token [] s' -> s' = []).
  { intros s' (S & _ & A). apply same_weight in S. symmetry in S. apply weight_none in S.
    destruct s'; auto. inversion S; subst. destruct (A H1). }
  intros s s' S. split; intros ->; apply X; auto using same_at_sym.
Qed.

(** What follows the first word, and the first mark. *)
Lemma split_word_inv : forall k w s ts, w <> [] -> Forall (of_kind kind_of (Word k)) w ->
  not_starting_with (of_kind kind_of (Word k)) s -> split (w ++ s) ts -> exists ts', ts = w :: ts' /\ split s ts'.
Proof.
  intros k w s ts N F M S. inversion S; subst; unfold of_kind in *.
  - destruct w; cbn in *; [congruence|discriminate].
  - destruct w as [|d w]; [congruence|]. cbn in H. inversion H; subst. inversion F; subst. congruence.
  - destruct w as [|d w]; [congruence|]. cbn in H. inversion H; subst. inversion F; subst. congruence.
  - assert (k0 = k).
    { destruct w as [|d w]; [congruence|]. destruct w0 as [|d0 w0]; [congruence|]. cbn in H. inversion H; subst.
      inversion F; inversion H1; subst. congruence. }
    subst k0. assert (w0 = w /\ s0 = s) as (-> & ->); [|eauto].
    clear - H H1 H2 F M. revert w F H. induction w0 as [|d w0 IH]; intros w F H.
    + destruct w as [|e w]; auto. cbn in H. subst s0. inversion F; subst. destruct (H2 H3).
    + inversion H1; subst. destruct w as [|e w]; cbn in H.
      * subst s. destruct (M H4).
      * injection H as -> H. inversion F; subst. destruct (IH H5 w H7 H) as (-> & ->). auto.
Qed.

Lemma at_token_word : forall k s w ts, w <> [] -> Forall (of_kind kind_of (Word k)) w -> at_token kind_of s ->
  split s (w :: ts) -> exists r, s = w ++ r /\ not_starting_with (of_kind kind_of (Word k)) r /\ split r ts.
Proof.
  intros k s w ts N F A S. inversion S; subst.
  - destruct (A H).
  - inversion F; subst. unfold of_kind in *. congruence.
  - assert (k0 = k).
    { destruct w as [|d w]; [congruence|].
      pose proof (Forall_inv F) as X1. match goal with H : Forall _ (d :: w) |- _ => pose proof (Forall_inv H) as X2; clear H end.
      unfold of_kind in *. congruence. }
    subst. eauto.
Qed.
Lemma at_token_mark : forall s c ts, of_kind kind_of Mark c -> at_token kind_of s ->
  split s ([c] :: ts) -> exists r, s = c :: r /\ split r ts.
Proof.
  intros s c ts M A S. inversion S; subst.
  - destruct (A H).
  - eauto.
  - match goal with H : Forall _ [c] |- _ => apply Forall_inv in H end. unfold of_kind in *. congruence.
Qed.
Lemma same_mark : forall c s s', of_kind kind_of Mark c -> same_from_token (c :: s) s' ->
  exists r, s' = c :: r /\ same_tokens s r.
Proof.
  intros c s s' M ((ts & S & S') & _ & A).
  assert (X : exists ts', ts = [c] :: ts' /\ split s ts').
  { unfold of_kind in *. inversion S; subst; unfold of_kind in *; eauto; try congruence.
    destruct w; [congruence|]. cbn in H. inversion H; subst. inversion H1; subst. unfold of_kind in *. congruence. }
  destruct X as (ts' & -> & S1). destruct (at_token_mark _ _ _ M A S') as (r & -> & S2).
  exists r. split; auto. exists ts'. auto.
Qed.

Lemma first_word : forall k s, exists w r, s = w ++ r /\ Forall (of_kind kind_of (Word k)) w
  /\ not_starting_with (of_kind kind_of (Word k)) r.
Proof.
  intros k. induction s as [|c s (w & r & -> & F & N)]; [exists [], []; repeat constructor|].
  destruct (kind_dec (kind_of c) (Word k)) as [E|E].
  - exists (c :: w), r. splits; auto.
  - exists [], (c :: w ++ r). splits; auto.
Qed.

(** Texts that are the same up to white space after a word. *)
Lemma same_word : forall k s s', same_from_token s s' -> exists w r r',
  s = w ++ r /\ s' = w ++ r' /\ Forall (of_kind kind_of (Word k)) w
  /\ not_starting_with (of_kind kind_of (Word k)) r /\ not_starting_with (of_kind kind_of (Word k)) r'
  /\ forall w0 w1, w = w0 ++ w1 -> same_tokens (w1 ++ r) (w1 ++ r').
Proof.
  intros k s s' S. pose proof S as ((ts & S1 & S2) & A & A').
  destruct (first_word k s) as (w & r & E & F & N). destruct w as [|c w].
  - destruct (first_word k s') as (w' & r' & E' & F' & N'). destruct w' as [|c w'].
    + exists [], r, r'. cbn in *. subst. splits; auto. intros w0 w1 E. symmetry in E. apply app_eq_nil in E as (_ & ->).
      apply S.
    + exfalso. subst s'. apply (split_word_inv k) in S2 as (ts' & -> & S2); auto; [|discriminate].
      apply (at_token_word k) in S1 as (r1 & -> & _); auto; [|discriminate].
      cbn in E. subst r. cbn in N. inversion F'; subst. auto.
  - subst s. apply (split_word_inv k) in S1 as (ts' & -> & S1); auto; [|discriminate].
    apply (at_token_word k) in S2 as (r' & -> & N' & S2); auto; [|discriminate].
    exists (c :: w), r, r'. splits; auto. intros w0 w1 E. destruct w1 as [|d w1]; [exists ts'; auto|].
    rewrite E in F. apply Forall_app in F as (_ & F). exists ((d :: w1) :: ts').
    split; apply split_word with (k := k); auto; discriminate.
Qed.

(** Every text has tokens ... *)
Lemma split_ex : forall s, exists ts, split s ts.
Proof.
  intros s. remember (length s) as n eqn:E. revert s E. induction n as [n IH] using lt_wf_ind. intros [|c s] E.
  - exists []. constructor.
  - destruct (kind_of c) as [| |k] eqn:K.
    + destruct (IH (length s) ltac:(subst n; cbn; lia) s eq_refl) as (ts & S). exists ts. apply split_space; auto.
    + destruct (IH (length s) ltac:(subst n; cbn; lia) s eq_refl) as (ts & S). exists ([c] :: ts). apply split_mark; auto.
    + destruct (first_word k s) as (w & r & -> & F & N).
      destruct (IH (length r) ltac:(subst n; cbn; rewrite app_length; lia) r eq_refl) as (ts & S).
      exists ((c :: w) :: ts). apply (split_word kind_of k (c :: w)); auto. discriminate.
Qed.
(** ... and only one way to split it. *)
Lemma split_unique : forall s ts, split s ts -> forall ts', split s ts' -> ts = ts'.
Proof.
  intros s ts S. induction S; intros ts' S'.
  - inversion S'; auto. destruct w; [congruence|discriminate].
  - apply IHS. eapply split_unspace; eauto.
  - inversion S'; subst; unfold of_kind in *; try congruence.
    + f_equal. apply IHS; auto.
    + destruct w; [congruence|]. cbn in H0. inversion H0; subst. inversion H2; subst. unfold of_kind in *. congruence.
  - destruct (split_word_inv k w s ts' H H0 H1 S') as (ts2 & -> & S2). f_equal. auto.
Qed.

(** White space between tokens. *)
Lemma same_insert : forall u sp t, Forall (of_kind kind_of Space) sp -> between_tokens kind_of u t ->
  same_tokens (u ++ t) (u ++ sp ++ t).
Proof.
  intros u sp t F B. destruct (split_ex (u ++ t)) as (ts & S). exists ts. split; auto.
  remember (u ++ t) as s eqn:E. revert u E B.
  induction S as [|c s ts K S IH|c s ts K S IH|k w s ts N W M S IH]; intros u E B.
  - symmetry in E. apply app_eq_nil in E as (-> & ->). cbn. rewrite app_nil_r.
    rewrite <- (app_nil_r sp). apply split_spaces; auto. constructor.
  - destruct u as [|d u]; cbn in *.
    + rewrite <- E. apply split_spaces; auto. constructor; auto.
    + injection E as <- ->. apply split_space; auto. apply IH; auto.
      intros a x y b k ->. apply (B (c :: a)). reflexivity.
  - destruct u as [|d u]; cbn in *.
    + rewrite <- E. apply split_spaces; auto. apply split_mark; auto.
    + injection E as <- ->. apply split_mark; auto. apply IH; auto.
      intros a x y b k ->. apply (B (c :: a)). reflexivity.
  - destruct u as [|d u].
    + cbn in *. rewrite <- E. apply split_spaces; auto. eapply split_word; eauto.
    + assert (X : (exists u2, d :: u = w ++ u2 /\ s = u2 ++ t) \/ exists x w2, w = (d :: u) ++ x :: w2 /\ t = x :: w2 ++ s).
      { clear - E. revert w E. generalize (d :: u) as v. induction v as [|a v IH]; intros w E.
        - destruct w as [|x w]; cbn in E; [left; exists []; auto|right]. exists x, w. auto.
        - destruct w as [|x w]; cbn in E; [left; exists (a :: v); auto|]. injection E as -> E.
          destruct (IH w E) as [(u2 & -> & ->)|(y & w2 & -> & ->)]; [left; exists u2|right; exists y, w2]; auto. }
      destruct X as [(u2 & E2 & ->)|(x & w2 & -> & ->)].
      * rewrite E2, <- app_assoc. eapply split_word; eauto.
        -- destruct u2 as [|y u2]; [|exact M]. destruct sp as [|z sp]; [exact M|]. cbn.
           inversion F; subst. unfold of_kind in *. congruence.
        -- apply IH; auto. intros a p q b k' ->. apply (B (w ++ a)). rewrite E2, app_assoc. reflexivity.
      * exfalso. destruct (exists_last (l := d :: u) ltac:(discriminate)) as (a & c & Ea).
        apply Forall_app in W as (W1 & W2). rewrite Ea in W1. apply Forall_app in W1 as (_ & W1).
        apply (B a c x (w2 ++ s) k); auto.
        -- inversion W1; auto.
        -- inversion W2; auto.
Qed.

End Tokens.

(** ** Parsers of one character *)

Section OneChar.
Variable sd : std.
Variable env : program.
Variable P : char -> Prop.
Hypothesis P_dec : forall c, P c \/ ~ P c.

Definition reads_head (e : pexpr) : Prop := forall s ps o, gives sd env e s ps o ->
  (exists c t v, s = c :: t /\ P c /\ o = Accept v t (adv ps [c])
     /\ forall t' ps', gives sd env e (c :: t') ps' (Accept v t' (adv ps' [c])))
  \/ ((exists m, o = Reject m ps)
      /\ forall s' ps', hd_error s = hd_error s' \/ not_starting_with P s' ->
           exists m, gives sd env e s' ps' (Reject m ps')).

Lemma any_char_gives : forall q c t ps, any_char q -> gives sd env q (c :: t) ps (Accept (VChar c) t (adv ps [c])).
Proof.
  intros q c t ps A. destruct A.
  - constructor. apply walk_iff. reflexivity.
  - apply g_change_error_message_ok. constructor. apply walk_iff. reflexivity.
Qed.
Lemma any_char_end : forall q ps, any_char q -> exists m, gives sd env q [] ps (Reject m ps).
Proof.
  intros q ps A. destruct A; eexists.
  - apply g_one_char_end.
  - eapply g_change_error_message. apply g_one_char_end.
Qed.
Lemma any_char_inv : forall q s ps o, any_char q -> gives sd env q s ps o ->
  (exists c t, s = c :: t /\ o = Accept (VChar c) t (adv ps [c])) \/ (s = [] /\ exists m, o = Reject m ps).
Proof.
  assert (X : forall s ps o, gives sd env POneChar s ps o ->
    (exists c t, s = c :: t /\ o = Accept (VChar c) t (adv ps [c])) \/ (s = [] /\ exists m, o = Reject m ps)).
  { intros s ps o G. inversion G; subst; [left|right; eauto]. apply walk_iff in H. subst. eauto. }
  intros q s ps o A G. destruct A; auto. inversion G; subst.
  - apply X. match goal with H : gives _ _ POneChar _ _ _ |- _ => exact H end.
  - match goal with H : gives _ _ POneChar _ _ _ |- _ => apply X in H as [(c & t & _ & E)|(-> & _)] end.
    + discriminate.
    + right. eauto.
Qed.

Lemma reads_one_head : forall e, reads_one P e -> reads_head e.
Proof.
  intros e R. destruct R as [cs F|q pr m A N]; intros s ps o G.
  - inversion G; subst.
    + left. match goal with H : walk _ _ _ |- _ => apply walk_iff in H; subst end. eexists _, _, (VChar _). rewrite Forall_forall in F. splits; auto.
      intros t' ps'. constructor; auto. apply walk_iff. reflexivity.
    + right. split; eauto. intros s' ps' H. eexists. apply g_one_of_c_error.
      destruct s' as [|d t']; cbn; auto. destruct H as [H|H].
      * destruct s as [|c t]; cbn in H; [discriminate|]. injection H as ->.
        match goal with X : not_starting_with (fun _ => In _ _) _ |- _ => exact X end.
      * intros I. rewrite Forall_forall in F. exact (H (F _ I)).
  - assert (W : forall c t ps, pr (VChar c) = Some false -> exists m0, gives sd env (PAcceptWhen q pr m) (c :: t) ps (Reject m0 ps)).
    { intros c t q0 E. eexists. eapply g_accept_when_not; [apply any_char_gives; exact A|exact E]. }
    assert (V : forall ps, exists m0, gives sd env (PAcceptWhen q pr m) [] ps (Reject m0 ps)).
    { intros q0. destruct (any_char_end q q0 A) as (m0 & D). eexists. eapply g_accept_when_fails; exact D. }
    inversion G; subst;
    match goal with H : gives _ _ q _ _ _ |- _ => apply (any_char_inv _ _ _ _ A) in H as [(c & t & -> & E)|(-> & m1 & E)]; inversion E; subst end.
    + left. exists c, t, (VChar c). splits; auto.
      * destruct (P_dec c) as [|H]; auto. apply N in H. congruence.
      * intros t' ps'. apply g_accept_when; auto. apply any_char_gives; auto.
    + right. split; eauto. intros [|d t'] ps' H; [apply V|]. destruct H as [H|H].
      * injection H as <-. apply W; auto.
      * apply W. apply N. exact H.
    + right. split; eauto. intros [|d t'] ps' H; [apply V|]. destruct H as [H|H]; [discriminate|].
      apply W. apply N. exact H.
Qed.
End OneChar.

Section Layout.
Variable sd : std.
Variable env : program.
Variable kind_of : char -> kind.
Hypothesis spaces : spaces_known kind_of.
Variable role_of : nat -> role.
Hypothesis kept : roles_kept kind_of role_of env.

Lemma of_kind_dec : forall k c, of_kind kind_of k c \/ ~ of_kind kind_of k c.
Proof. intros k c. unfold of_kind. destruct (kind_dec (kind_of c) k); auto. Qed.

Lemma mark_reader_head : forall e, mark_reader kind_of e -> reads_head sd env (of_kind kind_of Mark) e.
Proof.
  intros e M. induction M as [e R|p f M IH|p v M IH|p m M IH].
  - apply reads_one_head; auto. apply of_kind_dec.
  - intros s ps o G. inversion G; subst;
    match goal with H : gives _ _ p _ _ _ |- _ => apply IH in H as [(c & t & w0 & -> & K & E & A)|((m1 & E) & A)]; inversion E; subst end.
    + left. exists c, t, v. splits; auto. intros. eapply g_transform; eauto.
    + right. split; eauto. intros s' ps' H. destruct (A s' ps' H) as (m & D). exists m. apply g_transform_fails. exact D.
  - intros s ps o G. inversion G; subst;
    match goal with H : gives _ _ p _ _ _ |- _ => apply IH in H as [(c & t & w0 & -> & K & E & A)|((m1 & E) & A)]; inversion E; subst end.
    + left. exists c, t, v. splits; auto. intros. eapply g_always; eauto.
    + right. split; eauto. intros s' ps' H. destruct (A s' ps' H) as (m & D). exists m. apply g_always_fails. exact D.
  - intros s ps o G. inversion G; subst;
    match goal with H : gives _ _ p _ _ _ |- _ => apply IH in H as [(c & t & w0 & -> & K & E & A)|((m1 & E) & A)]; inversion E; subst end.
    + left. exists c, t, w0. splits; auto. intros. eapply g_change_error_message_ok; eauto.
    + right. split; eauto. intros s' ps' H. destruct (A s' ps' H) as (m2 & D). exists m. eapply g_change_error_message. exact D.
Qed.

(** Inside a word. *)
Section Lexeme.
Variable k : nat.
Variables r r' : str.
Hypothesis stop : not_starting_with (of_kind kind_of (Word k)) r.
Hypothesis stop' : not_starting_with (of_kind kind_of (Word k)) r'.

Definition in_word (s s' : str) : Prop :=
  exists w, Forall (of_kind kind_of (Word k)) w /\ s = w ++ r /\ s' = w ++ r'.

Lemma in_word_same : forall s s' u t u' t', in_word s s' -> s = u ++ t -> s' = u' ++ t' -> in_word t t' ->
  (u = [] <-> u' = []).
Proof.
  intros s s' u t u' t' (w & _ & -> & ->) E E' (w1 & _ & -> & ->).
  apply (f_equal (@length _)) in E, E'. rewrite !app_length in E, E'.
  assert (length u = length u') by lia. destruct u, u'; cbn in *; split; congruence.
Qed.
Lemma in_word_choice : forall s s' u1 t1 u2 t2 u1' t1' u2' t2', in_word s s' ->
  s = u1 ++ t1 -> s = u2 ++ t2 -> s' = u1' ++ t1' -> s' = u2' ++ t2' ->
  in_word t1 t1' -> in_word t2 t2' -> (length u2 <= length u1)%nat -> (length u1' <= length u2')%nat ->
  in_word t1 t2'.
Proof.
  intros s s' u1 t1 u2 t2 u1' t1' u2' t2' _ -> E1 -> E2 (w1 & F1 & -> & ->) (w2 & F2 & -> & ->) L L'.
  assert (w1 = w2) as ->; [|exists w2; auto].
  rewrite !app_assoc in E1, E2. apply app_inv_tail in E1, E2.
  pose proof (f_equal (@length _) E1) as M. pose proof (f_equal (@length _) E2) as M'.
  rewrite !app_length in M, M'. assert (Q : length u1 = length u2) by lia.
  clear - E1 Q. revert u2 E1 Q. induction u1; intros [|b u2] E Q; cbn in *; try discriminate; auto.
  injection E as -> E. eauto.
Qed.

Lemma simulates_char : forall e, reads_one (of_kind kind_of (Word k)) e ->
  simulates sd env in_word in_word e.
Proof.
  intros e R s ps o G s' ps' (w & F & -> & ->).
  destruct (reads_one_head sd env _ (of_kind_dec (Word k)) e R _ _ _ G)
    as [(c & t & v & E & K & -> & A)|((m & ->) & A)].
  - destruct w as [|d w]; cbn in E; [rewrite E in stop; destruct (stop K)|]. injection E as -> <-.
    cbn [app]. eexists. split; [apply A|]. do 2 eexists. split; [reflexivity|]. split.
    + exists w. inversion F; auto.
    + exists [c], [c]. auto.
  - destruct (A (w ++ r') ps') as (m' & D).
    { destruct w; [right; exact stop'|left; reflexivity]. }
    eexists. split; [exact D|]. exists m', ps'. split; auto. exists [], (w ++ r), [], (w ++ r').
    splits; auto. exists w. auto.
Qed.

Lemma word_prefix : forall w u t, Forall (of_kind kind_of (Word k)) u -> w ++ r = u ++ t ->
  exists w1, w = u ++ w1 /\ t = w1 ++ r.
Proof.
  intros w u. revert w. induction u as [|c u IH]; intros w t F E; [exists w; auto|].
  inversion F; subst. destruct w as [|d w]; cbn in E.
  - rewrite E in stop. destruct (stop H1).
  - injection E as -> E. destruct (IH _ _ H2 E) as (w1 & -> & ->). exists w1. auto.
Qed.

Lemma simulates_keyword : forall kw v, Forall (of_kind kind_of (Word k)) kw ->
  simulates sd env in_word in_word (PKeyword kw v).
Proof.
  intros kw v FK s ps o G s' ps' (w & F & E & ->).
  inversion G; subst; match goal with W : walk _ _ _ |- _ => apply walk_iff in W; subst end.
  - match goal with E : kw ++ ?x = _ |- _ => destruct (word_prefix w kw x FK (eq_sym E)) as (w1 & -> & ->) end.
    rewrite <- app_assoc. eexists. split; [constructor; apply walk_iff; reflexivity|].
    do 2 eexists. split; [reflexivity|]. split.
    + exists w1. apply Forall_app in F as (_ & F). auto.
    + exists kw, kw. auto.
  - apply Forall_app in FK as (FU & FK).
    match goal with E : u ++ ?x = _ |- _ => destruct (word_prefix w u x FU (eq_sym E)) as (w1 & -> & ->) end.
    apply Forall_app in F as (_ & F).
    rewrite <- app_assoc. eexists. split; [apply g_keyword_differs; [|apply walk_iff; reflexivity]|].
    + destruct w1 as [|d w1]; [|assumption]. cbn. destruct r' as [|d t]; cbn; auto. intros ->.
      apply stop'. inversion FK; auto.
    + do 2 eexists. split; [reflexivity|]. exists u, (w1 ++ r), u, (w1 ++ r'). splits; auto. exists w1. auto.
Qed.

Lemma lexeme_good : forall e, lexeme kind_of role_of k e ->
  good sd env in_word in_word (fun i => role_of i = Lexical k) False e.
Proof.
  intros e L. induction L as [e R|kw v F|i R|e C L IH].
  - apply good_leaf, simulates_char, R.
  - apply good_leaf, simulates_keyword, F.
  - apply good_ref, R.
  - apply good_combinator; auto.
Qed.

Lemma lexeme_simulates : forall e, lexeme kind_of role_of k e -> simulates sd env in_word in_word e.
Proof.
  intros e L. apply (good_simulates sd env in_word in_word) with (names := fun i => role_of i = Lexical k) (ends := False).
  - auto.
  - apply in_word_same.
  - apply in_word_choice.
  - contradiction.
  - intros i R. apply lexeme_good. specialize (kept i). rewrite R in kept. exact kept.
  - apply lexeme_good, L.
Qed.
End Lexeme.

Notation At := (same_from_token kind_of).
Notation Er := (same_tokens kind_of).

Lemma all_spaces : forall sp, Forall space_char sp -> Forall (of_kind kind_of Space) sp.
Proof. intros sp F. eapply Forall_impl; [|exact F]. intros c H. apply spaces, H. Qed.
Lemma no_space : forall t, not_starting_with space_char t -> at_token kind_of t.
Proof. intros [|c t] N; cbn in *; auto. intros H. apply N, spaces, H. Qed.
Lemma no_space' : forall t, at_token kind_of t -> not_starting_with space_char t.
Proof. intros [|c t] N; cbn in *; auto. intros H. apply N, spaces, H. Qed.

(** White space at the beginning. *)
Lemma spaces_skip : forall s s' ps ps' v t q, Er s s' -> gives sd env (PRepeated PSpace) s ps (Accept v t q) ->
  exists v' t' q', gives sd env (PRepeated PSpace) s' ps' (Accept v' t' q') /\ acc At s ps t q s' ps' t' q'.
Proof.
  intros s s' ps ps' v t q S G. apply spaces_inv in G as (sp & t0 & -> & F & N & E). inversion E; subst.
  destruct (skip_ex s') as (sp' & t' & -> & F' & N'). pose proof (spaces_give sd env sp' t' ps' F' N') as D.
  eexists _, t', (adv ps' sp'). split; [exact D|]. split.
  - unfold SpecLayout.same_from_token. splits; auto using no_space.
    apply (same_skip kind_of sp _ sp'); auto using all_spaces.
  - exists sp, sp'. auto.
Qed.

Lemma simulates_spaces : simulates sd env At Er (PRepeated PSpace).
Proof.
  intros s ps o G s' ps' S. apply spaces_inv in G as (sp & t & -> & F & N & ->).
  assert (sp = []) as ->.
  { destruct sp as [|c sp]; auto. inversion F; subst. destruct S as (_ & A & _). apply spaces in H1. destruct (A H1). }
  eexists. split.
  - apply (spaces_give sd env [] s' ps'); [constructor|apply no_space'; apply S].
  - exists s', ps'. split; auto. apply acc_refl. exact S.
Qed.

(** Tokens: what is related after [p] is related after the white space too. *)
Lemma simulates_token : forall p,
  (forall s ps v t q, gives sd env p s ps (Accept v t q) -> forall s' ps', At s s' ->
     exists t' q', gives sd env p s' ps' (Accept v t' q') /\ acc Er s ps t q s' ps' t' q') ->
  (forall s ps m q, gives sd env p s ps (Reject m q) -> forall s' ps', At s s' ->
     exists m' q', gives sd env p s' ps' (Reject m' q') /\ rej Er s ps q s' ps' q') ->
  simulates sd env At Er (PToken p).
Proof.
  intros p HA HR s ps o G s' ps' S. inversion G; subst.
  - match goal with H : in_turn _ _ _ _ _ _ _ _ |- _ => inversion H; subst; clear H end.
    match goal with H : in_turn _ _ _ _ _ _ _ _ |- _ => inversion H; subst; clear H end.
    match goal with H : in_turn _ _ [] _ _ _ _ _ |- _ => inversion H; subst; clear H end.
    match goal with H : gives _ _ p _ _ _ |- _ => apply HA with (s' := s') (ps' := ps') in H as (t1 & q1 & D1 & S1 & w & w' & -> & -> & E1 & E2); auto end.
    match goal with H : gives _ _ _ _ _ (Accept r ?t ?q) |- _ =>
      destruct (spaces_skip _ t1 _ q1 _ _ _ S1 H) as (v2 & t2 & q2 & D2 & S2 & u & u' & -> & -> & E3 & E4) end.
    eexists. split; [eapply g_first_of; econstructor; [exact D1|econstructor; [exact D2|constructor]]|].
    exists t2, q2. split; auto. split; auto. exists (w ++ u), (w' ++ u'). subst. rewrite <- !app_assoc, !adv_app. auto.
  - match goal with H : breaks_off _ _ _ _ _ _ _ |- _ => inversion H; subst; clear H end.
    + match goal with H : gives _ _ p _ _ _ |- _ => apply HR with (s' := s') (ps' := ps') in H as (m1 & q1 & D1 & S1); auto end.
      eexists. split; [eapply g_first_of_fails; constructor; exact D1|]. exists m1, q1. auto.
    + match goal with H : breaks_off _ _ _ _ _ _ _ |- _ => inversion H; subst; clear H end.
      * match goal with H : gives _ _ _ _ _ (Reject _ _) |- _ => apply spaces_inv in H as (? & ? & _ & _ & _ & H); discriminate end.
      * match goal with H : breaks_off _ _ _ _ _ _ _ |- _ => inversion H end.
Qed.

Lemma simulates_word : forall k p, lexeme kind_of role_of k p -> simulates sd env At Er (PToken p).
Proof.
  intros k p L. apply simulates_token.
  - intros s ps v t q G s' ps' S. destruct (same_word kind_of k s s' S) as (w & r & r' & -> & -> & F & N & N' & W).
    destruct (lexeme_simulates k r r' N N' p L _ _ _ G (w ++ r') ps') as (o' & D & t' & q' & -> & A & u & u' & E1 & E2 & E3 & E4).
    { exists w. auto. }
    exists t', q'. split; auto. split; [|exists u, u'; auto].
    destruct A as (w1 & F1 & -> & ->). apply (W u w1).
    rewrite app_assoc in E1. apply app_inv_tail in E1. exact E1.
  - intros s ps m q G s' ps' S. destruct (same_word kind_of k s s' S) as (w & r & r' & -> & -> & F & N & N' & W).
    destruct (lexeme_simulates k r r' N N' p L _ _ _ G (w ++ r') ps') as (o' & D & m' & q' & -> & u & t & u' & t' & E1 & E2 & E3 & E4 & A).
    { exists w. auto. }
    exists m', q'. split; auto. exists u, t, u', t'. splits; auto.
    destruct A as (w1 & F1 & -> & ->). apply (W u w1).
    rewrite app_assoc in E1. apply app_inv_tail in E1. exact E1.
Qed.

Lemma simulates_mark : forall p, mark_reader kind_of p -> simulates sd env At Er (PToken p).
Proof.
  intros p M. apply simulates_token.
  - intros s ps v t q G s' ps' S.
    destruct (mark_reader_head p M _ _ _ G) as [(c & t0 & w & -> & K & E & A)|((m & E) & _)]; inversion E; subst.
    destruct (same_mark kind_of c t0 s' K S) as (r & -> & S1).
    do 2 eexists. split; [apply A|]. split; auto. exists [c], [c]. auto.
  - intros s ps m q G s' ps' S.
    destruct (mark_reader_head p M _ _ _ G) as [(c & t0 & w & -> & K & E & A)|((m1 & E) & A)]; inversion E; subst.
    destruct (A s' ps') as (m' & D).
    { destruct s' as [|c t']; [right; exact I|]. destruct (of_kind_dec Mark c) as [K|K]; [left|right; exact K].
      destruct (same_mark kind_of c t' s K (same_at_sym _ _ _ S)) as (r & -> & _). reflexivity. }
    exists m', ps'. split; auto. exists [], s, [], s'. splits; auto. apply S.
Qed.

Lemma tokens_good : forall e, tokens_only kind_of role_of e ->
  good sd env At Er (fun i => role_of i = Syntactic) True e.
Proof.
  intros e T. induction T.
  - eapply good_leaf, simulates_word; eauto.
  - apply good_leaf, simulates_mark; auto.
  - apply good_leaf, simulates_spaces.
  - apply good_ref; auto.
  - apply good_empty; auto.
  - apply good_entire_input; auto.
  - apply good_combinator; auto.
Qed.

Theorem tokens_simulates : forall e, tokens_only kind_of role_of e -> simulates sd env At Er e.
Proof.
  intros e T. apply (good_simulates sd env At Er) with (names := fun i => role_of i = Syntactic) (ends := True).
  - intros s s' S. apply S.
  - apply Er_same_tokens.
  - apply Er_choice_tokens.
  - intros _. apply same_at_ends.
  - intros i R. apply tokens_good. specialize (kept i). rewrite R in kept. exact kept.
  - apply tokens_good, T.
Qed.

(** After white space at the beginning. *)
Theorem spaces_first_simulates : forall e, tokens_only kind_of role_of e ->
  forall s ps o, gives sd env (PLastOf [PRepeated PSpace; e]) s ps o -> forall s' ps', Er s s' ->
  exists o', gives sd env (PLastOf [PRepeated PSpace; e]) s' ps' o' /\ related At Er s ps s' ps' o o'.
Proof.
  intros e T s ps o G s' ps' S. inversion G; subst.
  - match goal with H : in_turn _ _ _ _ _ _ (rs ++ [v]) _ |- _ => idtac | H : in_turn _ _ _ _ _ (rs ++ [v]) _ _ |- _ =>
      remember (rs ++ [v]) as l eqn:El; inversion H; subst; clear H end.
    match goal with H : in_turn _ _ _ _ _ _ _ _ |- _ => inversion H; subst; clear H end.
    match goal with H : in_turn _ _ [] _ _ _ _ _ |- _ => inversion H; subst; clear H end.
    assert (r0 = v) as ->.
    { change [r; r0] with ([r] ++ [r0]) in *. match goal with H : [r] ++ [r0] = _ |- _ => apply app_inj_tail in H as (_ & H); exact H end. }
    match goal with H : gives _ _ (PRepeated PSpace) _ _ _ |- _ =>
      destruct (spaces_skip _ s' _ ps' _ _ _ S H) as (v2 & t2 & q2 & D2 & S2 & u & u' & -> & -> & E3 & E4) end.
    match goal with H : gives _ _ e _ _ _ |- _ =>
      destruct (tokens_simulates e T _ _ _ H t2 q2 S2) as (o' & D & t' & q' & -> & A & w & w' & -> & -> & E5 & E6) end.
    eexists. split; [apply (g_last_of sd env _ _ _ v [v2]); econstructor; [exact D2|econstructor; [exact D|constructor]]|].
    exists t', q'. split; auto. split; auto. exists (u ++ w), (u' ++ w'). subst. rewrite <- !app_assoc, !adv_app. auto.
  - match goal with H : breaks_off _ _ _ _ _ _ _ |- _ => inversion H; subst; clear H end.
    + match goal with H : gives _ _ _ _ _ (Reject _ _) |- _ => apply spaces_inv in H as (? & ? & _ & _ & _ & H); discriminate end.
    + match goal with H : breaks_off _ _ _ _ _ _ _ |- _ => inversion H; subst; clear H end.
      * match goal with H : gives _ _ (PRepeated PSpace) _ _ _ |- _ =>
          destruct (spaces_skip _ s' _ ps' _ _ _ S H) as (v2 & t2 & q2 & D2 & S2 & u & u' & -> & -> & E3 & E4) end.
        match goal with H : gives _ _ e _ _ _ |- _ =>
          destruct (tokens_simulates e T _ _ _ H t2 q2 S2) as (o' & D & m' & q' & -> & w & t & w' & t' & -> & -> & E5 & E6 & A) end.
        eexists. split; [apply g_last_of_fails; eapply breaks_off_later; [exact D2|constructor; exact D]|].
        exists m', q'. split; auto. exists (u ++ w), t, (u' ++ w'), t'. subst. rewrite <- !app_assoc, !adv_app. splits; auto.
      * match goal with H : breaks_off _ _ _ _ _ _ _ |- _ => inversion H end.
Qed.
End Layout.
