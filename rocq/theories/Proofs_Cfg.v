(** Proofs for C90. *)

From Coq Require Import ZArith List Bool Lia Wf_nat.
From Verif Require Import Base Spec SpecPeg SpecCfg.
Import ListNotations.
Open Scope Z_scope.

Section Language.
Variable rules : nat -> parsing_expression.
Notation derives := (derives rules).
Notation recognises := (recognises rules).
Notation nullable := (nullable rules).
Notation first := (first rules).

Lemma recognised_derives : forall g s r, recognises g s r ->
  forall s', r = Some s' -> exists w, s = w ++ s' /\ derives g w.
Proof.
  induction 1; intros z E; try discriminate.
  - injection E as <-. exists []. split; [reflexivity|constructor].
  - injection E as <-. exists [c]. split; [reflexivity|constructor; assumption].
  - destruct (IHrecognises1 _ eq_refl) as (u & -> & D1). destruct (IHrecognises2 _ E) as (v & -> & D2).
    exists (u ++ v). rewrite app_assoc. split; [reflexivity|constructor; assumption].
  - destruct (IHrecognises _ E) as (u & -> & D). exists u. split; [reflexivity|apply d_alt_left; assumption].
  - destruct (IHrecognises2 _ E) as (u & -> & D). exists u. split; [reflexivity|apply d_alt_right; assumption].
  - injection E as <-. exists []. split; [reflexivity|constructor].
  - destruct (IHrecognises1 _ eq_refl) as (u & -> & D1). destruct (IHrecognises2 _ E) as (v & -> & D2).
    exists (u ++ v). rewrite app_assoc. split; [reflexivity|apply d_star_more; assumption].
  - injection E as <-. exists []. split; [reflexivity|constructor].
  - destruct (IHrecognises _ E) as (u & -> & D). exists u. split; [reflexivity|constructor; assumption].
Qed.

(** ** Termination *)

Variable rank : nat -> nat.
Hypothesis ranked : no_left_recursion rules rank.
Hypothesis reading : forall k, stars_read rules (rules k).

Lemma names_bounded : forall g, exists R, forall k, leads_to rules g k -> (rank k < R)%nat.
Proof.
  induction g; simpl.
  1-3: exists 0%nat; intros ? [].
  - destruct IHg1 as (R1 & H1), IHg2 as (R2 & H2). exists (R1 + R2)%nat.
    intros k [L|(_ & L)]; [specialize (H1 _ L)|specialize (H2 _ L)]; lia.
  - destruct IHg1 as (R1 & H1), IHg2 as (R2 & H2). exists (R1 + R2)%nat.
    intros k [L|L]; [specialize (H1 _ L)|specialize (H2 _ L)]; lia.
  - exact IHg.
  - exact IHg.
  - exists (S (rank k)). intros j ->. lia.
Qed.

Lemma finishes : forall len R g s, (length s <= len)%nat ->
  (forall k, leads_to rules g k -> (rank k < R)%nat) -> stars_read rules g ->
  exists r, recognises g s r.
Proof.
  induction len as [len IHlen] using lt_wf_ind.
  induction R as [R IHR] using lt_wf_ind.
  induction g; intros s L H S; simpl in *.
  - eexists. constructor.
  - eexists. constructor.
  - destruct s as [|c s]; [exists None; constructor; simpl; auto|].
    destruct (P c) eqn:E; [eexists; constructor; exact E|].
    exists None. constructor. simpl. congruence.
  - destruct S as (S1 & S2).
    destruct (IHg1 s L (fun k l => H k (or_introl l)) S1) as ([s1|] & R1);
      [|eexists; apply f_seq_no; exact R1].
    destruct (recognised_derives _ _ _ R1 _ eq_refl) as (w & -> & D).
    destruct w as [|c w].
    + destruct (IHg2 s1 L) as (r & R2); [intros k l; apply H; right; split; [exact D|exact l]|exact S2|].
      eexists. eapply f_seq; eassumption.
    + destruct (names_bounded g2) as (R' & B). simpl in L. rewrite app_length in L.
      destruct (IHlen (length s1) ltac:(lia) R' g2 s1 ltac:(lia) B S2) as (r & R2).
      eexists. eapply f_seq; eassumption.
  - destruct S as (S1 & S2).
    destruct (IHg1 s L (fun k l => H k (or_introl l)) S1) as ([s1|] & R1);
      [eexists; apply f_alt; exact R1|].
    destruct (IHg2 s L (fun k l => H k (or_intror l)) S2) as (r & R2).
    eexists. eapply f_alt_other; eassumption.
  - destruct S as (N & S).
    destruct (IHg s L H S) as ([s1|] & R1); [|eexists; apply f_star_stop; exact R1].
    destruct (recognised_derives _ _ _ R1 _ eq_refl) as (w & -> & D).
    destruct w as [|c w]; [elim (N D)|]. simpl in L. rewrite app_length in L.
    destruct (IHlen (length s1) ltac:(lia) R (FStar g) s1 ltac:(lia) H (conj N S)) as (r & R2).
    eexists. eapply f_star_more; eassumption.
  - destruct (IHg s L H S) as ([s1|] & R1); eexists;
      [eapply f_not_no|eapply f_not]; exact R1.
  - destruct (IHR (rank k) (H k eq_refl) (rules k) s L) as (r & D); [apply ranked|apply reading|].
    eexists. apply f_name. exact D.
Qed.

Lemma finishes_all : forall g s, stars_read rules g -> exists r, recognises g s r.
Proof.
  intros g s S. destruct (names_bounded g) as (R & B). exact (finishes (length s) R g s (le_n _) B S).
Qed.

(** ** LL(1) *)

Variable follow : nat -> char -> Prop.
Hypothesis LL : ll1_grammar rules follow.

Lemma ll1_reads : forall g F, one_decides rules follow g F -> stars_read rules g.
Proof.
  induction g; simpl; intros F H; auto.
  - destruct H as (H1 & H2). eauto.
  - destruct H as (_ & _ & _ & H1 & H2). eauto.
  - destruct H as (N & _ & H). eauto.
  - contradiction.
Qed.

Lemma ll1_weaken : forall g (F F' : char -> Prop), one_decides rules follow g F -> (forall c, F' c -> F c) ->
  one_decides rules follow g F'.
Proof.
  induction g; simpl; intros F F' H I; auto.
  - destruct H as (H1 & H2). split; [|eauto]. eapply IHg1; [exact H1|].
    intros c [X|(X & Y)]; auto.
  - destruct H as (A & B & C & D & E). split; [exact A|]. split; [exact B|].
    split; [intros N c X Y; exact (C N c X (I c Y))|]. eauto.
  - destruct H as (A & B & C). split; [exact A|]. split; [intros c X Y; exact (B c X (I c Y))|].
    eapply IHg; [exact C|]. intros c [X|X]; auto.
Qed.

(** What begins with another character fails. *)
Lemma other_fails : forall a s, stars_read rules a -> ~ nullable a ->
  goes_on_with (fun c => ~ first a c) s -> recognises a s None.
Proof.
  intros a s S N G. destruct (finishes_all a s S) as ([s1|] & R); [|exact R].
  destruct (recognised_derives _ _ _ R _ eq_refl) as (w & -> & D).
  destruct w as [|c w]; [elim (N D)|]. elim G. exists w. exact D.
Qed.

Lemma goes_on_app : forall a F v s, derives a v -> goes_on_with F s ->
  goes_on_with (fun c => first a c \/ nullable a /\ F c) (v ++ s).
Proof.
  intros a F v s D G. destruct v as [|c v]; simpl.
  - destruct s; simpl in *; auto.
  - left. exists v. exact D.
Qed.

Lemma derived_recognises : forall g w, derives g w ->
  forall F s, one_decides rules follow g F -> goes_on_with F s ->
  recognises g (w ++ s) (Some s).
Proof.
  induction 1; intros F s H' G; simpl in *.
  - constructor.
  - constructor. assumption.
  - destruct H' as (H1 & H2). rewrite <- app_assoc. eapply f_seq; [|eapply IHderives2; eauto].
    eapply IHderives1; [exact H1|]. apply goes_on_app; assumption.
  - destruct H' as (_ & _ & _ & H1 & _). apply f_alt. eauto.
  - destruct H' as (N & A & B & H1 & H2). apply f_alt_other; [|eauto].
    apply other_fails; [eapply ll1_reads; eauto|exact N|].
    destruct w as [|c w]; simpl.
    + destruct s; simpl in *; auto. intros X. exact (B H c X G).
    + intros X. apply (A c X). exists w. exact H.
  - destruct H' as (N & A & H1). apply f_star_stop.
    apply other_fails; [eapply ll1_reads; eauto|exact N|].
    destruct s; simpl in *; auto. intros X. exact (A c X G).
  - destruct H' as (N & A & H1). rewrite <- app_assoc. eapply f_star_more.
    + eapply IHderives1; [exact H1|].
      assert (X : forall v, derives (FStar a) v -> goes_on_with (fun c => first a c \/ F c) (v ++ s)).
      { clear - G. intros v D. remember (FStar a) as g eqn:E. revert a E.
        induction D; intros ? E; try discriminate.
        - destruct s; simpl in *; auto.
        - injection E as ->. destruct u as [|c u]; [exact (IHD2 _ eq_refl)|].
          left. exists u. assumption. }
      apply X. assumption.
    + eapply IHderives2; [|exact G]. simpl. auto.
  - contradiction.
  - apply f_name. eapply IHderives; [apply LL|]. destruct s; simpl in *; auto.
Qed.
End Language.

(** ** The order of alternatives *)

Lemma reordered_sym : forall g g', reordered g g' -> reordered g' g.
Proof. induction 1; eauto using reordered. Qed.

Lemma reordered_derives : forall rules rules', (forall k, reordered (rules k) (rules' k)) ->
  forall g w, derives rules g w -> forall g', reordered g g' -> derives rules' g' w.
Proof.
  intros rules rules' HR.
  assert (X : forall r g g', reordered g g' -> forall w, derives r g w -> derives r g' w).
  { intros r. induction 1; intros w D; auto.
    - inversion D; subst; [apply d_alt_right|apply d_alt_left]; auto.
    - inversion D; subst; [apply d_alt_left|apply d_alt_right]; auto.
    - inversion D; subst. constructor; auto.
    - remember (FStar a) as g eqn:E. revert E.
      induction D; intros E; try discriminate; [constructor|].
      injection E as ->. apply d_star_more; auto.
    - inversion D; subst. constructor.
    - inversion D as [ | | |? ? ? D1|? ? ? D1| | | | ]; subst; [apply d_alt_left, d_alt_left, D1|].
      inversion D1; subst; [apply d_alt_left, d_alt_right|apply d_alt_right]; assumption.
    - inversion D as [ | | |? ? ? D1|? ? ? D1| | | | ]; subst; [|apply d_alt_right, d_alt_right, D1].
      inversion D1; subst; [apply d_alt_left|apply d_alt_right, d_alt_left]; assumption. }
  intros g w D. assert (Y : derives rules' g w).
  { induction D; eauto using derives. }
  intros g' R. eapply X; eauto.
Qed.

(** ** Tables *)

Section Tables.
Variable rules : nat -> parsing_expression.
Variable nul_t : nat -> bool.
Variable first_t : nat -> char -> bool.
Hypothesis T : tables_of nul_t first_t rules.

Lemma derives_tables : forall g w, derives rules g w ->
  match w with [] => nullb nul_t g = true | c :: _ => firstb nul_t first_t g c = true end.
Proof.
  induction 1; simpl; auto.
  - destruct u as [|c u]; simpl.
    + destruct v; rewrite IHderives1; simpl; rewrite IHderives2; auto using orb_true_r.
    + rewrite IHderives1. reflexivity.
  - destruct w; rewrite IHderives; reflexivity.
  - destruct w; rewrite IHderives; apply orb_true_r.
  - destruct u as [|c u]; simpl; [destruct v; auto|exact IHderives1].
  - destruct w; apply T; exact IHderives.
Qed.

Lemma null_tables : forall g, nullable rules g -> nullb nul_t g = true.
Proof. intros g D. exact (derives_tables g [] D). Qed.
Lemma first_tables : forall g c, first rules g c -> firstb nul_t first_t g c = true.
Proof. intros g c (w & D). exact (derives_tables g (c :: w) D). Qed.

Variable follow_t : nat -> char -> bool.
Lemma decides_tables : forall g F (F' : char -> Prop), one_decides_t nul_t first_t follow_t g F ->
  (forall c, F' c -> F c = true) ->
  one_decides rules (fun k c => follow_t k c = true) g F'.
Proof.
  assert (B : forall a P (Q : char -> Prop), apartb (firstb nul_t first_t a) P ->
    (forall c, Q c -> P c = true) -> apart (first rules a) Q).
  { intros a P Q H I c X Y. apply first_tables in X. specialize (H c X). rewrite (I c Y) in H. discriminate. }
  assert (N : forall a, nullb nul_t a = false -> ~ nullable rules a).
  { intros a E D. apply null_tables in D. congruence. }
  induction g; simpl; intros F F' H I; auto.
  - destruct H as (H1 & H2). split; [|eauto]. eapply IHg1; [exact H1|].
    intros c [X|(X & Y)].
    + rewrite (first_tables _ _ X). reflexivity.
    + rewrite (null_tables _ X), (I _ Y). apply orb_true_r.
  - destruct H as (H1 & H2 & H3 & H4 & H5). split; [auto|].
    split; [eapply B; [exact H2|apply first_tables]|].
    split; [intros X; eapply B; [apply H3, null_tables, X|exact I]|]. eauto.
  - destruct H as (H1 & H2 & H3). split; [auto|].
    split; [eapply B; [exact H2|exact I]|]. eapply IHg; [exact H3|].
    intros c [X|X]; [rewrite (first_tables _ _ X)|rewrite (I _ X)]; auto using orb_true_r.
Qed.

Lemma leads_tables : forall g k, leads_to rules g k -> leads_tob nul_t g k = true.
Proof.
  induction g; simpl; intros j H; auto.
  - destruct H as [H|(X & H)]; [rewrite (IHg1 _ H); reflexivity|].
    rewrite (null_tables _ X), (IHg2 _ H). apply orb_true_r.
  - destruct H as [H|H]; [rewrite (IHg1 _ H); reflexivity|rewrite (IHg2 _ H); apply orb_true_r].
  - subst. apply PeanoNat.Nat.eqb_refl.
Qed.
End Tables.
