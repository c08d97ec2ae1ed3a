(** Proofs about the examples that build functions and about grammar_calculator
    (C55 to C58). *)

From Coq Require Import ZArith List Bool Lia QArith.
From Verif Require Import Base Util Combinators Variadic Parsers Deep Messages Grammar Calculator Examples
  Functions Spec SpecDeep SpecTerm SpecType SpecGrammar SpecCalc SpecExamples SpecFun Proofs_Pos Proofs_Fold
  Proofs_Variadic Proofs_Parsers Proofs_Parsers2 Proofs_Deep Proofs_Final1 Proofs_Final2 Proofs_Final3
  Proofs_Final5 Proofs_Term Proofs_Grammar Proofs_Calc Proofs_Calc2 Proofs_Examples.
Import ListNotations.
Open Scope Z_scope.

(** ** Texts *)

Definition starts_with (o1 o2 : cop) (c : char) : Prop := c = op_of o1 \/ c = op_of o2.

Lemma token_text_total : forall c s, exists t, char_token_text c (c :: s) t.
Proof.
  intros c s. destruct (take_while space_char space_dec s) as (u & t & -> & F & N).
  exists t, u. auto.
Qed.

Lemma token_text_unique : forall c c' s t t', char_token_text c s t -> char_token_text c' s t' -> c = c' /\ t = t'.
Proof.
  intros c c' s t t' (w & E & F & N) (w' & E' & F' & N'). rewrite E in E'. injection E' as -> E'.
  destruct (split_unique _ _ _ _ _ E' F F' N N'). auto.
Qed.

Lemma token_text_shorter : forall c s t, char_token_text c s t -> (length t < length s)%nat.
Proof. intros c s t (w & -> & _). cbn [length]. rewrite app_length. slia. Qed.

Definition shrinks (X : fexp -> str -> str -> Prop) : Prop :=
  forall e s t, X e s t -> (length t < length s)%nat.

Lemma operand_shrinks : forall var, shrinks (operand_text var).
Proof.
  intros var e s t H. inversion H as [ds w t' s' (-> & (Ne & _) & _) | s' t' V Hc]; subst.
  - rewrite !app_length. destruct ds; [congruence|]. cbn [length]. slia.
  - eapply token_text_shorter; eauto.
Qed.

Lemma chain_shrinks : forall o1 o2 X, shrinks X -> shrinks (chain_text o1 o2 X).
Proof.
  intros o1 o2 X Sh e s t H. induction H as [e s t H | o a b s s1 s2 t O C IH T B].
  - eauto.
  - apply Sh in B. apply token_text_shorter in T. lia.
Qed.

(** The rest of a chain after [a]. *)
Inductive ctail (o1 o2 : cop) (X : fexp -> str -> str -> Prop) : fexp -> str -> fexp -> str -> Prop :=
| tail_end : forall a s, ctail o1 o2 X a s a s
| tail_more : forall o a b s s1 s2 e t, o = o1 \/ o = o2 ->
    char_token_text (op_of o) s s1 -> X b s1 s2 -> ctail o1 o2 X (FBin o a b) s2 e t ->
    ctail o1 o2 X a s e t.

Lemma ctail_snoc : forall o1 o2 X a s e t, ctail o1 o2 X a s e t -> forall o b s1 s2, o = o1 \/ o = o2 ->
  char_token_text (op_of o) t s1 -> X b s1 s2 -> ctail o1 o2 X a s (FBin o e b) s2.
Proof.
  intros o1 o2 X a s e t H.
  induction H as [a s | o a b s s1 s2 e t O T B H IH]; intros o' b' s1' s2' O' T' B'.
  - apply (tail_more o1 o2 X o' a b' s s1' s2'); auto. constructor.
  - apply (tail_more o1 o2 X o a b s s1 s2); auto. eapply IH; eauto.
Qed.

Lemma chain_ctail : forall o1 o2 X e s t, chain_text o1 o2 X e s t ->
  exists a s1, X a s s1 /\ ctail o1 o2 X a s1 e t.
Proof.
  intros o1 o2 X e s t H. induction H as [e s t H | o a b s s1 s2 t O C IH T B].
  - exists e, t. split; auto. constructor.
  - destruct IH as (a0 & s0 & A & Tl). exists a0, s0. split; auto. eapply ctail_snoc; eauto.
Qed.

(** Texts have one reading. *)
Definition one_reading (P : str -> Prop) (X : fexp -> str -> str -> Prop) : Prop :=
  forall e e' s t t', X e s t -> X e' s t' -> P t -> P t' -> e = e' /\ t = t'.

Lemma operand_reading : forall var, one_reading (fun _ => True) (operand_text var).
Proof.
  intros var e e' s t t' H H' _ _.
  inversion H as [ds w u s0 L | s0 u V C]; inversion H' as [ds' w' u' s0' L' | s0' u' V' C']; subst.
  - destruct (leading_number_unique _ _ _ _ _ _ _ L L') as (-> & -> & ->). auto.
  - destruct L as (E & (Ne & F) & _). destruct C' as (w' & -> & _). destruct ds; [congruence|].
    injection E as <- _. inversion F as [|c l D]; subst. exfalso. unfold digit_char in D. lia.
  - destruct L' as (E & (Ne & F) & _). destruct C as (w & -> & _). destruct ds'; [congruence|].
    injection E as <- _. inversion F as [|c l D]; subst. exfalso. unfold digit_char in D. lia.
  - destruct (token_text_unique _ _ _ _ _ C C'). auto.
Qed.

Lemma token_starts : forall o1 o2 o s t, o = o1 \/ o = o2 -> char_token_text (op_of o) s t ->
  not_starting_with (starts_with o1 o2) s -> False.
Proof.
  intros o1 o2 o s t O (w & -> & _) N. apply N. unfold starts_with.
  destruct O as [-> | ->]; auto.
Qed.

Lemma op_of_inj : forall o o', op_of o = op_of o' -> o = o'.
Proof. intros [] []; simpl; intros H; try discriminate; reflexivity. Qed.

Lemma ctail_reading : forall o1 o2 (P : str -> Prop) X, one_reading P X ->
  (forall o u, o = o1 \/ o = o2 -> P (op_of o :: u)) ->
  forall a s e t, ctail o1 o2 X a s e t -> forall e' t', ctail o1 o2 X a s e' t' ->
  P t -> P t' ->
  not_starting_with (starts_with o1 o2) t -> not_starting_with (starts_with o1 o2) t' -> e = e' /\ t = t'.
Proof.
  intros o1 o2 P X R Po a s e t H.
  assert (G : forall a s e t, ctail o1 o2 X a s e t -> P t -> P s).
  { intros a0 s0 e0 t0 H0 Pt. inversion H0; subst; auto.
    match goal with C : char_token_text _ _ _ |- _ => destruct C as (w & -> & _) end. auto. }
  induction H as [a s | o a b s s1 s2 e t O T B H IH]; intros e' t' H' Pt Pt' Nt Nt'.
  - inversion H' as [| o a' b s0 s1 s2 e t O T B H]; subst; auto.
    exfalso. eapply token_starts; eauto.
  - inversion H' as [| o' a' b' s0 s1' s2' e0 t0 O' T' B' H0]; subst.
    { exfalso. eapply token_starts; eauto. }
    destruct (token_text_unique _ _ _ _ _ T T') as (Eo & <-). apply op_of_inj in Eo as <-.
    destruct (R _ _ _ _ _ B B' (G _ _ _ _ H Pt) (G _ _ _ _ H0 Pt')) as (<- & <-).
    eauto.
Qed.

Definition follow (o1 o2 : cop) (P : str -> Prop) (t : str) : Prop :=
  P t /\ not_starting_with (starts_with o1 o2) t.

Lemma ctail_front : forall o1 o2 (P : str -> Prop) X a s e t, ctail o1 o2 X a s e t ->
  (forall o u, o = o1 \/ o = o2 -> P (op_of o :: u)) -> P t -> P s.
Proof.
  intros o1 o2 P X a s e t H Po Pt. inversion H; subst; auto.
  match goal with C : char_token_text _ _ _ |- _ => destruct C as (w & -> & _) end. auto.
Qed.

Lemma chain_reading : forall o1 o2 (P : str -> Prop) X, one_reading P X ->
  (forall o u, o = o1 \/ o = o2 -> P (op_of o :: u)) -> one_reading (follow o1 o2 P) (chain_text o1 o2 X).
Proof.
  intros o1 o2 P X R Po e e' s t t' H H' (Pt & Nt) (Pt' & Nt').
  apply chain_ctail in H as (a & s1 & A & T). apply chain_ctail in H' as (a' & s1' & A' & T').
  assert (P1 : P s1) by (eapply ctail_front; eauto).
  assert (P1' : P s1') by (eapply ctail_front; eauto).
  destruct (R _ _ _ _ _ A A' P1 P1') as (<- & <-).
  eapply ctail_reading; eauto.
Qed.

Definition follow_product : str -> Prop := follow Mul Div (fun _ => True).
Definition follow_sum : str -> Prop := follow Add Sub follow_product.

Lemma plus_follows : forall o u, o = Add \/ o = Sub -> follow_product (op_of o :: u).
Proof.
  intros o u H. split; auto. unfold not_starting_with, starts_with. simpl.
  destruct H as [-> | ->]; simpl; intuition discriminate.
Qed.

Lemma follow_nil : follow_sum [].
Proof. repeat split; auto; simpl; auto. Qed.

Lemma sum_reading : forall var, one_reading follow_sum (sum_text var).
Proof.
  intros var. apply chain_reading.
  - apply chain_reading; auto. apply operand_reading.
  - apply plus_follows.
Qed.

Lemma sum_shrinks : forall var, shrinks (sum_text var).
Proof. intros var. apply chain_shrinks, chain_shrinks, operand_shrinks. Qed.
Lemma product_shrinks : forall var, shrinks (product_text var).
Proof. intros var. apply chain_shrinks, operand_shrinks. Qed.

Lemma exp_text_unique : forall var e e' s, exp_text var e s -> exp_text var e' s -> e = e'.
Proof.
  intros var e e' s H H'. destruct (sum_reading var e e' s [] [] H H'); auto; apply follow_nil.
Qed.

Lemma operand_no_space : forall var e s t, operand_text var e s t -> not_starting_with space_char s.
Proof.
  intros var e s t H. inversion H as [ds w u s0 (-> & (Ne & F) & _) | s0 u V (w & -> & _)]; subst.
  - destruct ds; [congruence|]. inversion F; subst. simpl. intros S. eapply digit_not_space; eauto.
  - simpl. unfold space_char. intuition discriminate.
Qed.
Lemma chain_no_space : forall o1 o2 (X : fexp -> str -> str -> Prop), (forall e s t, X e s t -> not_starting_with space_char s) ->
  forall e s t, chain_text o1 o2 X e s t -> not_starting_with space_char s.
Proof. intros o1 o2 X N e s t H. induction H; eauto. Qed.
Lemma sum_no_space : forall var e s t, sum_text var e s t -> not_starting_with space_char s.
Proof.
  intros var. apply chain_no_space. apply chain_no_space. apply operand_no_space.
Qed.

Lemma spaced_text_unique : forall var e e' s, spaced_text var e s -> spaced_text var e' s -> e = e'.
Proof.
  intros var e e' s (w & t & -> & F & H) (w' & t' & E & F' & H').
  destruct (split_unique _ _ _ _ _ E F F') as (<- & <-); eauto using sum_no_space.
  eapply exp_text_unique; eauto.
Qed.

(** ** Parsers of texts *)

Section Readers.

(** A parser that reads the texts [X]; [den] is what it returns, [P] what may follow. *)
Definition complete (n : nat) (P : str -> Prop) (X : fexp -> str -> str -> Prop)
  (den : fexp -> option value) (p : pfun) : Prop :=
  forall e s t ps, X e s t -> P t -> (length s < n)%nat ->
  match den e with
  | Some v => exists ps', p s ps = Accept v t ps'
  | None => p s ps = Illformed
  end.
Definition sound (n : nat) (X : fexp -> str -> str -> Prop) (den : fexp -> option value) (p : pfun) : Prop :=
  forall s ps v t ps', (length s < n)%nat -> p s ps = Accept v t ps' -> exists e, X e s t /\ den e = Some v.

Definition reads_token (n : nat) (c : char) (v : value) (p : pfun) : Prop :=
  (forall s t ps, char_token_text c s t -> (length s < n)%nat -> exists ps', p s ps = Accept v t ps')
  /\ (forall s ps, not_starting_with (fun d => d = c) s -> exists m, p s ps = Reject m ps).
Definition reads_ops (n : nat) (o1 o2 : cop) (p : pfun) : Prop :=
  (forall o s t ps, o = o1 \/ o = o2 -> char_token_text (op_of o) s t -> (length s < n)%nat ->
     exists ps', p s ps = Accept (VChar (op_of o)) t ps')
  /\ (forall s ps, not_starting_with (starts_with o1 o2) s -> exists m, p s ps = Reject m ps).

Lemma reads_ops_sound : forall n o1 o2 p, reads_ops n o1 o2 p ->
  forall s ps v t ps', (length s < n)%nat -> p s ps = Accept v t ps' ->
  exists o, (o = o1 \/ o = o2) /\ v = VChar (op_of o) /\ char_token_text (op_of o) s t.
Proof.
  intros n o1 o2 p (A & R) s ps v t ps' L E.
  assert (D : not_starting_with (starts_with o1 o2) s
    \/ exists o u, (o = o1 \/ o = o2) /\ s = op_of o :: u).
  { destruct s as [|c u]; [left; simpl; auto|].
    destruct (Z.eq_dec c (op_of o1)) as [->|N1]; [right; eauto|].
    destruct (Z.eq_dec c (op_of o2)) as [->|N2]; [right; eauto|].
    left. unfold not_starting_with, starts_with. intuition. }
  destruct D as [N|(o & u & O & ->)].
  - destruct (R s ps N) as (m & E'). congruence.
  - destruct (token_text_total (op_of o) u) as (t' & T).
    destruct (A o _ _ ps O T L) as (ps1 & E'). rewrite E in E'. injection E' as -> -> ->. eauto.
Qed.

Lemma ops_of_tokens : forall cfg n o1 o2 (p q : pfun), fits_one_of cfg 2 -> o1 <> o2 ->
  reads_token n (op_of o1) (VChar (op_of o1)) p -> reads_token n (op_of o2) (VChar (op_of o2)) q -> reads_ops n o1 o2 (one_of cfg [p; q]).
Proof.
  intros cfg n o1 o2 p q F Ne (Ap & Rp) (Aq & Rq). split.
  - intros o s t ps O T L. destruct O as [-> | ->].
    + destruct (Ap _ _ ps T L) as (ps' & E). exists ps'. apply one_of_2_first; auto.
      destruct (Rq s ps) as (m & E').
      * destruct T as (w & -> & _). simpl. intros H. apply op_of_inj in H. auto.
      * eapply finishes_reject; eauto.
    + destruct (Aq _ _ ps T L) as (ps' & E). exists ps'. apply one_of_2_second; auto.
      destruct (Rp s ps) as (m & E').
      * destruct T as (w & -> & _). simpl. intros H. apply op_of_inj in H. auto.
      * do 2 eexists; eauto.
  - intros s ps N. destruct (Rp s ps) as (m & E).
    { destruct s; simpl in *; auto. intros ->. apply N. unfold starts_with. auto. }
    destruct (Rq s ps) as (m' & E').
    { destruct s; simpl in *; auto. intros ->. apply N. unfold starts_with. auto. }
    eapply one_of_2_near; eauto.
Qed.

(** *** Chains *)

Variables o1 o2 : cop.
Variable X : fexp -> str -> str -> Prop.
Variable P : str -> Prop.
Variable den : fexp -> option value.
Variable f : mf2.
Hypothesis Sh : shrinks X.
Hypothesis Po : forall o u, o = o1 \/ o = o2 -> P (op_of o :: u).
Hypothesis step : forall o a b x y, o = o1 \/ o = o2 -> den a = Some x -> den b = Some y ->
  f x (VSeq [VChar (op_of o); y]) = den (FBin o a b).
Hypothesis strict_l : forall o a b, o = o1 \/ o = o2 -> den a = None -> den (FBin o a b) = None.
Hypothesis strict_r : forall o a b, o = o1 \/ o = o2 -> den b = None -> den (FBin o a b) = None.
Variable cfg : config.
Hypothesis Fs : fits_sequence cfg 2.
Variable N : nat.
Variables op p : pfun.
Hypothesis Hop : reads_ops N o1 o2 op.
Hypothesis Hc : complete N P X den p.
Hypothesis Hs : sound N X den p.

Lemma sequence_2 : forall (p q : pfun) s ps, sequence cfg [p; q] s ps =
  match p s ps with
  | Accept v1 s1 ps1 => match q s1 ps1 with Accept v2 s2 ps2 => Accept (VSeq [v1; v2]) s2 ps2 | o => o end
  | o => o
  end.
Proof.
  intros p0 q0 s ps. rewrite sequence_cfg; [| auto | discriminate].
  cbn [sequence_11]. unfold transform, return_.
  destruct (p0 s ps) as [v1 s1 ps1 | | | ]; auto. destruct (q0 s1 ps1); auto.
Qed.

Let q : pfun := sequence cfg [op; p].

Lemma item_sound2 : forall s ps r t ps', (length s < N)%nat -> q s ps = Accept r t ps' ->
  exists o b y s1, (o = o1 \/ o = o2) /\ r = VSeq [VChar (op_of o); y] /\ den b = Some y
    /\ char_token_text (op_of o) s s1 /\ X b s1 t.
Proof.
  intros s ps r t ps' L E. unfold q in E. rewrite sequence_2 in E.
  destruct (op s ps) as [v1 s1 ps1| | |] eqn:E1; try discriminate.
  destruct (p s1 ps1) as [v2 s2 ps2| | |] eqn:E2; try discriminate.
  injection E as <- <- <-.
  destruct (reads_ops_sound _ _ _ _ Hop _ _ _ _ _ L E1) as (o & O & -> & T).
  pose proof (token_text_shorter _ _ _ T).
  destruct (Hs s1 ps1 v2 s2 ps2) as (b & B & D); [lia|auto|].
  exists o, b, v2, s1. splits; auto.
Qed.

Lemma item_complete : forall o b s s1 t ps, o = o1 \/ o = o2 -> char_token_text (op_of o) s s1 -> X b s1 t ->
  P t -> (length s < N)%nat ->
  match den b with
  | Some y => exists ps', q s ps = Accept (VSeq [VChar (op_of o); y]) t ps'
  | None => q s ps = Illformed
  end.
Proof.
  intros o b s s1 t ps O T B Pt L. unfold q. rewrite sequence_2.
  destruct (proj1 Hop o _ _ ps O T L) as (ps1 & ->).
  pose proof (token_text_shorter _ _ _ T).
  assert (L1 : (length s1 < N)%nat) by lia.
  pose proof (Hc b s1 t ps1 B Pt L1) as C. destruct (den b).
  - destruct C as (ps' & ->). eauto.
  - rewrite C. auto.
Qed.

Lemma item_reject : forall s ps, not_starting_with (starts_with o1 o2) s -> exists m, q s ps = Reject m ps.
Proof.
  intros s ps H. unfold q. rewrite sequence_2. destruct (proj2 Hop s ps H) as (m & ->). eauto.
Qed.

Lemma runs_chain : forall s ps rs t ps', runs q s ps rs t ps' -> forall s0 a x v,
  chain_text o1 o2 X a s0 s -> (length s0 < N)%nat -> den a = Some x -> lfold f rs x = Some v ->
  exists e, chain_text o1 o2 X e s0 t /\ den e = Some v.
Proof.
  intros s ps rs t ps' H. induction H as [s ps | s ps r s1 ps1 rs s2 ps2 E H IH]; intros s0 a x v C L D F.
  - cbn [lfold] in F. injection F as <-. eauto.
  - pose proof (chain_shrinks _ _ _ Sh _ _ _ C).
    destruct (item_sound2 s ps r s1 ps1) as (o & b & y & s3 & O & -> & Db & T & B); [lia|auto|].
    cbn [lfold] in F. rewrite (step o a b x y) in F by auto.
    destruct (den (FBin o a b)) as [x'|] eqn:D'; [|discriminate].
    apply (IH s0 (FBin o a b) x' v); auto. apply (ct_more o1 o2 X o a b s0 s s3 s1); auto.
Qed.

(** The chains of [foldl_reject_incomplete_start_with_parser] *)
Lemma fold_chain_sound :
  sound N (chain_text o1 o2 X) den (foldl_reject_incomplete_start_with_parser N q p f).
Proof.
  intros s ps v t ps' L E. apply foldl_ri_swp_accept in E as (v0 & s1 & ps1 & rs & m & E0 & _ & _ & R & _ & F).
  destruct (Hs _ _ _ _ _ L E0) as (a & A & D).
  eapply runs_chain; eauto. constructor. auto.
Qed.

Lemma foldl_ri_tail : forall a s e t, ctail o1 o2 X a s e t -> P t -> not_starting_with (starts_with o1 o2) t ->
  forall n ps, (length s < n)%nat -> (length s < N)%nat ->
  match den e with
  | Some v => exists ps', foldl_reject_incomplete n q (den a) f s ps = Accept v t ps'
  | None => foldl_reject_incomplete n q (den a) f s ps = Illformed
  end.
Proof.
  intros a s e t H Pt Nt. induction H as [a s | o a b s s1 s2 e t O T B H IH]; intros n ps L L'.
  - destruct n; [lia|]. cbn [foldl_reject_incomplete].
    destruct (item_reject s ps Nt) as (m & ->).
    rewrite (proj2 (pos_equal_to_iff ps ps) eq_refl). destruct (den a); eauto.
  - destruct n; [lia|]. cbn [foldl_reject_incomplete].
    pose proof (token_text_shorter _ _ _ T). pose proof (Sh _ _ _ B).
    assert (P2 : P s2) by (eapply ctail_front; eauto).
    pose proof (item_complete o b s s1 s2 ps O T B P2 L') as I.
    destruct (den b) as [y|] eqn:Db.
    + destruct I as (ps' & ->).
      destruct (den a) as [x|] eqn:Da.
      * rewrite (step o a b x y) by auto. apply IH; auto; lia.
      * assert (De : den e = None).
        { clear IH. pose proof (strict_l o a b O Da) as D0.
          clear - H D0 strict_l. induction H; auto. }
        rewrite De. auto.
    + assert (De : den e = None).
      { clear IH. pose proof (strict_r o a b O Db) as D0.
        clear - H D0 strict_l. induction H; auto. }
      rewrite De, I. auto.
Qed.

Lemma fold_chain_complete : (forall e, den e <> Some VVoid) ->
  complete N (follow o1 o2 P) (chain_text o1 o2 X) den (foldl_reject_incomplete_start_with_parser N q p f).
Proof.
  intros Nv e s t ps C (Pt & Nt) L. apply chain_ctail in C as (a & s1 & A & T).
  assert (P1 : P s1) by (eapply ctail_front; eauto).
  pose proof (Hc a s s1 ps A P1 L) as Ca. unfold foldl_reject_incomplete_start_with_parser.
  pose proof (Sh _ _ _ A).
  destruct (den a) as [x|] eqn:Da.
  - destruct Ca as (ps1 & ->). rewrite type_of_some by (intros ->; exact (Nv _ Da)).
    rewrite <- Da. apply foldl_ri_tail; auto; lia.
  - assert (De : den e = None).
    { clear - T Da strict_l. induction T; auto. }
    rewrite De, Ca. auto.
Qed.

(** The chains of grammars: [p (op p)*] *)
Lemma mpl_fold_lfold : forall rs x, mpl_fold f rs x = lfold f rs x.
Proof. induction rs; simpl; intros; auto. Qed.

Definition list_chain : pfun := transform (sequence cfg [p; repeated N q]) (fold_tail f).

Lemma list_chain_eq : forall s ps, list_chain s ps =
  match p s ps with
  | Accept x s1 ps1 =>
      match repeated N q s1 ps1 with
      | Accept (VSeq rs) s2 ps2 => match lfold f rs x with Some v => Accept v s2 ps2 | None => Illformed end
      | Accept _ _ _ => Illformed
      | o => o
      end
  | o => o
  end.
Proof.
  intros s ps. unfold list_chain, transform. rewrite sequence_2.
  destruct (p s ps) as [x s1 ps1 | | | ]; auto. destruct (repeated N q s1 ps1) as [v| | |]; auto.
  unfold fold_tail. simpl. destruct v; auto.
Qed.

Lemma list_chain_sound : sound N (chain_text o1 o2 X) den list_chain.
Proof.
  intros s ps v t ps' L E. rewrite list_chain_eq in E.
  destruct (p s ps) as [x s1 ps1| | |] eqn:E1; try discriminate.
  destruct (repeated N q s1 ps1) as [r s2 ps2| | |] eqn:E2; try discriminate.
  apply repeated_accept in E2 as (rs & m & pe & -> & _ & R & _).
  destruct (lfold f rs x) as [v'|] eqn:F; [|discriminate]. injection E as <- <- <-.
  destruct (Hs _ _ _ _ _ L E1) as (a & A & D).
  eapply runs_chain; eauto. constructor. auto.
Qed.

Lemma foldl_list_tail : forall a s e t, ctail o1 o2 X a s e t -> P t -> not_starting_with (starts_with o1 o2) t ->
  forall n l ps, (length s < n)%nat -> (length s < N)%nat ->
  (exists rs ps', foldl n q (Some (VSeq l)) back_inserter s ps = Accept (VSeq (l ++ rs)) t ps'
     /\ lfold_o f rs (den a) = den e)
  \/ (foldl n q (Some (VSeq l)) back_inserter s ps = Illformed /\ den e = None).
Proof.
  intros a s e t H Pt Nt. induction H as [a s | o a b s s1 s2 e t O T B H IH]; intros n l ps L L'.
  - destruct n; [lia|]. cbn [foldl].
    destruct (item_reject s ps Nt) as (m & ->). left. exists [], ps. rewrite app_nil_r. split; auto.
    unfold lfold_o. destruct (den a); auto.
  - destruct n; [lia|]. cbn [foldl].
    pose proof (token_text_shorter _ _ _ T). pose proof (Sh _ _ _ B).
    assert (P2 : P s2) by (eapply ctail_front; eauto).
    pose proof (item_complete o b s s1 s2 ps O T B P2 L') as I.
    destruct (den b) as [y|] eqn:Db.
    + destruct I as (ps' & ->). cbn [back_inserter].
      destruct (IH Pt Nt n (l ++ [VSeq [VChar (op_of o); y]]) ps') as [(rs & pe & E & F)|(E & D)]; try lia.
      * left. exists (VSeq [VChar (op_of o); y] :: rs), pe. rewrite <- app_assoc in E. split; auto.
        unfold lfold_o in *. destruct (den a) as [x|] eqn:Da.
        -- cbn [lfold]. rewrite (step o a b x y) by auto. auto.
        -- rewrite (strict_l o a b O Da) in F. auto.
      * right. auto.
    + right. rewrite I. split; auto.
      pose proof (strict_r o a b O Db) as D0.
      clear - H D0 strict_l. induction H; auto.
Qed.

Lemma list_chain_complete : complete N (follow o1 o2 P) (chain_text o1 o2 X) den list_chain.
Proof.
  intros e s t ps C (Pt & Nt) L. apply chain_ctail in C as (a & s1 & A & T).
  assert (P1 : P s1) by (eapply ctail_front; eauto).
  pose proof (Hc a s s1 ps A P1 L) as Ca. rewrite list_chain_eq.
  pose proof (Sh _ _ _ A).
  destruct (den a) as [x|] eqn:Da.
  - destruct Ca as (ps1 & ->). unfold repeated.
    destruct (foldl_list_tail _ _ _ _ T Pt Nt N [] ps1) as [(rs & pe & -> & F)|(-> & D)]; try lia.
    + rewrite Da in F. unfold lfold_o in F. simpl. rewrite F. destruct (den e); eauto.
    + rewrite D. auto.
  - assert (De : den e = None).
    { clear - T Da strict_l. induction T; auto. }
    rewrite De, Ca. auto.
Qed.

End Readers.

(** ** Tokens and numbers *)

Lemma repeated_reads : forall P p n w t ps, reads P VChar p -> Forall P w -> not_starting_with P t ->
  (length w < n)%nat -> repeated n p (w ++ t) ps = Accept (VSeq (map VChar w)) t (adv ps w).
Proof.
  intros P p n w t ps R F N L. unfold repeated. rewrite (reads_foldl _ _ _ R) by auto.
  unfold lfold_o. rewrite lfold_back_inserter. reflexivity.
Qed.

Lemma token_reads_token : forall cfg n c, fits_sequence cfg 2 ->
  reads_token n c (VChar c) (token cfg n (lit_c c)).
Proof.
  intros cfg n c Fs. split.
  - intros s t ps (w & -> & F & N) L. cbn [length] in L. rewrite app_length in L.
    exists (adv (next_pos c ps) w). apply token_accept; auto.
    exists (w ++ t), (next_pos c ps), w. splits; auto; try slia; try apply walk_adv.
    apply (proj1 (lit_reads c)). auto.
  - intros s ps N. destruct (proj2 (lit_reads c) s ps N) as (m & E). exists m. apply token_reject; auto.
Qed.

Lemma transform_reads_token : forall n c v p f v', reads_token n c v p -> f v = Some v' ->
  reads_token n c v' (transform p f).
Proof.
  intros n c v p f v' (A & R) E. split.
  - intros s t ps T L. destruct (A s t ps T L) as (ps' & E'). exists ps'. unfold transform. rewrite E', E. auto.
  - intros s ps N. destruct (R s ps N) as (m & E'). exists m. unfold transform. rewrite E'. auto.
Qed.

Lemma always_reads_token : forall n c v p v', reads_token n c v p -> reads_token n c v' (always p v').
Proof.
  intros n c v p v' (A & R). split.
  - intros s t ps T L. destruct (A s t ps T L) as (ps' & E'). exists ps'. unfold always. rewrite E'. auto.
  - intros s ps N. destruct (R s ps N) as (m & E'). exists m. unfold always. rewrite E'. auto.
Qed.

Lemma pair_reads_token : forall cfg n c sp, fits_sequence cfg 2 -> reads space_char VChar sp ->
  reads_token n c (VChar c) (transform (sequence cfg [lit_c c; repeated n sp]) seq_front).
Proof.
  intros cfg n c sp Fs R. split.
  - intros s t ps (w & -> & F & N) L. cbn [length] in L. rewrite app_length in L.
    exists (adv (next_pos c ps) w). unfold transform. rewrite (sequence_2 cfg Fs).
    rewrite (proj1 (lit_reads c)) by auto.
    rewrite (repeated_reads _ _ n _ _ _ R) by (auto; slia). reflexivity.
  - intros s ps N. destruct (proj2 (lit_reads c) s ps N) as (m & E). exists m.
    unfold transform. rewrite (sequence_2 cfg Fs), E. auto.
Qed.

(** [one_of] of two character classes *)
Lemma reads_or : forall cfg P Q p q, fits_one_of cfg 2 -> (forall c, {P c} + {~ P c}) ->
  (forall c, {Q c} + {~ Q c}) -> reads P VChar p -> reads Q VChar q ->
  reads (fun c => P c \/ Q c) VChar (one_of cfg [p; q]).
Proof.
  intros cfg P Q p q F Dp Dq (Ap & Rp) (Aq & Rq). split.
  - intros c s ps H. destruct (Dp c) as [Hp|Hp].
    + apply one_of_2_first; auto. destruct (Dq c) as [Hq|Hq].
      * left. do 3 eexists. apply Aq. auto.
      * destruct (Rq (c :: s) ps Hq) as (m & E). eapply finishes_reject; eauto.
    + destruct H as [H|H]; [contradiction|].
      destruct (Rp (c :: s) ps Hp) as (m & E).
      apply one_of_2_second; auto. do 2 eexists. eauto.
  - intros s ps N. destruct (Rp s ps) as (m & E).
    { destruct s; simpl in *; auto. }
    destruct (Rq s ps) as (m' & E').
    { destruct s; simpl in *; auto. }
    eapply one_of_2_near; eauto.
Qed.

Lemma reads_ext : forall (P Q : char -> Prop) g p, (forall c, P c <-> Q c) -> reads P g p -> reads Q g p.
Proof.
  intros P Q g p E (A & R). split.
  - intros c s ps H. apply A. apply E. auto.
  - intros s ps N. apply R. destruct s; simpl in *; auto. rewrite E. auto.
Qed.

Lemma or_dec : forall A B : Prop, {A} + {~ A} -> {B} + {~ B} -> {A \/ B} + {~ (A \/ B)}.
Proof. intros A B [] []; auto. right. intuition. Qed.

Lemma eq_char_dec : forall c d : char, {d = c} + {d <> c}.
Proof. intros c d. apply Z.eq_dec. Qed.

(** [' ' | '\n' | '\r' | '\t'] *)
Definition ws_char (cfg : config) : pfun :=
  one_of cfg [one_of cfg [one_of cfg [lit_c 32; lit_c 10]; lit_c 13]; lit_c 9].

Ltac char_dec := intros; repeat apply or_dec; apply eq_char_dec.

Lemma ws_reads : forall cfg, fits_one_of cfg 2 -> reads space_char VChar (ws_char cfg).
Proof.
  intros cfg F.
  apply (reads_ext (fun c => ((c = 32 \/ c = 10) \/ c = 13) \/ c = 9)).
  - intros c. unfold space_char. tauto.
  - unfold ws_char. repeat (apply reads_or; try char_dec; auto); apply lit_reads.
Qed.

Definition reads_number (n : nat) (den : fexp -> option value) (p : pfun) : Prop :=
  (forall ds w t s ps, leading_number ds w t s -> (length s < n)%nat ->
     match den (FNum ds) with Some v => exists ps', p s ps = Accept v t ps' | None => p s ps = Illformed end)
  /\ (forall s ps, not_starting_with digit_char s -> exists m, p s ps = Reject m ps).

Lemma number_complete : forall n den p, reads_number n den p ->
  complete n (fun _ => True) (operand_text false) den p.
Proof.
  intros n den p (A & _) e s t ps H _ L. inversion H; subst; [|discriminate]. eapply A; eauto.
Qed.
Lemma number_sound : forall n den p, reads_number n den p -> sound n (operand_text false) den p.
Proof.
  intros n den p (A & R) s ps v t ps' L E.
  destruct (leading_number_cases s) as [N|(ds & w & t' & Ln)].
  - destruct (R s ps N) as (m & E'). congruence.
  - specialize (A _ _ _ _ ps Ln L). destruct (den (FNum ds)) as [v'|] eqn:D.
    + destruct A as (ps1 & A). rewrite E in A. injection A as -> -> ->.
      exists (FNum ds). split; auto. econstructor; eauto.
    + congruence.
Qed.

Section Operand.
Variable cfg : config.
Hypothesis Fo : fits_one_of cfg 2.
Variable n : nat.
Variable den : fexp -> option value.
Variable v : value.
Hypothesis Dv : den FArg = Some v.
Variables p q : pfun.
Hypothesis Hp : reads_number n den p.
Hypothesis Hq : reads_token n 95 v q.

Lemma operand_complete : complete n (fun _ => True) (operand_text true) den (one_of cfg [p; q]).
Proof.
  intros e s t ps H _ L. inversion H as [ds w u s0 Ln | s0 u _ T]; subst.
  - pose proof (proj1 Hp _ _ _ _ ps Ln L) as A.
    assert (F : exists m, q s ps = Reject m ps).
    { apply (proj2 Hq). destruct Ln as (-> & (Ne & F) & _). destruct ds; [congruence|].
      inversion F; subst. simpl. intros ->. unfold digit_char in *. lia. }
    destruct F as (m & F).
    destruct (den (FNum ds)).
    + destruct A as (ps' & A). exists ps'. apply one_of_2_first; auto. eapply finishes_reject; eauto.
    + apply one_of_2_ill; auto.
  - rewrite Dv. destruct (proj1 Hq _ _ ps T L) as (ps' & A).
    destruct (proj2 Hp s ps) as (m & R).
    { destruct T as (w & -> & _). simpl. unfold digit_char. lia. }
    exists ps'. apply one_of_2_second; auto. do 2 eexists; eauto.
Qed.

Lemma operand_sound : sound n (operand_text true) den (one_of cfg [p; q]).
Proof.
  intros s ps r t ps' L E.
  assert (C : (exists e t', operand_text true e s t') \/
    (not_starting_with digit_char s /\ not_starting_with (fun d => d = 95) s)).
  { destruct (leading_number_cases s) as [N|(ds & w & t' & Ln)].
    - destruct s as [|c u]; [right; simpl; auto|].
      destruct (Z.eq_dec c 95) as [->|Nc]; [|right; auto].
      destruct (token_text_total 95 u) as (t' & T). left. exists FArg, t'. constructor; auto.
    - left. exists (FNum ds), t'. econstructor; eauto. }
  destruct C as [(e & t' & X)|(N1 & N2)].
  - pose proof (operand_complete e s t' ps X Logic.I L) as A.
    destruct (den e) as [v'|] eqn:D.
    + destruct A as (ps1 & A). rewrite E in A. injection A as -> -> ->. eauto.
    + congruence.
  - destruct (proj2 Hp s ps N1) as (m1 & R1). destruct (proj2 Hq s ps N2) as (m2 & R2).
    destruct (one_of_2_near cfg Fo p q s ps m1 m2 R1 R2) as (k & R). congruence.
Qed.
End Operand.

(** *** Integers *)

Lemma int_token_reads : forall cfg env n den, fits_sequence cfg 2 ->
  (forall ds, Forall digit_char ds -> den (FNum ds) = int_constant (decimal ds)) ->
  reads_number n den (eval cfg env n int_token).
Proof.
  intros cfg env n den Fs D. split.
  - intros ds w t s ps Ln L. rewrite D by apply Ln.
    destruct (int_token_leading cfg env Fs n s ps ds w t Ln L) as (A & B).
    destruct (is_int_dec (decimal ds)) as [I|I].
    + rewrite int_constant_some by auto. eauto.
    + rewrite int_constant_none by auto. auto.
  - intros s ps N. exists digit_expected. apply int_token_none; auto.
Qed.

Lemma transform_reads_number : forall n den den' p f, reads_number n den p ->
  (forall ds, Forall digit_char ds -> den' (FNum ds) = match den (FNum ds) with Some v => f v | None => None end) ->
  (forall ds v, den (FNum ds) = Some v -> f v <> None) ->
  reads_number n den' (transform p f).
Proof.
  intros n den den' p f (A & R) D T. split.
  - intros ds w t s ps Ln L. rewrite D by apply Ln. specialize (A ds w t s ps Ln L). unfold transform.
    specialize (T ds). destruct (den (FNum ds)) as [v|].
    + destruct A as (ps' & ->). destruct (f v) as [v'|]; eauto.
    + rewrite A. auto.
  - intros s ps N. destruct (R s ps N) as (m & E). exists m. unfold transform. rewrite E. auto.
Qed.

(** *** Numbers of the grammar *)

Definition digit_choice (cfg : config) : pfun :=
  one_of cfg [one_of cfg [one_of cfg [one_of cfg [one_of cfg [one_of cfg [one_of cfg [one_of cfg [one_of cfg
    [lit_c 48; lit_c 49]; lit_c 50]; lit_c 51]; lit_c 52]; lit_c 53]; lit_c 54]; lit_c 55]; lit_c 56]; lit_c 57].

Lemma digit_choice_reads : forall cfg, fits_one_of cfg 2 -> reads digit_char VChar (digit_choice cfg).
Proof.
  intros cfg F.
  apply (reads_ext (fun c => ((((((((c = 48 \/ c = 49) \/ c = 50) \/ c = 51) \/ c = 52) \/ c = 53) \/ c = 54)
    \/ c = 55) \/ c = 56) \/ c = 57)).
  - intros c. unfold digit_char. split; intros H; slia.
  - unfold digit_choice. repeat (apply reads_or; try char_dec; auto); apply lit_reads.
Qed.

Lemma repeated1_reads : forall P p n w t ps, reads P VChar p -> Forall P w -> not_starting_with P t -> w <> [] ->
  (length w < n)%nat -> repeated1 n p (w ++ t) ps = Accept (VSeq (map VChar w)) t (adv ps w).
Proof.
  intros P p n w t ps R F N Ne L. rewrite <- (repeated_reads P p n w t ps) by auto.
  unfold repeated1, repeated, foldl1. destruct w as [|c w]; [congruence|]. inversion F; subst.
  cbn [app]. rewrite (proj1 R) by auto. reflexivity.
Qed.

Definition add_digit : mf2 := fun st c =>
  match mpl_times st (VInt 10), digit_to_int c with
  | Some x, Some y => mpl_plus x y
  | _, _ => None
  end.

Lemma add_digit_int : forall a c, 0 <= a -> digit_char c ->
  add_digit (VInt a) (VChar c) = int_constant (a * 10 + (c - 48)).
Proof.
  intros a c A D. unfold add_digit, mpl_times, mpl_arith. simpl as_int. cbv beta iota.
  assert (E : digit_to_int (VChar c) = Some (VInt (c - 48))).
  { unfold digit_to_int. cbn [as_int]. f_equal. unfold digit_char in D.
    assert (C : In c [48; 49; 50; 51; 52; 53; 54; 55; 56; 57]) by (simpl; slia).
    simpl in C. repeat (destruct C as [<-|C]; [reflexivity|]). destruct C. }
  rewrite E. destruct (is_int_dec (a * 10)) as [I|I].
  - rewrite (int_constant_some (a * 10)) by auto. unfold mpl_plus, mpl_arith. simpl. reflexivity.
  - rewrite (int_constant_none (a * 10)) by auto. symmetry. apply int_constant_none.
    unfold is_int, digit_char in *. change (2 ^ 31) with 2147483648 in *. slia.
Qed.

Lemma int_action_fold : forall ds a, Forall digit_char ds -> 0 <= a ->
  mpl_fold add_digit (map VChar ds) (VInt a) =
  match ds with [] => Some (VInt a) | _ => int_constant (decimal_acc a ds) end.
Proof.
  induction ds as [|c ds IH]; intros a F A; auto. inversion F as [|c0 l0 D F']; subst.
  cbn [map mpl_fold]. rewrite add_digit_int by auto.
  assert (A' : 0 <= a * 10 + (c - 48)) by (unfold digit_char in D; slia).
  destruct (is_int_dec (a * 10 + (c - 48))) as [I|I].
  - rewrite int_constant_some by auto. rewrite IH by auto.
    cbn [decimal_acc].
    destruct ds; auto. cbn [decimal_acc]. rewrite int_constant_some; auto.
  - rewrite int_constant_none by auto. symmetry. apply int_constant_none.
    cbn [decimal_acc].
    pose proof (decimal_acc_ge ds (a * 10 + (c - 48)) A' F') as G.
    unfold is_int in *. change (2 ^ 31) with 2147483648 in *. slia.
Qed.

(** ** Values of expressions *)

Definition zop (o : cop) (x y : Z) : option Z :=
  match o with
  | Add => int_range (x + y)
  | Sub => int_range (x - y)
  | Mul => int_range (x * y)
  | Div => if y =? 0 then None else int_range (Z.quot x y)
  end.
Definition eager_op (o : cop) (x y : Z) : option Z :=
  match zop o x y, zop (partner o) x y with Some r, Some _ => Some r | _, _ => None end.

Lemma int_range_some : forall z r, int_range z = Some r <-> is_int z /\ r = z.
Proof.
  intros z r. unfold int_range. destruct (int_ok z) eqn:E.
  - apply int_ok_iff in E. split; [intros [= <-]|intros (_ & ->)]; auto.
  - split; [discriminate|]. intros (I & _). apply int_ok_iff in I. congruence.
Qed.

Lemma zop_some : forall o x y z, zop o x y = Some z <-> int_op o x y z.
Proof.
  intros o x y z. unfold zop, int_op. destruct o; try (rewrite int_range_some; intuition congruence).
  rewrite quotient_iff. destruct (y =? 0) eqn:E.
  - apply Z.eqb_eq in E. split; [discriminate|]. intuition.
  - apply Z.eqb_neq in E. rewrite int_range_some. intuition congruence.
Qed.

Lemma int_range_constant : forall z, option_map VInt (int_range z) = int_constant z.
Proof. intros z. unfold int_range, int_constant. destruct (int_ok z); auto. Qed.

Lemma zop_arith : forall o x y, option_map VInt (zop o x y) = arith o x y.
Proof.
  intros o x y. unfold zop, arith. destruct o; try apply int_range_constant.
  destruct (y =? 0); auto. apply int_range_constant.
Qed.

Fixpoint zden (op : cop -> Z -> Z -> option Z) (x : option Z) (e : fexp) : option Z :=
  match e with
  | FNum ds => int_range (decimal ds)
  | FArg => x
  | FBin o a b =>
      match zden op x a, zden op x b with Some y, Some z => op o y z | _, _ => None end
  end.

Lemma fmeans_zden : forall x e z, fmeans x e z <-> zden zop (Some x) e = Some z.
Proof.
  intros x e. induction e as [ds| |o a IHa b IHb]; intros z; cbn [zden].
  - rewrite int_range_some. split.
    + intros H. inversion H; subst. auto.
    + intros (I & ->). constructor. auto.
  - split; [intros H; inversion H; auto|intros [= <-]; constructor].
  - split.
    + intros H. inversion H as [| |o' a' b' y z' r A B O]; subst.
      rewrite (proj1 (IHa _) A), (proj1 (IHb _) B). apply zop_some. auto.
    + destruct (zden zop (Some x) a) as [y|]; [|discriminate].
      destruct (zden zop (Some x) b) as [y'|]; [|discriminate].
      intros E. apply zop_some in E. econstructor; [apply IHa|apply IHb|]; eauto.
Qed.

Lemma eager_means_zden : forall e z, eager_means e z <-> zden eager_op None e = Some z.
Proof.
  intros e. induction e as [ds| |o a IHa b IHb]; intros z; cbn [zden].
  - rewrite int_range_some. split.
    + intros H. inversion H; subst. auto.
    + intros (I & ->). constructor. auto.
  - split; [intros H; inversion H|discriminate].
  - split.
    + intros H. inversion H as [|o' a' b' y z' r r' A B O O']; subst.
      rewrite (proj1 (IHa _) A), (proj1 (IHb _) B). unfold eager_op.
      rewrite (proj2 (zop_some _ _ _ _) O), (proj2 (zop_some _ _ _ _) O'). auto.
    + destruct (zden eager_op None a) as [y|]; [|discriminate].
      destruct (zden eager_op None b) as [y'|]; [|discriminate].
      unfold eager_op. destruct (zop o y y') as [r|] eqn:E; [|discriminate].
      destruct (zop (partner o) y y') as [r'|] eqn:E'; [|discriminate]. intros [= <-].
      apply zop_some in E. apply zop_some in E'.
      econstructor; [apply IHa|apply IHb| |]; eauto.
Qed.

Lemma eager_fmeans : forall e z x, eager_means e z -> fmeans x e z.
Proof. intros e z x H. induction H; econstructor; eauto. Qed.

(** The values of the calculators *)
Definition dcalc (op : cop -> Z -> Z -> option Z) (e : fexp) : option value :=
  option_map VInt (zden op None e).

(** The functions built *)
Definition op_tag (o : cop) : nat := match o with Add => 7 | Sub => 8 | Mul => 9 | Div => 10 end.
Fixpoint dfun (arg : value) (e : fexp) : option value :=
  match e with
  | FNum ds => match int_constant (decimal ds) with Some v => Some (VTmpl 5 [v]) | None => None end
  | FArg => Some arg
  | FBin o a b =>
      match dfun arg a, dfun arg b with
      | Some x, Some y => Some (VTmpl (op_tag o) [x; y])
      | _, _ => None
      end
  end.

Lemma dfun_not_void : forall arg e, arg <> VVoid -> dfun arg e <> Some VVoid.
Proof.
  intros arg e Na. destruct e as [ds| |o a b]; cbn [dfun].
  - destruct (int_constant (decimal ds)); discriminate.
  - congruence.
  - destruct (dfun arg a), (dfun arg b); discriminate.
Qed.

Lemma dfun_literals : forall arg e, (literals_fit e <-> dfun arg e <> None).
Proof.
  intros arg e. induction e as [ds| |o a IHa b IHb]; cbn [literals_fit dfun].
  - destruct (is_int_dec (decimal ds)) as [I|I].
    + rewrite int_constant_some by auto. intuition discriminate.
    + rewrite int_constant_none by auto. intuition.
  - intuition discriminate.
  - rewrite IHa, IHb. destruct (dfun arg a), (dfun arg b); intuition discriminate.
Qed.

Definition arg_class (v : value) : Prop := exists l, v = VTmpl 6 l.

Lemma dfun_apply : forall arg x e f, arg_class arg -> dfun arg e = Some f ->
  apply_fun f (VInt x) = option_map VInt (zden zop (Some x) e).
Proof.
  intros arg x e f (l & ->). revert f. induction e as [ds| |o a IHa b IHb]; intros f; cbn [dfun zden].
  - destruct (int_constant (decimal ds)) as [v|] eqn:E; [|discriminate]. intros [= <-].
    apply int_constant_inv in E as (I & ->). cbn [apply_fun].
    rewrite (proj2 (int_range_some _ _) (conj I eq_refl)). reflexivity.
  - intros [= <-]. reflexivity.
  - destruct (dfun _ a) as [x1|]; [|discriminate]. destruct (dfun _ b) as [x2|]; [|discriminate].
    intros [= <-]. specialize (IHa _ eq_refl). specialize (IHb _ eq_refl).
    destruct o; cbn [op_tag apply_fun]; rewrite IHa, IHb;
      destruct (zden zop (Some x) a) as [y|]; auto; destruct (zden zop (Some x) b) as [y'|]; auto;
      rewrite zop_arith; reflexivity.
Qed.

Definition t_op {T : Type} (ar : arithmetic T) (o : cop) : T -> T -> option T :=
  match o with Add => t_add ar | Sub => t_sub ar | Mul => t_mul ar | Div => t_div ar end.
Definition i_op (o : cop) : Z -> Z -> option Z :=
  match o with Add => i_add | Sub => i_sub | Mul => i_mul | Div => i_div end.
Lemma i_op_zop : forall o x y, i_op o x y = zop o x y.
Proof. intros []; reflexivity. Qed.

Lemma native_bin : forall T (ar : arithmetic T) o a b t, native ar (VTmpl (op_tag o) [a; b]) t =
  match native ar a t, native ar b t with
  | Some x, Some y => native_op ar (i_op o) (t_op ar o) x y
  | _, _ => None
  end.
Proof. intros T ar [] a b t; reflexivity. Qed.

Lemma dfun_native : forall T (ar : arithmetic T) t arg e f, arg_class arg -> dfun arg e = Some f ->
  (forall r, native ar f t = Some r -> computes (t_op ar) (t_int ar) t e (as_arg ar r)
     /\ forall z, r = RInt z <-> exists ds, e = FNum ds /\ z = decimal ds)
  /\ (forall y, computes (t_op ar) (t_int ar) t e y -> exists r, native ar f t = Some r /\ as_arg ar r = y).
Proof.
  intros T ar t arg e f (l & ->). revert f. induction e as [ds| |o a IHa b IHb]; intros f; cbn [dfun].
  - destruct (int_constant (decimal ds)) as [v|] eqn:E; [|discriminate]. intros [= <-].
    apply int_constant_inv in E as (I & ->). cbn [native as_int option_map]. split.
    + intros r [= <-]. split; [constructor|]. intros z. split.
      * intros [= <-]. eauto.
      * intros (ds' & [= <-] & ->). auto.
    + intros y C. inversion C; subst. eexists. split; eauto.
  - intros [= <-]. cbn [native]. split.
    + intros r [= <-]. split; [constructor|]. intros z. split; [discriminate|]. intros (ds & E & _). discriminate.
    + intros y C. inversion C; subst. eexists. split; eauto.
  - destruct (dfun _ a) as [fa|]; [|discriminate]. destruct (dfun _ b) as [fb|]; [|discriminate].
    intros [= <-]. destruct (IHa _ eq_refl) as (Sa & Ca). destruct (IHb _ eq_refl) as (Sb & Cb).
    rewrite native_bin. split.
    + intros r E. destruct (native ar fa t) as [ra|]; [|discriminate].
      destruct (native ar fb t) as [rb|]; [|discriminate].
      destruct (Sa _ eq_refl) as (Ka & La). destruct (Sb _ eq_refl) as (Kb & Lb).
      assert (D : (exists x y, ra = RInt x /\ rb = RInt y)
        \/ (native_op ar (i_op o) (t_op ar o) ra rb = option_map RArg (t_op ar o (as_arg ar ra) (as_arg ar rb))
            /\ ~ (literal_exp a /\ literal_exp b))).
      { destruct ra as [x|u], rb as [y|w]; [left; eauto|right|right|right]; split; auto; intros (Xa & Xb).
        - destruct Xb as (d & ->). discriminate (proj2 (Lb (decimal d)) (ex_intro _ d (conj eq_refl eq_refl))).
        - destruct Xa as (d & ->). discriminate (proj2 (La (decimal d)) (ex_intro _ d (conj eq_refl eq_refl))).
        - destruct Xa as (d & ->). discriminate (proj2 (La (decimal d)) (ex_intro _ d (conj eq_refl eq_refl))). }
      destruct D as [(x & y & -> & ->)|(D & Nl)].
      * destruct (proj1 (La x) eq_refl) as (da & -> & ->). destruct (proj1 (Lb y) eq_refl) as (db & -> & ->).
        cbn [native_op] in E. rewrite i_op_zop in E.
        destruct (zop o (decimal da) (decimal db)) as [z|] eqn:Z; [|discriminate]. injection E as <-.
        split; [|intros z'; split; [discriminate|intros (d & E & _); discriminate]].
        cbn [as_arg]. constructor. apply zop_some. auto.
      * rewrite D in E. destruct (t_op ar o _ _) as [z|] eqn:Z; [|discriminate]. injection E as <-.
        split; [|intros z'; split; [discriminate|intros (d & E & _); discriminate]].
        cbn [as_arg]. econstructor; eauto.
    + intros y C. inversion C as [| |o' da db z I|o' a' b' x' y' z Nl A B O]; subst.
      * destruct (Ca (t_int ar (decimal da)) (cp_num _ _ _ _)) as (ra & Ea & _).
        destruct (Cb (t_int ar (decimal db)) (cp_num _ _ _ _)) as (rb & Eb & _).
        destruct (Sa _ Ea) as (_ & La). destruct (Sb _ Eb) as (_ & Lb).
        rewrite (proj2 (La (decimal da)) (ex_intro _ da (conj eq_refl eq_refl))) in Ea.
        rewrite (proj2 (Lb (decimal db)) (ex_intro _ db (conj eq_refl eq_refl))) in Eb.
        rewrite Ea, Eb. cbn [native_op]. rewrite i_op_zop, (proj2 (zop_some _ _ _ _) I).
        eexists. split; [reflexivity|]. reflexivity.
      * destruct (Ca _ A) as (ra & Ea & <-). destruct (Cb _ B) as (rb & Eb & <-).
        rewrite Ea, Eb. destruct (Sa _ Ea) as (_ & La). destruct (Sb _ Eb) as (_ & Lb).
        assert (D : native_op ar (i_op o) (t_op ar o) ra rb
          = option_map RArg (t_op ar o (as_arg ar ra) (as_arg ar rb))).
        { destruct ra as [x|u], rb as [w|w]; auto. exfalso. apply Nl.
          destruct (proj1 (La x) eq_refl) as (da & -> & _). destruct (proj1 (Lb w) eq_refl) as (db & -> & _).
          split; eexists; reflexivity. }
        rewrite D, O. eexists. split; reflexivity.
Qed.

(** ** The parsers *)

(** What an [entire_input] parser says about the texts [Y]. *)
Definition verdict (n : nat) (Y : fexp -> str -> Prop) (den : fexp -> option value) (p : pfun) : Prop :=
  forall s ps, (length s < n)%nat ->
  (forall v t ps', p s ps = Accept v t ps' -> t = [] /\ exists e, Y e s /\ den e = Some v)
  /\ (forall e, Y e s ->
        match den e with Some v => exists ps', p s ps = Accept v [] ps' | None => p s ps = Illformed end).

Lemma entire_verdict : forall cfg n var den p m, fits_sequence cfg 2 ->
  complete n follow_sum (sum_text var) den p -> sound n (sum_text var) den p ->
  verdict n (exp_text var) den (entire_input cfg p m).
Proof.
  intros cfg n var den p m Fs C S s ps L. rewrite entire_input_spec by auto. split.
  - intros v t ps' E. destruct (p s ps) as [r t1 ps1| | |] eqn:E1; try discriminate.
    destruct t1; [|discriminate]. injection E as <- <- <-. split; auto.
    destruct (S _ _ _ _ _ L E1) as (e & Y & D). exists e. auto.
  - intros e Y. pose proof (C e s [] ps Y follow_nil L) as H. destruct (den e).
    + destruct H as (ps' & ->). eauto.
    + rewrite H. auto.
Qed.

Lemma space_reads : reads space_char VChar space.
Proof. eapply class_reads. apply space_class. Qed.

Lemma spaced_verdict : forall cfg n var den p m, fits_sequence cfg 2 ->
  complete n follow_sum (sum_text var) den p -> sound n (sum_text var) den p ->
  verdict n (spaced_text var) den (entire_input cfg (last_of cfg [repeated n space; p]) m).
Proof.
  intros cfg n var den p m Fs C S s ps L. rewrite entire_input_spec, last_of_2 by auto.
  destruct (take_while space_char space_dec s) as (w & t & -> & F & N).
  rewrite app_length in L. rewrite (repeated_reads _ _ n w t ps space_reads) by (auto; slia).
  assert (Lt : (length t < n)%nat) by slia. split.
  - intros v t' ps' E. destruct (p t (adv ps w)) as [r t1 ps1| | |] eqn:E1; try discriminate.
    destruct t1; [|discriminate]. injection E as <- <- <-. split; auto.
    destruct (S _ _ _ _ _ Lt E1) as (e & Y & D). exists e. split; auto. exists w, t. auto.
  - intros e (w' & t' & E & F' & Y).
    destruct (split_unique _ _ _ _ _ E F F' N (sum_no_space _ _ _ _ Y)) as (<- & <-).
    pose proof (C e t [] (adv ps w) Y follow_nil Lt) as H. destruct (den e).
    + destruct H as (ps' & ->). eauto.
    + rewrite H. auto.
Qed.

(** *** Two levels of chains *)

Section Levels.
Variable cfg : config.
Hypothesis Fs : fits_sequence cfg 2.
Variable n : nat.
Variable var : bool.
Variable den : fexp -> option value.
Variables fm fp : mf2.
Hypothesis step_m : forall o a b x y, o = Mul \/ o = Div -> den a = Some x -> den b = Some y ->
  fm x (VSeq [VChar (op_of o); y]) = den (FBin o a b).
Hypothesis step_p : forall o a b x y, o = Add \/ o = Sub -> den a = Some x -> den b = Some y ->
  fp x (VSeq [VChar (op_of o); y]) = den (FBin o a b).
Hypothesis strict_l : forall o a b, den a = None -> den (FBin o a b) = None.
Hypothesis strict_r : forall o a b, den b = None -> den (FBin o a b) = None.
Variables mul_op add_op value : pfun.
Hypothesis Hm : reads_ops n Mul Div mul_op.
Hypothesis Ha : reads_ops n Add Sub add_op.
Hypothesis Vc : complete n (fun _ => True) (operand_text var) den value.
Hypothesis Vs : sound n (operand_text var) den value.

Let fold_product : pfun :=
  foldl_reject_incomplete_start_with_parser n (sequence cfg [mul_op; value]) value fm.
Definition fold_sum : pfun :=
  foldl_reject_incomplete_start_with_parser n (sequence cfg [add_op; fold_product]) fold_product fp.

Lemma fold_sum_complete : (forall e, den e <> Some VVoid) -> complete n follow_sum (sum_text var) den fold_sum.
Proof.
  intros Nv. apply fold_chain_complete; eauto; try apply product_shrinks; try apply plus_follows;
    try apply fold_chain_complete; eauto; try apply operand_shrinks.
Qed.
Lemma fold_sum_sound : sound n (sum_text var) den fold_sum.
Proof.
  apply fold_chain_sound; eauto; try apply product_shrinks.
  apply fold_chain_sound; eauto; try apply operand_shrinks.
Qed.

Let list_product : pfun := list_chain fm cfg n mul_op value.
Definition list_sum : pfun := list_chain fp cfg n add_op list_product.

Lemma list_sum_complete : complete n follow_sum (sum_text var) den list_sum.
Proof.
  apply list_chain_complete with (P := follow_product); eauto; try apply product_shrinks; try apply plus_follows.
  apply list_chain_complete with (P := fun _ => True); eauto; try apply operand_shrinks.
Qed.
Lemma list_sum_sound : sound n (sum_text var) den list_sum.
Proof.
  apply list_chain_sound; eauto; try apply product_shrinks.
  apply list_chain_sound; eauto; try apply operand_shrinks.
Qed.
End Levels.

(** *** Functions *)

Lemma build_op : forall arg o a b x y, dfun arg a = Some x -> dfun arg b = Some y ->
  (o = Mul \/ o = Div -> build_mult x (VSeq [VChar (op_of o); y]) = dfun arg (FBin o a b))
  /\ (o = Add \/ o = Sub -> build_plus x (VSeq [VChar (op_of o); y]) = dfun arg (FBin o a b)).
Proof.
  intros arg o a b x y A B. cbn [dfun]. rewrite A, B. split; intros [-> | ->]; reflexivity.
Qed.

Lemma dfun_strict : forall arg o a b, dfun arg a = None \/ dfun arg b = None -> dfun arg (FBin o a b) = None.
Proof. intros arg o a b [H|H]; cbn [dfun]; rewrite H; auto. destruct (dfun arg a); auto. Qed.

Definition fun_fits (cfg : config) : Prop := fits_one_of cfg 2 /\ fits_sequence cfg 2.

Lemma tokens_reads_ops : forall cfg n o1 o2, fun_fits cfg -> o1 <> o2 ->
  reads_ops n o1 o2 (one_of cfg [token cfg n (lit_c (op_of o1)); token cfg n (lit_c (op_of o2))]).
Proof.
  intros cfg n o1 o2 (Fo & Fs) Ne. apply ops_of_tokens; auto; apply token_reads_token; auto.
Qed.

Lemma function_verdict : forall cfg env n, fun_fits cfg ->
  verdict n (spaced_text true) (dfun fun_arg) (eval cfg env n function_parser).
Proof.
  intros cfg env n (Fo & Fs).
  set (value := one_of cfg [transform (eval cfg env n int_token) fun_value;
    always (token cfg n (lit_c 95)) fun_arg]).
  assert (E : eval cfg env n function_parser = entire_input cfg (last_of cfg [repeated n space;
    fold_sum cfg n build_mult build_plus
      (one_of cfg [token cfg n (lit_c (op_of Mul)); token cfg n (lit_c (op_of Div))])
      (one_of cfg [token cfg n (lit_c (op_of Add)); token cfg n (lit_c (op_of Sub))])
      value]) end_of_input_expected).
  { destruct n; reflexivity. }
  rewrite E.
  assert (Hv : reads_number n (dfun fun_arg) (transform (eval cfg env n int_token) fun_value)).
  { apply (transform_reads_number n (fun e => match e with FNum ds => int_constant (decimal ds) | _ => None end)).
    - apply int_token_reads; auto.
    - intros ds _. cbn [dfun]. destruct (int_constant (decimal ds)); auto.
    - intros ds v _. discriminate. }
  assert (Hq : reads_token n 95 fun_arg (always (token cfg n (lit_c 95)) fun_arg)).
  { eapply always_reads_token. apply token_reads_token. auto. }
  apply spaced_verdict; auto; [apply fold_sum_complete | apply fold_sum_sound]; auto;
    try (intros; eapply build_op; eauto; fail); try (intros; apply dfun_strict; auto; fail);
    try (apply tokens_reads_ops; [split; auto|discriminate]);
    try (intros; apply dfun_not_void; discriminate).
  - eapply operand_complete; eauto. reflexivity.
  - eapply operand_sound; eauto. reflexivity.
Qed.

(** *** The calculator *)

Lemma dcalc_strict : forall op o a b, dcalc op a = None \/ dcalc op b = None -> dcalc op (FBin o a b) = None.
Proof.
  intros op o a b H. unfold dcalc in *. cbn [zden].
  destruct (zden op None a), (zden op None b); auto; destruct H; discriminate.
Qed.

Definition calc_op (op : cop -> Z -> Z -> option Z) (o1 o2 : cop) (f : mf2) : Prop :=
  forall o x y, o = o1 \/ o = o2 -> f (VInt x) (VSeq [VChar (op_of o); VInt y]) = option_map VInt (op o x y).

Lemma dcalc_op : forall op o1 o2 f, calc_op op o1 o2 f -> forall o a b x y, o = o1 \/ o = o2 ->
  dcalc op a = Some x -> dcalc op b = Some y -> f x (VSeq [VChar (op_of o); y]) = dcalc op (FBin o a b).
Proof.
  intros op o1 o2 f H o a b x y O A B. unfold dcalc in *. cbn [zden].
  destruct (zden op None a) as [x'|]; [|discriminate]. destruct (zden op None b) as [y'|]; [|discriminate].
  injection A as <-. injection B as <-. apply H. auto.
Qed.

Lemma calc_op_level : forall o1 o2 f, level_op o1 o2 f -> calc_op zop o1 o2 f.
Proof. intros o1 o2 f H o x y O. rewrite zop_arith. apply H. auto. Qed.

Lemma dcalc_num : forall op ds, dcalc op (FNum ds) = int_constant (decimal ds).
Proof. intros op ds. unfold dcalc. cbn [zden]. apply int_range_constant. Qed.

Lemma calculator_verdict : forall cfg env n, fun_fits cfg ->
  verdict n (spaced_text false) (dcalc zop) (eval cfg env n calculator).
Proof.
  intros cfg env n (Fo & Fs).
  assert (E : eval cfg env n calculator = entire_input cfg (last_of cfg [repeated n space;
    fold_sum cfg n eval_mult eval_plus
      (one_of cfg [token cfg n (lit_c (op_of Mul)); token cfg n (lit_c (op_of Div))])
      (one_of cfg [token cfg n (lit_c (op_of Add)); token cfg n (lit_c (op_of Sub))])
      (eval cfg env n int_token)]) end_of_input_expected).
  { destruct n; reflexivity. }
  rewrite E.
  assert (Hv : reads_number n (dcalc zop) (eval cfg env n int_token)).
  { apply int_token_reads; auto. intros. apply dcalc_num. }
  apply spaced_verdict; auto; [apply fold_sum_complete | apply fold_sum_sound]; auto;
    try (intros; eapply dcalc_op; eauto; apply calc_op_level; auto using eval_mult_ok, eval_plus_ok; fail);
    try (intros; apply dcalc_strict; auto; fail);
    try (apply tokens_reads_ops; [split; auto|discriminate]);
    try (intros e; unfold dcalc; destruct (zden zop None e); discriminate).
  - apply number_complete; auto.
  - apply number_sound; auto.
Qed.

(** *** Grammars *)

Definition c11 : config := default_config Std11.

Lemma c11_fits : grammar_fits c11.
Proof. repeat split; intro H; discriminate H. Qed.

Definition decl_text (d : decl) : str := match d with Rule s _ => s | Import s _ => s end.

Lemma add_decls_any : forall cfg n m ds g g', grammar_fits cfg ->
  Forall (fun d => (2 * length (decl_text d) + 4 < n)%nat) ds ->
  add_decls c11 m g ds = Ok g' -> add_decls cfg n g ds = Ok g'.
Proof.
  intros cfg n m ds. induction ds as [|d ds IH]; intros g g' Fg F E; auto.
  inversion F as [|d' ds' L F']; subst. cbn [add_decls] in *.
  assert (A : forall g1, add_decl c11 m g d = Ok g1 -> add_decl cfg n g d = Ok g1).
  { intros g1. destruct d as [def a|name p]; cbn [add_decl decl_text] in *.
    - unfold add_rule. destruct (parse_rule c11 m def) as [(nm & e)| |] eqn:E1; try discriminate.
      apply (parse_rule_ok c11 c11_fits) in E1.
      rewrite (parse_rule_complete cfg Fg n def nm e E1 L). auto.
    - unfold add_import. destruct (rebuild c11 m name) as [nm| |] eqn:E1; try discriminate.
      apply (rebuild_ok c11 c11_fits) in E1 as (rest & -> & W & N).
      rewrite (rebuild_complete cfg Fg n nm rest W N) by lia. auto. }
  destruct (add_decl c11 m g d) as [g1| |]; try discriminate.
  rewrite (A g1 eq_refl). eauto.
Qed.

Lemma start_any : forall cfg n m s name, grammar_fits cfg -> (length s < n)%nat ->
  rebuild c11 m s = Ok name -> rebuild cfg n s = Ok name.
Proof.
  intros cfg n m s name Fg L E.
  apply (rebuild_ok c11 c11_fits) in E as (rest & -> & W & N).
  apply (rebuild_complete cfg Fg n name rest W N). auto.
Qed.

Definition metaparse_like (front plus mult arg : mf1) (int_p : pexpr) : list decl :=
  [Import (literal "int_token") int_p;
   Rule ws_rule None;
   Rule (literal "plus_token ::= '+' ws") (Some front);
   Rule (literal "minus_token ::= '-' ws") (Some front);
   Rule (literal "mult_token ::= '*' ws") (Some front);
   Rule (literal "div_token ::= '/' ws") (Some front);
   Rule (literal "arg_token ::= '_' ws") (Some front);
   Rule (literal "plus_exp ::= prod_exp ((plus_token | minus_token) prod_exp)*") (Some plus);
   Rule (literal "prod_exp ::= value_exp ((mult_token | div_token) value_exp)*") (Some mult);
   Rule (literal "value_exp ::= int_token | arg_exp") None;
   Rule (literal "arg_exp ::= arg_token") (Some arg)].

Definition calculator_like (int_a front plus mult : mf1) : list decl :=
  [Rule (literal "int ::= ('0'|'1'|'2'|'3'|'4'|'5'|'6'|'7'|'8'|'9')+") (Some int_a);
   Rule ws_rule None;
   Rule (literal "int_token ::= int ws") (Some front);
   Rule (literal "plus_token ::= '+' ws") (Some front);
   Rule (literal "minus_token ::= '-' ws") (Some front);
   Rule (literal "mult_token ::= '*' ws") (Some front);
   Rule (literal "div_token ::= '/' ws") (Some front);
   Rule (literal "plus_token ::= '+' ws") None;
   Rule (literal "plus_exp ::= prod_exp ((plus_token | minus_token) prod_exp)*") (Some plus);
   Rule (literal "prod_exp ::= int_token ((mult_token | div_token) int_token)*") (Some mult)].

(** What the grammars are instantiated to *)
Definition e_ws : pexpr := PRepeated (POneOf [POneOf [POneOf [PLitC 32; PLitC 10]; PLitC 13]; PLitC 9]).
Definition e_token (front : mf1) (c : char) : pexpr := PTransform (PSequence [PLitC c; e_ws]) front.
Definition e_chain (front action : mf1) (c d : char) (p : pexpr) : pexpr :=
  PTransform (PSequence [p; PRepeated (PSequence [POneOf [e_token front c; e_token front d]; p])]) action.
Definition e_metaparse (front plus mult arg : mf1) (int_p : pexpr) : pexpr :=
  e_chain front plus 43 45 (e_chain front mult 42 47
    (POneOf [int_p; PTransform (e_token front 95) arg])).
Definition e_digits : pexpr :=
  PRepeated1 (POneOf [POneOf [POneOf [POneOf [POneOf [POneOf [POneOf [POneOf [POneOf
    [PLitC 48; PLitC 49]; PLitC 50]; PLitC 51]; PLitC 52]; PLitC 53]; PLitC 54]; PLitC 55]; PLitC 56]; PLitC 57]).
Definition e_calculator (int_a front plus mult : mf1) : pexpr :=
  e_chain front plus 43 45 (e_chain front mult 42 47
    (PTransform (PSequence [PTransform e_digits int_a; e_ws]) front)).

Lemma metaparse_grammar : forall front plus mult arg int_p, exists g,
  add_decls c11 300 (empty_grammar (literal "plus_exp")) (metaparse_like front plus mult arg int_p) = Ok g
  /\ g_start g = literal "plus_exp"
  /\ forall n, instantiate g (7 + n) (GName (literal "plus_exp")) = Ok (e_metaparse front plus mult arg int_p).
Proof.
  intros. eexists. split; [vm_compute; reflexivity|]. split; [reflexivity|].
  intros n. vm_compute. reflexivity.
Qed.

Lemma calculator_grammar : forall int_a front plus mult, exists g,
  add_decls c11 300 (empty_grammar (literal "plus_exp")) (calculator_like int_a front plus mult) = Ok g
  /\ g_start g = literal "plus_exp"
  /\ forall n, instantiate g (7 + n) (GName (literal "plus_exp")) = Ok (e_calculator int_a front plus mult).
Proof.
  intros. eexists. split; [vm_compute; reflexivity|]. split; [reflexivity|].
  intros n. vm_compute. reflexivity.
Qed.

Definition short_decls (ds : list decl) : bool :=
  forallb (fun d => Nat.leb (2 * length (decl_text d) + 4) 149) ds.

Lemma entire_grammar_eq : forall cfg n start ds g e s ps, grammar_fits cfg -> (150 <= n)%nat ->
  (length start < 150)%nat -> short_decls ds = true ->
  add_decls c11 300 (empty_grammar start) ds = Ok g -> g_start g = start -> rebuild c11 300 start = Ok start ->
  (forall k, instantiate g (7 + k) (GName start) = Ok e) ->
  entire_grammar cfg n start ds s ps
  = entire_input cfg (eval cfg no_program n e) end_of_input_expected s ps.
Proof.
  intros cfg n start ds g e s ps Fg L Ls Sh A G R I. unfold entire_grammar.
  assert (F : Forall (fun d => (2 * length (decl_text d) + 4 < n)%nat) ds).
  { apply Forall_forall. intros d H. unfold short_decls in Sh. rewrite forallb_forall in Sh.
    specialize (Sh d H). apply Nat.leb_le in Sh. lia. }
  rewrite (add_decls_any cfg n 300 ds _ _ Fg F A).
  assert (Fs : fits_sequence cfg 2).
  { intros H. destruct Fg as (_ & Fs & _). specialize (Fs H). lia. }
  rewrite !entire_input_spec by auto. unfold grammar_parser. rewrite G.
  rewrite (start_any cfg n 300 start start Fg) by (auto; lia).
  replace n with (7 + (n - 7))%nat at 1 by lia. rewrite I. reflexivity.
Qed.

Lemma grammar_fun_fits : forall cfg, grammar_fits cfg -> fun_fits cfg.
Proof.
  intros cfg (Fo & Fs & _). split; intros H; [specialize (Fo H)|specialize (Fs H)]; lia.
Qed.

(** The tokens of grammars *)
Lemma pairs_reads_ops : forall cfg n o1 o2, fun_fits cfg -> o1 <> o2 ->
  reads_ops n o1 o2 (one_of cfg
    [transform (sequence cfg [lit_c (op_of o1); repeated n (ws_char cfg)]) seq_front;
     transform (sequence cfg [lit_c (op_of o2); repeated n (ws_char cfg)]) seq_front]).
Proof.
  intros cfg n o1 o2 (Fo & Fs) Ne.
  apply ops_of_tokens; auto; apply pair_reads_token; auto; apply ws_reads; auto.
Qed.

Lemma token_int_reads : forall cfg env n arg, fits_sequence cfg 2 ->
  reads_number n (dfun arg) (eval cfg env n (PToken (PTransform PInt fun_value))).
Proof.
  intros cfg env n arg Fs.
  assert (E : eval cfg env n (PToken (PTransform PInt fun_value)) = token cfg n (transform (int_ n) fun_value)).
  { destruct n; reflexivity. }
  rewrite E. split.
  - intros ds w t s ps (-> & (Ne & F) & Fw & Nd & Ns) L. rewrite !app_length in L. cbn [dfun].
    destruct (is_int_dec (decimal ds)) as [I|I].
    + rewrite int_constant_some by auto. apply (is_int_max ds F) in I.
      exists (adv (adv ps ds) w). apply token_accept; auto. exists (w ++ t), (adv ps ds), w.
      splits; auto; try slia; try apply walk_adv.
      assert (A : int_ n (ds ++ w ++ t) ps = Accept (VInt (decimal ds)) (w ++ t) (adv ps ds)).
      { apply int_accept. exists ds. splits; auto; try slia. apply walk_adv. }
      unfold transform. rewrite A. reflexivity.
    + rewrite int_constant_none by auto. rewrite (is_int_max ds F) in I.
      unfold token. rewrite first_of_2 by auto. unfold transform.
      rewrite int_overflow; auto; slia.
  - intros s ps N. exists digit_expected. apply token_reject; auto. unfold transform.
    assert (R : int_ n s ps = Reject digit_expected ps) by (apply int_reject; auto).
    rewrite R. auto.
Qed.

Lemma metaparse_verdict : forall cfg n, grammar_fits cfg -> (150 <= n)%nat ->
  verdict n (exp_text true) (dfun (VTmpl 6 [VChar 95])) (metaparse_parser cfg n).
Proof.
  intros cfg n Fg Ln. pose proof (grammar_fun_fits cfg Fg) as (Fo & Fs).
  destruct (metaparse_grammar seq_front (fold_tail build_plus) (fold_tail build_mult) build_arg
    (PToken (PTransform PInt fun_value))) as (g & A & G & I).
  set (tok := fun c => transform (sequence cfg [lit_c c; repeated n (ws_char cfg)]) seq_front).
  set (value := one_of cfg [eval cfg no_program n (PToken (PTransform PInt fun_value));
    transform (tok 95) build_arg]).
  assert (E : forall s ps, metaparse_parser cfg n s ps = entire_input cfg
    (list_sum cfg n build_mult build_plus (one_of cfg [tok (op_of Mul); tok (op_of Div)])
       (one_of cfg [tok (op_of Add); tok (op_of Sub)]) value) end_of_input_expected s ps).
  { intros s ps. unfold metaparse_parser.
    change metaparse_decls with (metaparse_like seq_front (fold_tail build_plus) (fold_tail build_mult)
      build_arg (PToken (PTransform PInt fun_value))).
    rewrite (fun H1 H2 H3 => entire_grammar_eq cfg n _ _ g _ s ps Fg Ln H1 H2 A G H3 I);
      [destruct n; reflexivity | vm_compute; lia | reflexivity | reflexivity]. }
  assert (V : verdict n (exp_text true) (dfun (VTmpl 6 [VChar 95])) (entire_input cfg
    (list_sum cfg n build_mult build_plus (one_of cfg [tok (op_of Mul); tok (op_of Div)])
       (one_of cfg [tok (op_of Add); tok (op_of Sub)]) value) end_of_input_expected)).
  { assert (Hv : reads_number n (dfun (VTmpl 6 [VChar 95]))
      (eval cfg no_program n (PToken (PTransform PInt fun_value)))) by (apply token_int_reads; auto).
    assert (Hq : reads_token n 95 (VTmpl 6 [VChar 95]) (transform (tok 95) build_arg)).
    { eapply transform_reads_token; [apply pair_reads_token; auto; apply ws_reads; auto|reflexivity]. }
    apply entire_verdict; auto; [apply list_sum_complete | apply list_sum_sound]; auto;
      try (intros; eapply build_op; eauto; fail); try (intros; apply dfun_strict; auto; fail);
      try (apply pairs_reads_ops; [split; auto|discriminate]).
    - eapply operand_complete; eauto. reflexivity.
    - eapply operand_sound; eauto. reflexivity. }
  intros s ps L. rewrite E. apply V. auto.
Qed.

(** *** grammar_calculator *)

Lemma mpl_zop : forall x y,
  mpl_times (VInt x) (VInt y) = option_map VInt (zop Mul x y)
  /\ mpl_divides (VInt x) (VInt y) = option_map VInt (zop Div x y)
  /\ mpl_plus (VInt x) (VInt y) = option_map VInt (zop Add x y)
  /\ mpl_minus (VInt x) (VInt y) = option_map VInt (zop Sub x y).
Proof. intros x y. rewrite !zop_arith. repeat split. Qed.

Lemma eager_pair : forall o x y (t f : mf2) c, op_of o = c \/ op_of (partner o) = c ->
  t (VInt x) (VInt y) = option_map VInt (zop (if op_of o =? c then o else partner o) x y) ->
  f (VInt x) (VInt y) = option_map VInt (zop (if op_of o =? c then partner o else o) x y) ->
  eager_by_front c t f (VInt x) (VSeq [VChar (op_of o); VInt y]) = option_map VInt (eager_op o x y).
Proof.
  intros o x y t f c C T F. unfold eager_by_front. cbn [front_is_c seq_front seq_back last as_int].
  rewrite T, F. unfold eager_op. destruct (op_of o =? c);
    destruct (zop o x y), (zop (partner o) x y); reflexivity.
Qed.

Lemma eager_ok : calc_op eager_op Mul Div (eager_by_front 42 mpl_times mpl_divides)
  /\ calc_op eager_op Add Sub (eager_by_front 43 mpl_plus mpl_minus).
Proof.
  split; intros o x y O; destruct (mpl_zop x y) as (Hm & Hd & Hp & Hs);
    destruct O as [-> | ->]; apply eager_pair; simpl; auto.
Qed.

Lemma digits_reads : forall cfg n, fun_fits cfg -> reads_number n (dcalc eager_op)
  (transform (sequence cfg [transform (repeated1 n (digit_choice cfg)) int_action; repeated n (ws_char cfg)])
     seq_front).
Proof.
  intros cfg n (Fo & Fs). split.
  - intros ds w t s ps (-> & (Ne & F) & Fw & Nd & Ns) L. rewrite !app_length in L. rewrite dcalc_num.
    destruct ds as [|c ds]; [congruence|].
    assert (E : transform (repeated1 n (digit_choice cfg)) int_action ((c :: ds) ++ w ++ t) ps
      = match int_constant (decimal (c :: ds)) with
        | Some v => Accept v (w ++ t) (adv ps (c :: ds)) | None => Illformed end).
    { unfold transform.
      rewrite (repeated1_reads _ _ n (c :: ds) (w ++ t) ps (digit_choice_reads cfg Fo)) by (auto; slia).
      change (int_action (VSeq (map VChar (c :: ds)))) with (mpl_fold add_digit (map VChar (c :: ds)) (VInt 0)).
      rewrite int_action_fold by (auto; lia). reflexivity. }
    destruct (is_int_dec (decimal (c :: ds))) as [I|I].
    + rewrite int_constant_some in * by auto. eexists.
      unfold transform at 1. rewrite (sequence_2 cfg Fs), E.
      rewrite (repeated_reads _ _ n w t _ (ws_reads cfg Fo)) by (auto; slia). reflexivity.
    + rewrite int_constant_none in * by auto.
      unfold transform at 1. rewrite (sequence_2 cfg Fs), E. reflexivity.
  - intros s ps N. destruct (proj2 (digit_choice_reads cfg Fo) s ps N) as (m & R). exists m.
    unfold transform at 1. rewrite (sequence_2 cfg Fs). unfold transform, repeated1, foldl1. rewrite R. auto.
Qed.

Lemma grammar_calculator_verdict : forall cfg n, grammar_fits cfg -> (150 <= n)%nat ->
  verdict n (exp_text false) (dcalc eager_op) (grammar_calculator cfg n).
Proof.
  intros cfg n Fg Ln. pose proof (grammar_fun_fits cfg Fg) as FF. destruct FF as (Fo & Fs).
  destruct (calculator_grammar int_action seq_front plus_action prod_action) as (g & A & G & I).
  set (tok := fun c => transform (sequence cfg [lit_c c; repeated n (ws_char cfg)]) seq_front).
  set (value := transform
    (sequence cfg [transform (repeated1 n (digit_choice cfg)) int_action; repeated n (ws_char cfg)]) seq_front).
  set (fm := eager_by_front 42 mpl_times mpl_divides). set (fp := eager_by_front 43 mpl_plus mpl_minus).
  assert (E : forall s ps, grammar_calculator cfg n s ps = entire_input cfg
    (list_sum cfg n fm fp (one_of cfg [tok (op_of Mul); tok (op_of Div)])
       (one_of cfg [tok (op_of Add); tok (op_of Sub)]) value) end_of_input_expected s ps).
  { intros s ps. unfold grammar_calculator.
    change calculator_decls with (calculator_like int_action seq_front plus_action prod_action).
    rewrite (fun H1 H2 H3 => entire_grammar_eq cfg n _ _ g _ s ps Fg Ln H1 H2 A G H3 I);
      [destruct n; reflexivity | vm_compute; lia | reflexivity | reflexivity]. }
  assert (V : verdict n (exp_text false) (dcalc eager_op) (entire_input cfg
    (list_sum cfg n fm fp (one_of cfg [tok (op_of Mul); tok (op_of Div)])
       (one_of cfg [tok (op_of Add); tok (op_of Sub)]) value) end_of_input_expected)).
  { assert (Hv : reads_number n (dcalc eager_op) value) by (apply digits_reads; split; auto).
    apply entire_verdict; auto; [apply list_sum_complete | apply list_sum_sound]; auto;
      try (intros; eapply dcalc_op; eauto; apply eager_ok; fail);
      try (intros; apply dcalc_strict; auto; fail);
      try (apply pairs_reads_ops; [split; auto|discriminate]).
    - apply number_complete; auto.
    - apply number_sound; auto. }
  intros s ps L. rewrite E. apply V. auto.
Qed.

(** *** Termination *)

Lemma function_terminates : forall cfg n s ps, enough n s ->
  eval cfg no_program n function_parser s ps <> OutOfFuel.
Proof.
  intros cfg n s ps En. apply calc_terminates; [left; reflexivity| |reflexivity|exact En].
  unfold function_parser, fun_plus_exp, fun_prod_exp, value_exp, arg_token. unfold_calc.
  every_solve; auto.
Qed.

Definition looping : pexpr -> Prop := every (loops_read nul0 rank0 1 0).

Lemma every_children : forall (Q : pexpr -> Prop) e, Q e -> Forall (every Q) (children e) -> every Q e.
Proof. intros Q e H F. apply every_intro; auto. intros c I. rewrite Forall_forall in F. auto. Qed.

Lemma looping_ws : looping e_ws.
Proof. unfold looping, e_ws. every_solve; auto. Qed.

Lemma looping_token : forall front c, looping (e_token front c).
Proof.
  intros front c. unfold looping, e_token. apply every_children; [exact Logic.I|].
  apply Forall_cons; [|apply Forall_nil].
  apply every_children; [exact Logic.I|]. 
  apply Forall_cons; [every_solve; auto|]. apply Forall_cons; [apply looping_ws|apply Forall_nil].
Qed.

Lemma looping_pair : forall p q, looping p -> looping q -> looping (PSequence [p; q]).
Proof. intros p q P Q. apply every_children; [exact Logic.I|]. repeat (apply Forall_cons; [assumption|]); apply Forall_nil. Qed.
Lemma looping_or : forall p q, looping p -> looping q -> looping (POneOf [p; q]).
Proof. intros p q P Q. apply every_children; [exact Logic.I|]. repeat (apply Forall_cons; [assumption|]); apply Forall_nil. Qed.
Lemma looping_transform : forall p f, looping p -> looping (PTransform p f).
Proof. intros p f P. apply every_children; [exact Logic.I|]. repeat (apply Forall_cons; [assumption|]); apply Forall_nil. Qed.
Lemma looping_repeated : forall p, looping p -> nullable nul0 p = false -> looping (PRepeated p).
Proof. intros p P N. apply every_children; [exact N|]. repeat (apply Forall_cons; [assumption|]); apply Forall_nil. Qed.

Lemma looping_chain : forall front action c d p, looping p -> nullable nul0 p = false ->
  looping (e_chain front action c d p).
Proof.
  intros front action c d p P N. unfold e_chain. apply looping_transform. apply looping_pair; auto.
  apply looping_repeated; [|reflexivity]. apply looping_pair; auto. apply looping_or; apply looping_token.
Qed.

Lemma looping_entire : forall p m, looping p -> looping (PEntireInput p m).
Proof. intros p m P. apply every_children; [exact Logic.I|]. repeat (apply Forall_cons; [assumption|]); apply Forall_nil. Qed.

Lemma metaparse_terminates : forall cfg n s ps, grammar_fits cfg -> (150 <= n)%nat -> enough n s ->
  metaparse_parser cfg n s ps <> OutOfFuel.
Proof.
  intros cfg n s ps Fg Ln En.
  destruct (metaparse_grammar seq_front (fold_tail build_plus) (fold_tail build_mult) build_arg
    (PToken (PTransform PInt fun_value))) as (g & A & G & I).
  unfold metaparse_parser.
  change metaparse_decls with (metaparse_like seq_front (fold_tail build_plus) (fold_tail build_mult)
      build_arg (PToken (PTransform PInt fun_value))).
  rewrite (fun H1 H2 H3 => entire_grammar_eq cfg n _ _ g _ s ps Fg Ln H1 H2 A G H3 I);
    [ | vm_compute; lia | reflexivity | reflexivity].
  assert (Q : forall p, entire_input cfg (eval cfg no_program n p) end_of_input_expected s ps
    = eval cfg no_program n (PEntireInput p end_of_input_expected) s ps) by (destruct n; reflexivity).
  rewrite Q. clear A G I Q g.
  apply calc_terminates; [left; reflexivity| |reflexivity|exact En].
  apply looping_entire. repeat (apply looping_chain; [|reflexivity]).
  apply looping_or; [|apply looping_transform, looping_token]. unfold looping. every_solve; auto.
Qed.

Lemma grammar_calculator_terminates : forall cfg n s ps, grammar_fits cfg -> (150 <= n)%nat -> enough n s ->
  grammar_calculator cfg n s ps <> OutOfFuel.
Proof.
  intros cfg n s ps Fg Ln En.
  destruct (calculator_grammar int_action seq_front plus_action prod_action) as (g & A & G & I).
  unfold grammar_calculator.
  change calculator_decls with (calculator_like int_action seq_front plus_action prod_action).
  rewrite (fun H1 H2 H3 => entire_grammar_eq cfg n _ _ g _ s ps Fg Ln H1 H2 A G H3 I);
    [ | vm_compute; lia | reflexivity | reflexivity].
  assert (Q : forall p, entire_input cfg (eval cfg no_program n p) end_of_input_expected s ps
    = eval cfg no_program n (PEntireInput p end_of_input_expected) s ps) by (destruct n; reflexivity).
  rewrite Q. clear A G I Q g.
  apply calc_terminates; [left; reflexivity| |reflexivity|exact En].
  apply looping_entire. repeat (apply looping_chain; [|reflexivity]).
  apply looping_transform, looping_pair; [|apply looping_ws].
  apply looping_transform. unfold looping, e_digits. every_solve; auto.
Qed.
