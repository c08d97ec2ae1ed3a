(** Proofs about formulas read by nested folds. *)

From Coq Require Import ZArith List Bool Lia.
From Verif Require Import Base Util Deep Spec SpecRules SpecChoice SpecPrecedence SpecFormula
  Proofs_Pos Proofs_Laws Proofs_Rules Proofs_Layout Proofs_Choice Proofs_Precedence.
Import ListNotations.
Open Scope Z_scope.

Section Characters.
Variable sd : std.
Variable env : program.
Notation gives := (gives sd env).

Lemma lit_gives : forall c t ps, gives (PLitC c) (c :: t) ps (Accept (VChar c) t (adv ps [c])).
Proof.
  intros c t ps. destruct (lit_ex sd env c (c :: t) ps) as (o & G). assert (G' := G).
  apply lit_inv in G as [(u & E & ->)|(N & _)]; [|destruct (N t eq_refl)].
  injection E as ->. exact G'.
Qed.

Lemma token_after : forall p v sp t s ps ps1, Forall space_char sp -> not_starting_with space_char t ->
  gives p s ps (Accept v (sp ++ t) ps1) -> gives (PToken p) s ps (Accept v t (adv ps1 sp)).
Proof.
  intros p v sp t s ps ps1 F N G. eapply (g_first_of _ _ _ _ _ _ [_]).
  eapply in_turn_cons; [exact G|]. eapply in_turn_cons; [apply spaces_give; assumption|constructor].
Qed.

Lemma token_gives : forall c sp t ps, Forall space_char sp -> not_starting_with space_char t ->
  gives (PToken (PLitC c)) (c :: sp ++ t) ps (Accept (VChar c) t (adv (adv ps [c]) sp)).
Proof. intros. apply token_after; auto. apply lit_gives. Qed.

Lemma token_rejects : forall c s ps, not_starting_with (fun d => d = c) s ->
  exists m pe, gives (PToken (PLitC c)) s ps (Reject m pe).
Proof.
  intros c s ps N. destruct (token_ex sd env c s ps) as (o & G). assert (G' := G).
  apply token_inv in G as [(sp & t & -> & _)|(_ & m & ->)]; [destruct (N eq_refl)|eauto].
Qed.

Lemma token_characters : forall c, reads_characters sd env (PToken (PLitC c)) [c].
Proof.
  intros c. split.
  - intros d sp s ps [<-|[]] F N. eexists. apply token_gives; assumption.
  - intros s ps N. apply token_rejects. destruct s as [|d s]; [exact Logic.I|].
    cbn in *. intros ->. apply N. left. reflexivity.
Qed.

Lemma first_of_two : forall os o, is_accept o -> In o os ->
  (forall x, In x os -> x = o \/ is_reject x) -> first_accept os o.
Proof.
  intros os o A. split; [exact A|]. revert H H0.
  induction os as [|x os IH]; intros I N; [destruct I|].
  destruct (N x (or_introl eq_refl)) as [->|R].
  - exists [], os. split; [reflexivity|constructor].
  - destruct I as [->|I]; [exists [], os; split; [reflexivity|constructor]|].
    destruct (IH I (fun y Y => N y (or_intror Y))) as (os1 & os2 & -> & F).
    exists (x :: os1), os2. split; [reflexivity|constructor; assumption].
Qed.

Lemma operators_characters : forall cs, reads_characters sd env (char_operators cs) cs.
Proof.
  intros cs. split.
  - intros c sp s ps I F N.
    set (o := Accept (VChar c) s (adv (adv ps [c]) sp)).
    assert (K : forall ds, exists os, each sd env (map (fun d => PToken (PLitC d)) ds) (c :: sp ++ s) ps os
      /\ (forall x, In x os -> x = o \/ is_reject x) /\ (In c ds -> In o os)).
    { induction ds as [|d ds (os & E & A & B)].
      - exists []. split; [constructor|]. split; [intros x []|intros []].
      - destruct (Z.eq_dec d c) as [->|Q].
        + exists (o :: os). split; [constructor; [apply token_gives; assumption|exact E]|].
          split; [intros x [<-|X]; auto|intros _; left; reflexivity].
        + destruct (token_rejects d (c :: sp ++ s) ps) as (m & pe & R); [cbn; congruence|].
          exists (Reject m pe :: os). split; [constructor; assumption|].
          split; [intros x [<-|X]; auto; right; do 2 eexists; reflexivity|].
          intros [X|X]; [destruct (Q X)|right; auto]. }
    destruct (K cs) as (os & E & A & B). exists (adv (adv ps [c]) sp).
    eapply g_one_of; [exact E|]. apply first_of_two; auto. do 3 eexists. reflexivity.
  - intros s ps N. destruct (operators_ex sd env cs s ps) as (o & G). assert (G' := G).
    apply operators_inv in G as [(c & sp & t & I & -> & _)|(m & ->)]; [destruct (N I)|eauto].
Qed.

(** ** Words and brackets *)

Section Operand.
Variable ls : list (list char * mf2).
Variable signs : list char.
Variable sign : mf2.
Variable word : str -> value -> Prop.
Hypothesis P : proper ls signs word.
Variable p : pexpr.
Hypothesis W : reads_words ls word sd env p.

Lemma choice_first : forall q l s ps v s' ps',
  (forall r, In r l -> exists o, gives r s ps o) -> gives q s ps (Accept v s' ps') ->
  gives (POneOf (q :: l)) s ps (Accept v s' ps').
Proof.
  intros q l s ps v s' ps' H G. destruct (each_ex sd env l s ps H) as (os & E).
  eapply g_one_of; [constructor; [exact G|exact E]|].
  split; [do 3 eexists; reflexivity|]. exists [], os. split; [reflexivity|constructor].
Qed.
Lemma choice_second : forall q1 q2 l s ps v s' ps' m pe,
  (forall r, In r l -> exists o, gives r s ps o) -> gives q1 s ps (Reject m pe) ->
  gives q2 s ps (Accept v s' ps') -> gives (POneOf (q1 :: q2 :: l)) s ps (Accept v s' ps').
Proof.
  intros q1 q2 l s ps v s' ps' m pe H R G. destruct (each_ex sd env l s ps H) as (os & E).
  eapply g_one_of; [constructor; [exact R|constructor; [exact G|exact E]]|].
  split; [do 3 eexists; reflexivity|]. exists [Reject m pe], os. split; [reflexivity|].
  constructor; [do 2 eexists; reflexivity|constructor].
Qed.

Lemma after_word_space : forall s, after_word ls s -> not_starting_with space_char s.
Proof.
  intros s [->|(c & t & -> & [->|(cs & f & I & J)])]; cbn; auto.
  - unfold space_char. lia.
  - exact (proj1 (proj1 (proj2 P) cs f c I J)).
Qed.

Section Primary.
Variable more : list pexpr.
Hypothesis M : forall q, In q more -> forall s ps, exists o, gives q s ps o.

Lemma primary_word : forall w v sp s ps, word w v -> Forall space_char sp -> after_word ls s ->
  exists ps', gives (word_or_brackets p more) (w ++ sp ++ s) ps (Accept v s ps').
Proof.
  intros w v sp s ps Hw F A. destruct (proj1 W w v sp s ps Hw F A) as (q & G). exists q.
  apply choice_first; [|exact G]. intros r [<-|R]; [|apply M; exact R].
  destruct (proj1 P w v Hw) as (c & t & -> & _ & N & _).
  destruct (token_rejects 40 ((c :: t) ++ sp ++ s) ps) as (m & pe & R); [exact N|].
  eexists. apply g_middle_of_fails, breaks_off_here. exact R.
Qed.

Lemma primary_brackets : forall sp1 s v sp2 s' ps, Forall space_char sp1 -> Forall space_char sp2 ->
  not_starting_with space_char (s ++ 41 :: sp2 ++ s') -> not_starting_with space_char s' ->
  (forall ps, exists ps', gives (PRef 0) (s ++ 41 :: sp2 ++ s') ps (Accept v (41 :: sp2 ++ s') ps')) ->
  exists ps', gives (word_or_brackets p more) (40 :: sp1 ++ s ++ 41 :: sp2 ++ s') ps (Accept v s' ps').
Proof.
  intros sp1 s v sp2 s' ps F1 F2 N1 N2 G.
  destruct (proj2 W (sp1 ++ s ++ 41 :: sp2 ++ s') ps) as (m & pe & R).
  destruct (G (adv (adv ps [40]) sp1)) as (q & B).
  eexists. eapply choice_second; [|exact R|].
  - intros r Hr. apply M. exact Hr.
  - eapply g_middle_of. eapply in_turn_cons; [apply token_gives; assumption|].
    eapply in_turn_cons; [exact B|].
    eapply in_turn_cons; [apply token_gives; assumption|constructor].
Qed.
End Primary.

(** Closure of an operand parser under the three ways to write operands. *)
Definition operand_words (o : pexpr) : Prop :=
  forall w v sp s ps, word w v -> Forall space_char sp -> after_word ls s ->
  exists ps', gives o (w ++ sp ++ s) ps (Accept v s ps').
Definition operand_brackets (o : pexpr) : Prop :=
  forall sp1 s v sp2 s' ps, Forall space_char sp1 -> Forall space_char sp2 ->
  not_starting_with space_char (s ++ 41 :: sp2 ++ s') -> not_starting_with space_char s' ->
  (forall ps, exists ps', gives (PRef 0) (s ++ 41 :: sp2 ++ s') ps (Accept v (41 :: sp2 ++ s') ps')) ->
  exists ps', gives o (40 :: sp1 ++ s ++ 41 :: sp2 ++ s') ps (Accept v s' ps').
Definition operand_signs (o : pexpr) : Prop :=
  forall c sp s x v s' ps, In c signs -> Forall space_char sp -> not_starting_with space_char s ->
  sign x (VChar c) = Some v ->
  (forall ps, exists ps', gives o s ps (Accept x s' ps')) ->
  exists ps', gives o (c :: sp ++ s) ps (Accept v s' ps').

Lemma operand_closed : forall o, operand_parser signs sign sd env p o ->
  operand_words o /\ operand_brackets o /\ operand_signs o.
Proof.
  intros o H. destruct H as [more E M|q more C M].
  - split; [|split].
    + intros w v sp s ps. apply primary_word. exact M.
    + intros sp1 s v sp2 s' ps. apply primary_brackets. exact M.
    + intros c sp s x v s' ps I. rewrite E in I. destruct I.
  - destruct C as (CA & CR). split; [|split].
    + intros w v sp s ps Hw F A. destruct (primary_word more M w v sp s ps Hw F A) as (q1 & G).
      destruct (proj1 P w v Hw) as (c & t & -> & _ & _ & N).
      destruct (CR ((c :: t) ++ sp ++ s) ps N) as (m & pe & R).
      exists q1. eapply g_foldr_swp; [constructor|exact R|exact G|reflexivity].
    + intros sp1 s v sp2 s' ps F1 F2 N1 N2 B.
      destruct (primary_brackets more M sp1 s v sp2 s' ps F1 F2 N1 N2 B) as (q1 & G).
      destruct (CR (40 :: sp1 ++ s ++ 41 :: sp2 ++ s') ps) as (m & pe & R).
      { intros I. destruct (proj2 (proj2 P) 40 I) as (_ & X). apply X. reflexivity. }
      exists q1. eapply g_foldr_swp; [constructor|exact R|exact G|reflexivity].
    + intros c sp s x v s' ps I F N S B.
      destruct (CA c sp s ps I F N) as (q1 & G). destruct (B q1) as (q2 & G2).
      exists q2. inversion G2; subst. eapply g_foldr_swp.
      * eapply many_more; [exact G|eassumption].
      * eassumption.
      * eassumption.
      * cbn [rfold]. match goal with X : rfold _ _ _ = Some _ |- _ => rewrite X end. exact S.
Qed.

(** ** Formulas *)

Variable operand : pexpr.
Hypothesis OP : operand_parser signs sign sd env p operand.
Notation levels := (map char_level ls).
Notation reads := (reads_operations sd env operand levels).

(** The named parser 0 accepts what is followed by no operator. *)
Hypothesis FULL : forall s ps x s1 ps1 l s' ps' v,
  gives operand s ps (Accept x s1 ps1) -> reads s1 ps1 l s' ps' ->
  no_operator_follows sd env levels s' ps' -> value_of levels x l v ->
  gives (PRef 0) s ps (Accept v s' ps').

Lemma spells_starts : forall k a s, spells ls signs word k a s ->
  s <> [] /\ forall t, not_starting_with space_char (s ++ t).
Proof.
  intros k a s H. induction H as [k w v sp Hw F|k j cs f c a b s1 sp s2 N I K H1 IH1 F H2 IH2
    |k c a sp s I F H IH|k a sp1 s sp2 F1 H IH F2].
  - destruct (proj1 P w v Hw) as (c & t & -> & NS & _). split; [discriminate|]. intros u. exact NS.
  - destruct IH1 as (N1 & IH1). split.
    + destruct s1; [destruct (N1 eq_refl)|discriminate].
    + intros t. rewrite <- app_assoc. apply IH1.
  - split; [discriminate|]. intros t. exact (proj1 (proj2 (proj2 P) c I)).
  - split; [discriminate|]. intros t. cbn. unfold space_char. lia.
Qed.

Lemma reads_levels : forall s ps l s' ps', reads s ps l s' ps' ->
  forall i, In i l -> (level_of i < length ls)%nat.
Proof.
  intros s ps l s' ps' H. induction H; intros i I; [destruct I|]. destruct I as [<-|I]; [|auto].
  unfold level_of. cbn. rewrite <- (map_length char_level). apply nth_error_Some. congruence.
Qed.

Lemma stop_at : forall s ps, (s = [] \/ exists t, s = 41 :: t) -> no_operator_follows sd env levels s ps.
Proof.
  intros s ps S op f I. apply in_map_iff in I as ((cs & g) & E & I).
  injection E as <- <-. cbn [fst]. apply (proj2 (operators_characters cs)).
  destruct S as [->|(t & ->)]; [exact Logic.I|]. cbn. intros J.
  destruct (proj1 (proj2 P) cs g 41 I J) as (_ & X). apply X. reflexivity.
Qed.

Hypothesis DC : different_characters ls.

Lemma level_unique : forall j cs f cs' f' c, nth_error ls j = Some (cs, f) -> In c cs ->
  In (cs', f') ls -> In c cs' -> cs' = cs /\ f' = f.
Proof.
  revert DC. clear. induction ls as [|l ls' IH]; intros D j cs f cs' f' c N I I' J.
  - destruct I'.
  - destruct D as (D & D'). destruct j as [|j]; cbn in N.
    + injection N as ->. destruct I' as [E|I']; [injection E as -> ->; auto|].
      destruct (D c (cs', f') I I' J).
    + destruct I' as [->|I']; [|eapply IH; eauto].
      apply nth_error_In in N. destruct (D c (cs, f) J N I).
Qed.

Lemma formula_read : forall k a s, spells ls signs word k a s -> forall v, worth ls signs sign word a v ->
  forall s' ps, after_word ls s' ->
  exists x s1 ps1 l ps', gives operand (s ++ s') ps (Accept x s1 ps1) /\ reads s1 ps1 l s' ps'
    /\ (forall i, In i l -> (k <= level_of i)%nat) /\ value_of levels x l v.
Proof.
  destruct (operand_closed operand OP) as (OW & OB & OS).
  intros k a s H. induction H as [k w v0 sp Hw F|k j cs f c a b s1 sp s2 N I K H1 IH1 F H2 IH2
    |k c a sp s I F H IH|k a sp1 s sp2 F1 H IH F2]; intros v V s' ps A.
  - inversion V; subst. destruct (OW w v sp s' ps) as (q & G); auto.
    exists v, s', q, [], q. rewrite <- app_assoc. split; [exact G|].
    split; [constructor|]. split; [intros i []|constructor].
  - inversion V as [|cs' f' c' a' b' x y v' I1 I2 V1 V2 E|]; subst.
    destruct (level_unique j cs f cs' f' c N I I1 I2) as (-> & ->).
    rewrite <- app_assoc. cbn [app]. rewrite <- app_assoc.
    assert (N' : nth_error levels j = Some (char_level (cs, f))) by (apply map_nth_error; exact N).
    destruct (IH1 x V1 (c :: sp ++ s2 ++ s') ps) as (x1 & t1 & p1 & l1 & q1 & G1 & R1 & L1 & W1).
    { right. exists c, (sp ++ s2 ++ s'). split; [reflexivity|]. right. exists cs, f. auto. }
    destruct (proj1 (operators_characters cs) c sp (s2 ++ s') q1 I F
      (proj2 (spells_starts _ _ _ H2) s')) as (q2 & GO).
    destruct (IH2 y V2 s' q2 A) as (x2 & t2 & p2 & l2 & q3 & G2 & R2 & L2 & W2).
    exists x1, t1, p1, (l1 ++ (j, VChar c, x2) :: l2), q3.
    split; [exact G1|]. split; [|split].
    + apply reads_app. do 2 eexists. split; [exact R1|].
      eapply ro_more; [exact N'|exact GO|exact G2|exact R2].
    + intros i Hi. apply in_app_iff in Hi as [Hi|[<-|Hi]].
      * specialize (L1 i Hi). lia.
      * exact K.
      * specialize (L2 i Hi). lia.
    + eapply value_operator; [exact L1| |exact N'|exact W1|exact W2|exact E].
      intros i Hi. specialize (L2 i Hi). lia.
  - inversion V as [| |c' a' x v' I1 V1 E]; subst.
    assert (B : forall ps, exists ps', gives operand (s ++ s') ps (Accept x s' ps')).
    { intros q. destruct (IH x V1 s' q A) as (x1 & t1 & p1 & l & q1 & G & R & L & W1).
      assert (l = []) as ->.
      { destruct l as [|i l]; [reflexivity|]. specialize (L i (or_introl eq_refl)).
        pose proof (reads_levels _ _ _ _ _ R i (or_introl eq_refl)). lia. }
      inversion R; subst. inversion W1; subst; [eauto|].
      match goal with X : _ ++ _ :: _ = [] |- _ => destruct (app_cons_not_nil _ _ _ (eq_sym X)) end. }
    destruct (OS c sp (s ++ s') x v s' ps I F (proj2 (spells_starts _ _ _ H) s') E B) as (q & G).
    exists v, s', q, [], q. cbn [app]. rewrite <- app_assoc. split; [exact G|].
    split; [constructor|]. split; [intros i []|constructor].
  - assert (B : forall ps, exists ps', gives (PRef 0) (s ++ 41 :: sp2 ++ s') ps (Accept v (41 :: sp2 ++ s') ps')).
    { intros q. destruct (IH v V (41 :: sp2 ++ s') q) as (x1 & t1 & p1 & l & q1 & G & R & L & W1).
      { right. exists 41, (sp2 ++ s'). auto. }
      exists q1. eapply FULL; eauto. apply stop_at. right. eauto. }
    destruct (OB sp1 s v sp2 s' ps F1 F2 (proj2 (spells_starts _ _ _ H) _) (after_word_space _ A) B) as (q & G).
    exists v, s', q, [], q. cbn [app]. repeat rewrite <- app_assoc. cbn [app]. split; [exact G|].
    split; [constructor|]. split; [intros i []|constructor].
Qed.

Lemma formula_accepted : forall a s v, spells ls signs word 0 a s -> worth ls signs sign word a v ->
  forall s' ps, (s' = [] \/ exists t, s' = 41 :: t) ->
  exists ps', gives (PRef 0) (s ++ s') ps (Accept v s' ps').
Proof.
  intros a s v H V s' ps S.
  destruct (formula_read 0 a s H v V s' ps) as (x & s1 & ps1 & l & ps' & G & R & _ & W').
  { destruct S as [->|(t & ->)]; [left; reflexivity|right; eauto 6]. }
  exists ps'. eapply FULL; eauto. apply stop_at. exact S.
Qed.
End Operand.
End Characters.
