(** Proofs about formulas with operators that group to the left and to the right. *)

From Coq Require Import ZArith List Bool Lia.
From Verif Require Import Base Util Deep Spec SpecRules SpecChoice SpecPrecedence SpecGrouping
  SpecFormula SpecGroupedFormula Proofs_Pos Proofs_Laws Proofs_Rules Proofs_Layout Proofs_Choice
  Proofs_Precedence Proofs_Formula Proofs_Formula2 Proofs_Formula3 Proofs_Grouping Proofs_Grouping2.
Import ListNotations.
Open Scope Z_scope.

Section Grouped.
Variable sd : std.
Variable env : program.
Notation gives := (gives sd env).
Variable ls : list (grouping * (list char * mf2)).
Variable signs : list char.
Variable sign : mf2.
Variable word : str -> value -> Prop.
Variable p : pexpr.
Variable operand : pexpr.
Notation levels := (map char_level (map snd ls)).
Notation glevels := (map grouped_char_level ls).
Notation reads := (reads_operations sd env operand levels).

Lemma glevel_nth : forall j g cs f, nth_error ls j = Some (g, (cs, f)) ->
  nth_error levels j = Some (char_level (cs, f))
  /\ nth_error glevels j = Some (g, char_level (cs, f)) /\ nth_error (map snd ls) j = Some (cs, f).
Proof.
  intros j g cs f N. split; [|split].
  - apply map_nth_error. apply (map_nth_error snd) in N. exact N.
  - apply (map_nth_error grouped_char_level) in N. exact N.
  - apply (map_nth_error snd) in N. exact N.
Qed.

(** ** Texts of formulas are accepted *)

Section Accepted.
Hypothesis P : proper (map snd ls) signs word.
Hypothesis W : reads_words (map snd ls) word sd env p.
Hypothesis OP : operand_parser signs sign sd env p operand.
Hypothesis FULL : forall s ps x s1 ps1 l s' ps' v,
  gives operand s ps (Accept x s1 ps1) -> reads s1 ps1 l s' ps' ->
  no_operator_follows sd env levels s' ps' -> grouped_value glevels x l v ->
  gives (PRef 0) s ps (Accept v s' ps').

Lemma gspells_starts : forall k a s, grouped_spells ls signs word k a s ->
  s <> [] /\ forall t, not_starting_with space_char (s ++ t).
Proof.
  intros k a s H. induction H as [k w v sp Hw F|k j g cs f c a b s1 sp s2 N I K H1 IH1 F H2 IH2
    |k c a sp s I F H IH|k a sp1 s sp2 F1 H IH F2].
  - destruct (proj1 P w v Hw) as (c & t & -> & NS & _). split; [discriminate|]. intros u. exact NS.
  - destruct IH1 as (N1 & IH1). split.
    + destruct s1; [destruct (N1 eq_refl)|discriminate].
    + intros t. rewrite <- app_assoc. apply IH1.
  - split; [discriminate|]. intros t. exact (proj1 (proj2 (proj2 P) c I)).
  - split; [discriminate|]. intros t. cbn. unfold space_char. lia.
Qed.

Lemma table_unique : different_characters (map snd ls) ->
  forall j g cs f g' cs' f' c, nth_error ls j = Some (g, (cs, f)) -> In c cs ->
  In (g', (cs', f')) ls -> In c cs' -> g' = g /\ cs' = cs /\ f' = f.
Proof.
  clear. induction ls as [|l ls' IH]; intros D j g cs f g' cs' f' c N I I' J.
  - destruct I'.
  - destruct D as (D & D'). destruct j as [|j]; cbn in N.
    + injection N as ->. destruct I' as [E|I']; [injection E as -> -> ->; auto|].
      apply (in_map snd) in I'. destruct (D c (cs', f') I I' J).
    + destruct I' as [->|I']; [|eapply IH; eauto].
      apply nth_error_In in N. apply (in_map snd) in N. destruct (D c (cs, f) J N I).
Qed.
Hypothesis DC : different_characters (map snd ls).

Lemma gformula_read : forall k a s, grouped_spells ls signs word k a s -> forall v, grouped_worth ls signs sign word a v ->
  forall s' ps, after_word (map snd ls) s' ->
  exists x s1 ps1 l ps', gives operand (s ++ s') ps (Accept x s1 ps1) /\ reads s1 ps1 l s' ps'
    /\ (forall i, In i l -> (k <= level_of i)%nat) /\ grouped_value glevels x l v.
Proof.
  destruct (operand_closed sd env (map snd ls) signs sign word P p W operand OP) as (OW & OB & OS).
  intros k a s H. induction H as [k w v0 sp Hw F|k j g cs f c a b s1 sp s2 N I K H1 IH1 F H2 IH2
    |k c a sp s I F H IH|k a sp1 s sp2 F1 H IH F2]; intros v V s' ps A.
  - inversion V; subst. destruct (OW w v sp s' ps) as (q & G); auto.
    exists v, s', q, [], q. rewrite <- app_assoc. split; [exact G|].
    split; [constructor|]. split; [intros i []|constructor].
  - destruct (glevel_nth j g cs f N) as (N1 & N2 & N3).
    assert (X : exists x y, grouped_worth ls signs sign word a x /\ grouped_worth ls signs sign word b y
      /\ (g <> To_right /\ f x (VSeq [VChar c; y]) = Some v
          \/ g = To_right /\ f y (VSeq [x; VChar c]) = Some v)).
    { inversion V as [|g' cs' f' c' a' b' x y v' I1 G1 I2 V1 V2 E|cs' f' c' a' b' x y v' I1 I2 V1 V2 E|]; subst;
        destruct (table_unique DC j g cs f _ cs' f' c N I I1 I2) as (Q & -> & ->).
      - rewrite Q in G1. exists x, y. auto.
      - exists x, y. auto. }
    destruct X as (x & y & V1 & V2 & E).
    rewrite <- app_assoc. cbn [app]. rewrite <- app_assoc.
    destruct (IH1 x V1 (c :: sp ++ s2 ++ s') ps) as (x1 & t1 & p1 & l1 & q1 & G1 & R1 & L1 & W1).
    { right. exists c, (sp ++ s2 ++ s'). split; [reflexivity|]. right. exists cs, f.
      split; [|exact I]. eapply nth_error_In. exact N3. }
    destruct (proj1 (operators_characters sd env cs) c sp (s2 ++ s') q1 I F
      (proj2 (gspells_starts _ _ _ H2) s')) as (q2 & GO).
    destruct (IH2 y V2 s' q2 A) as (x2 & t2 & p2 & l2 & q3 & G2 & R2 & L2 & W2).
    exists x1, t1, p1, (l1 ++ (j, VChar c, x2) :: l2), q3.
    split; [exact G1|]. split; [|split].
    + apply reads_app. do 2 eexists. split; [exact R1|].
      eapply ro_more; [exact N1|exact GO|exact G2|exact R2].
    + intros i Hi. unfold left_side, right_side in *. apply in_app_iff in Hi as [Hi|[<-|Hi]].
      * specialize (L1 i Hi). destruct g; lia.
      * exact K.
      * specialize (L2 i Hi). destruct g; lia.
    + destruct E as [(Q & E)|(-> & E)].
      * eapply gv_left; [exact N2|exact Q| | |exact W1|exact W2|exact E];
          intros i Hi; [specialize (L1 i Hi)|specialize (L2 i Hi)];
          unfold left_side, right_side in *; destruct g; try lia; destruct (Q eq_refl).
      * eapply gv_right; [exact N2| | |exact W1|exact W2|exact E];
          intros i Hi; [specialize (L1 i Hi)|specialize (L2 i Hi)];
          unfold left_side, right_side in *; lia.
  - inversion V as [| | |c' a' x v' I1 V1 E]; subst.
    assert (B : forall ps, exists ps', gives operand (s ++ s') ps (Accept x s' ps')).
    { intros q. destruct (IH x V1 s' q A) as (x1 & t1 & p1 & l & q1 & G & R & L & W1).
      assert (l = []) as ->.
      { destruct l as [|i l]; [reflexivity|]. specialize (L i (or_introl eq_refl)).
        pose proof (reads_bound _ _ _ _ _ _ _ _ _ R i (or_introl eq_refl)) as B. rewrite !map_length in B. lia. }
      inversion R; subst. inversion W1; subst; [eauto| |];
        match goal with X : _ ++ _ :: _ = [] |- _ => destruct (app_cons_not_nil _ _ _ (eq_sym X)) end. }
    destruct (OS c sp (s ++ s') x v s' ps I F (proj2 (gspells_starts _ _ _ H) s') E B) as (q & G).
    exists v, s', q, [], q. cbn [app]. rewrite <- app_assoc. split; [exact G|].
    split; [constructor|]. split; [intros i []|constructor].
  - assert (B : forall ps, exists ps', gives (PRef 0) (s ++ 41 :: sp2 ++ s') ps (Accept v (41 :: sp2 ++ s') ps')).
    { intros q. destruct (IH v V (41 :: sp2 ++ s') q) as (x1 & t1 & p1 & l & q1 & G & R & L & W1).
      { right. exists 41, (sp2 ++ s'). auto. }
      exists q1. eapply FULL; eauto. apply (stop_at sd env (map snd ls) signs word P). right. eauto. }
    destruct (OB sp1 s v sp2 s' ps F1 F2 (proj2 (gspells_starts _ _ _ H) _) (after_word_space _ _ _ P _ A) B) as (q & G).
    exists v, s', q, [], q. cbn [app]. repeat rewrite <- app_assoc. cbn [app]. split; [exact G|].
    split; [constructor|]. split; [intros i []|constructor].
Qed.

Lemma gformula_accepted : forall a s v, grouped_spells ls signs word 0 a s -> grouped_worth ls signs sign word a v ->
  forall s' ps, (s' = [] \/ exists t, s' = 41 :: t) ->
  exists ps', gives (PRef 0) (s ++ s') ps (Accept v s' ps').
Proof.
  intros a s v H V s' ps S.
  destruct (gformula_read 0 a s H v V s' ps) as (x & s1 & ps1 & l & ps' & G & R & _ & W').
  { destruct S as [->|(t & ->)]; [left; reflexivity|right; eauto 6]. }
  exists ps'. eapply FULL; eauto. apply (stop_at sd env (map snd ls) signs word P). exact S.
Qed.
End Accepted.

(** ** Nothing else is accepted *)

Section Only.
Hypothesis W : only_words word sd env p.
Hypothesis OP : only_operands signs sign sd env p operand.
Hypothesis OUT : forall s ps v s' ps', gives (PRef 0) s ps (Accept v s' ps') ->
  exists x s1 ps1 l, gives operand s ps (Accept x s1 ps1) /\ reads s1 ps1 l s' ps'
    /\ grouped_value glevels x l v.

Definition gformula_at (k : nat) (s : str) (v : value) (s' : str) : Prop :=
  exists a u, s = u ++ s' /\ grouped_spells ls signs word k a u /\ grouped_worth ls signs sign word a v.

Lemma gspells_any : forall a u k, grouped_spells ls signs word (length ls) a u ->
  grouped_spells ls signs word k a u.
Proof.
  intros a u k H. inversion H; subst.
  - eapply gs_word; eauto.
  - match goal with N : nth_error ls ?j = Some _ |- _ =>
      assert (j < length ls)%nat by (apply nth_error_Some; congruence); lia end.
  - apply gs_sign; auto.
  - apply gs_brackets; auto.
Qed.

Lemma glevel_read : forall j o y l s1 ps1 s' ps' g op f,
  nth_error glevels j = Some (g, (op, f)) -> reads s1 ps1 ((j, o, y) :: l) s' ps' ->
  exists cs c sp sb q t r, nth_error ls j = Some (g, (cs, f)) /\ In c cs /\ s1 = c :: sp ++ sb
    /\ Forall space_char sp /\ o = VChar c /\ gives operand sb q (Accept y t r) /\ reads t r l s' ps'.
Proof.
  intros j o y l s1 ps1 s' ps' g op f N R. rewrite nth_error_map in N.
  destruct (nth_error ls j) as [(g' & cs & h)|] eqn:NL; [|discriminate N]. injection N as <- <- <-.
  inversion R; subst. destruct (glevel_nth j g' cs h NL) as (N1 & _ & _).
  match goal with X : nth_error levels j = Some (?op', ?f') |- _ =>
    rewrite N1 in X; injection X as <- <- end.
  match goal with X : gives (char_operators _) _ _ _ |- _ =>
    apply operators_only in X as (c & sp & I & -> & FS & ->) end.
  exists cs, c, sp. do 4 eexists. repeat split; eauto.
Qed.

Lemma gitems_formula : forall n,
  (forall s ps x s1 ps1, (length s < n)%nat -> gives operand s ps (Accept x s1 ps1) ->
     gformula_at (length ls) s x s1) ->
  forall x l v, grouped_value glevels x l v -> forall s ps s1 ps1 s' ps' k, (length s < n)%nat ->
  gives operand s ps (Accept x s1 ps1) -> reads s1 ps1 l s' ps' ->
  (forall i, In i l -> (k <= level_of i)%nat) -> gformula_at k s v s'.
Proof.
  intros n OI x l v V. induction V as [x|x l1 j o y l2 g op f a b v N Q H1 H2 A IA B IB F
    |x l1 j o y l2 op f a b v N H1 H2 A IA B IB F];
    intros s ps s1 ps1 s' ps' k L G R K.
  - inversion R; subst. destruct (OI _ _ _ _ _ L G) as (a & u & E & SP & WO).
    exists a, u. split; [exact E|]. split; [apply gspells_any; exact SP|exact WO].
  - apply reads_app in R as (sa & pa & R1 & R2).
    destruct (glevel_read _ _ _ _ _ _ _ _ _ _ _ N R2) as (cs & c & sp & sb & q & t & r & NL & I & -> & FS & -> & Y & Z).
    destruct (IA _ _ _ _ _ _ j L G R1 H1) as (fa & ua & -> & SA & WA).
    rewrite app_length in L. cbn [length] in L. rewrite app_length in L.
    assert (LB : (length sb < n)%nat) by lia.
    destruct (IB sb q t r _ _ (S j) LB Y Z H2) as (fb & ub & -> & SB & WB).
    exists (FOp c fa fb), (ua ++ c :: sp ++ ub). split; [|split].
    + rewrite <- app_assoc. cbn [app]. rewrite <- app_assoc. reflexivity.
    + eapply gs_op; eauto; try (destruct g; [exact SA|exact SA|destruct (Q eq_refl)]);
        try (destruct g; [exact SB|exact SB|destruct (Q eq_refl)]).
      apply (K (j, VChar c, y)). apply in_app_iff. right. left. reflexivity.
    + eapply gw_left; eauto. eapply nth_error_In. exact NL.
  - apply reads_app in R as (sa & pa & R1 & R2).
    destruct (glevel_read _ _ _ _ _ _ _ _ _ _ _ N R2) as (cs & c & sp & sb & q & t & r & NL & I & -> & FS & -> & Y & Z).
    destruct (IA _ _ _ _ _ _ (S j) L G R1 H1) as (fa & ua & -> & SA & WA).
    rewrite app_length in L. cbn [length] in L. rewrite app_length in L.
    assert (LB : (length sb < n)%nat) by lia.
    destruct (IB sb q t r _ _ j LB Y Z H2) as (fb & ub & -> & SB & WB).
    exists (FOp c fa fb), (ua ++ c :: sp ++ ub). split; [|split].
    + rewrite <- app_assoc. cbn [app]. rewrite <- app_assoc. reflexivity.
    + eapply gs_op; eauto.
      apply (K (j, VChar c, y)). apply in_app_iff. right. left. reflexivity.
    + eapply gw_right; eauto. eapply nth_error_In. exact NL.
Qed.

Lemma gprimary_formula : forall n more, (forall q, In q more -> accepts_nothing sd env q) ->
  (forall s ps x s1 ps1, (length s < n)%nat -> gives operand s ps (Accept x s1 ps1) ->
     gformula_at (length ls) s x s1) ->
  forall s ps x s1 ps1, (length s < S n)%nat ->
  gives (word_or_brackets p more) s ps (Accept x s1 ps1) -> gformula_at (length ls) s x s1.
Proof.
  intros n more M OI s ps x s1 ps1 L G. apply choice_accepts in G as (q & I & G).
  destruct I as [<-|[<-|I]].
  - apply W in G as (w & sp & -> & Hw & F). exists (FWord w), (w ++ sp).
    split; [rewrite app_assoc; reflexivity|]. split; [eapply gs_word; eauto|constructor; exact Hw].
  - inversion G; subst.
    repeat match goal with X : in_turn _ _ _ _ _ _ _ _ |- _ => inversion X; subst; clear X end.
    match goal with X : gives (PToken (PLitC 40)) _ _ _ |- _ =>
      apply token_only in X as (c & sp1 & [<-|[]] & -> & F1 & _) end.
    match goal with X : gives (PToken (PLitC 41)) _ _ _ |- _ =>
      apply token_only in X as (c & sp2 & [<-|[]] & -> & F2 & _) end.
    match goal with X : gives (PRef 0) _ _ _ |- _ => apply OUT in X as (y & t1 & q1 & l & Y & R & V) end.
    match goal with Y : gives operand ?t _ _ |- _ =>
      destruct (gitems_formula n OI y l x V t _ _ _ _ _ 0%nat
        ltac:(cbn in L; rewrite app_length in L; lia) Y R (fun i _ => Nat.le_0_l _)) as (a & u & -> & SP & WO) end.
    exists a, (40 :: sp1 ++ u ++ 41 :: sp2). split; [|split; [|exact WO]].
    + cbn [app]. repeat rewrite <- app_assoc. reflexivity.
    + apply gs_brackets; auto.
  - destruct (M q I _ _ _ _ _ G).
Qed.

Lemma goperand_formula : forall n s ps x s1 ps1, (length s < n)%nat ->
  gives operand s ps (Accept x s1 ps1) -> gformula_at (length ls) s x s1.
Proof.
  induction n as [|n IH]; intros s ps x s1 ps1 L G; [lia|].
  pose proof (fun more M => gprimary_formula n more M IH) as PF. clear IH.
  destruct OP as [more M|q more C M]; [exact (PF more M s ps x s1 ps1 L G)|].
  inversion G; subst.
  match goal with X : many _ _ q _ _ _ _ _, Y : gives (word_or_brackets _ _) _ _ _, Z : rfold _ _ _ = _ |- _ =>
    revert X Y Z end.
  clear G. match goal with |- many _ _ _ _ _ ?r ?t ?pt -> _ -> rfold _ _ ?v = _ -> _ =>
    generalize t, pt, v; generalize r; clear - PF C M L end.
  intros rs. revert s ps x L. induction rs as [|r rs IH]; intros s ps x L t pt v0 MA G R.
  - inversion MA; subst. cbn in R. injection R as ->. exact (PF more M _ _ _ _ _ L G).
  - inversion MA; subst. cbn [rfold] in R. destruct (rfold sign rs v0) as [y|] eqn:RY; [|discriminate R].
    match goal with X : gives q _ _ _ |- _ => apply C in X as (c & sp & I & -> & F & ->) end.
    match goal with X : many _ _ q ?s2 _ rs _ _ |- _ =>
      destruct (IH s2 _ y ltac:(cbn in L; rewrite app_length in L; lia) _ _ _ X G RY) as (a & u & -> & SP & WO) end.
    exists (FSign c a), (c :: sp ++ u). split; [cbn [app]; rewrite <- app_assoc; reflexivity|].
    split; [apply gs_sign; auto|eapply gw_sign; eauto].
Qed.

Lemma gonly_formulas : forall s ps v s' ps', gives (PRef 0) s ps (Accept v s' ps') ->
  gformula_at 0 s v s'.
Proof.
  intros s ps v s' ps' G. apply OUT in G as (x & s1 & ps1 & l & X & R & V).
  eapply (gitems_formula (S (length s))); eauto.
  - intros t pt y t1 pt1 L. apply (goperand_formula (S (length s))). exact L.
  - intros i _. apply Nat.le_0_l.
Qed.
End Only.
End Grouped.
