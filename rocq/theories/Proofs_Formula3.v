(** Proofs that nested folds accept nothing but formulas. *)

From Coq Require Import ZArith List Bool Lia.
From Verif Require Import Base Util Deep Spec SpecRules SpecChoice SpecPrecedence SpecFormula
  Proofs_Pos Proofs_Laws Proofs_Rules Proofs_Layout Proofs_Choice Proofs_Precedence Proofs_Parsers2
  Proofs_Final5 Proofs_Formula Proofs_Formula2.
Import ListNotations.
Open Scope Z_scope.

Section Only.
Variable sd : std.
Variable env : program.
Notation gives := (gives sd env).

Lemma token_of_inv : forall p s ps v s' ps', gives (PToken p) s ps (Accept v s' ps') ->
  exists sp ps1, gives p s ps (Accept v (sp ++ s') ps1) /\ Forall space_char sp.
Proof.
  intros p s ps v s' ps' G. inversion G; subst.
  repeat match goal with X : in_turn _ _ _ _ _ _ _ _ |- _ => inversion X; subst; clear X end.
  match goal with X : gives (PRepeated PSpace) _ _ _ |- _ => apply spaces_inv in X as (sp & t & -> & F & _ & E) end.
  injection E as -> -> ->. eauto.
Qed.

Lemma token_only : forall c, only_characters sd env (PToken (PLitC c)) [c].
Proof.
  intros c s ps v s' ps' G. apply token_of_inv in G as (sp & ps1 & G & F).
  apply lit_inv in G as [(t & -> & E)|(_ & m & E)]; [|discriminate E].
  injection E as -> <- _. exists c, sp. repeat split; auto. left. reflexivity.
Qed.

Lemma each_member : forall l s ps os o, each sd env l s ps os -> In o os ->
  exists p, In p l /\ gives p s ps o.
Proof.
  induction l as [|p l IH]; intros s ps os o E I; inversion E; subst; [destruct I|].
  destruct I as [<-|I]; [exists p; split; [left; reflexivity|assumption]|].
  match goal with X : each _ _ l _ _ _ |- _ => destruct (IH _ _ _ _ X I) as (q & Q & G) end.
  exists q. split; [right; exact Q|exact G].
Qed.
Lemma choice_accepts : forall l s ps v s' ps', gives (POneOf l) s ps (Accept v s' ps') ->
  exists p, In p l /\ gives p s ps (Accept v s' ps').
Proof.
  intros l s ps v s' ps' G. inversion G; subst.
  match goal with F : first_accept _ _, E : each _ _ _ _ _ _ |- _ =>
    destruct F as (_ & os1 & os2 & -> & _); apply (each_member _ _ _ _ _ E) end.
  apply in_app_iff. right. left. reflexivity.
Qed.

Lemma operators_only : forall cs, only_characters sd env (char_operators cs) cs.
Proof.
  intros cs s ps v s' ps' G. apply choice_accepts in G as (p & I & G).
  apply in_map_iff in I as (c & <- & I). apply token_only in G as (d & sp & [<-|[]] & E & F & V).
  exists c, sp. auto.
Qed.

Section Operand.
Variable ls : list (list char * mf2).
Variable signs : list char.
Variable sign : mf2.
Variable word : str -> value -> Prop.
Variable p : pexpr.
Hypothesis W : only_words word sd env p.
Variable operand : pexpr.
Hypothesis OP : only_operands signs sign sd env p operand.
Notation levels := (map char_level ls).
Notation reads := (reads_operations sd env operand levels).
Hypothesis OUT : forall s ps v s' ps', gives (PRef 0) s ps (Accept v s' ps') ->
  exists x s1 ps1 l, gives operand s ps (Accept x s1 ps1) /\ reads s1 ps1 l s' ps'
    /\ value_of levels x l v.

Definition formula_at (k : nat) (s : str) (v : value) (s' : str) : Prop :=
  exists a u, s = u ++ s' /\ spells ls signs word k a u /\ worth ls signs sign word a v.

Lemma spells_any : forall a u k, spells ls signs word (length ls) a u -> spells ls signs word k a u.
Proof.
  intros a u k H. inversion H; subst.
  - eapply spells_word; eauto.
  - match goal with N : nth_error ls ?j = Some _ |- _ =>
      assert (j < length ls)%nat by (apply nth_error_Some; congruence); lia end.
  - apply spells_sign; auto.
  - apply spells_brackets; auto.
Qed.

Lemma items_formula : forall n,
  (forall s ps x s1 ps1, (length s < n)%nat -> gives operand s ps (Accept x s1 ps1) ->
     formula_at (length ls) s x s1) ->
  forall x l v, value_of levels x l v -> forall s ps s1 ps1 s' ps' k, (length s < n)%nat ->
  gives operand s ps (Accept x s1 ps1) -> reads s1 ps1 l s' ps' ->
  (forall i, In i l -> (k <= level_of i)%nat) -> formula_at k s v s'.
Proof.
  intros n OI x l v V. induction V as [x|x l1 j o y l2 op f a b v H1 H2 N A IA B IB F];
    intros s ps s1 ps1 s' ps' k L G R K.
  - inversion R; subst. destruct (OI _ _ _ _ _ L G) as (a & u & E & SP & WO).
    exists a, u. split; [exact E|]. split; [apply spells_any; exact SP|exact WO].
  - apply reads_app in R as (sa & pa & R1 & R2). inversion R2; subst.
    match goal with X : nth_error levels j = Some (?op', ?f') |- _ =>
      rewrite N in X; injection X as <- <- end.
    destruct (IA _ _ _ _ _ _ j L G R1 H1) as (fa & ua & -> & SA & WA).
    assert (N' := N). rewrite nth_error_map in N. destruct (nth_error ls j) as [(cs & g)|] eqn:NL; [|discriminate N].
    injection N as <- <-.
    match goal with X : gives (char_operators _) _ _ _ |- _ =>
      apply operators_only in X as (c & sp & I & -> & FS & ->) end.
    rewrite app_length in L. cbn [length] in L. rewrite app_length in L.
    match goal with Y : gives operand ?sb ?q (Accept y ?t ?r), Z : reads ?t ?r l2 _ _ |- _ =>
      assert (LB : (length sb < n)%nat) by lia;
      destruct (IB sb q t r _ _ (S j) LB Y Z H2) as (fb & ub & EB & SB & WB) end.
    subst.
    exists (FOp c fa fb), (ua ++ c :: sp ++ ub). split; [|split].
    + rewrite <- app_assoc. cbn [app]. rewrite <- app_assoc. reflexivity.
    + eapply spells_op; eauto. apply (K (j, VChar c, y)). apply in_app_iff. right. left. reflexivity.
    + eapply worth_op; eauto. eapply nth_error_In. exact NL.
Qed.

Lemma primary_formula : forall n more, (forall q, In q more -> accepts_nothing sd env q) ->
  (forall s ps x s1 ps1, (length s < n)%nat -> gives operand s ps (Accept x s1 ps1) ->
     formula_at (length ls) s x s1) ->
  forall s ps x s1 ps1, (length s < S n)%nat ->
  gives (word_or_brackets p more) s ps (Accept x s1 ps1) -> formula_at (length ls) s x s1.
Proof.
  intros n more M OI s ps x s1 ps1 L G. apply choice_accepts in G as (q & I & G).
  destruct I as [<-|[<-|I]].
  - apply W in G as (w & sp & -> & Hw & F). exists (FWord w), (w ++ sp).
    split; [rewrite app_assoc; reflexivity|]. split; [eapply spells_word; eauto|constructor; exact Hw].
  - inversion G; subst.
    repeat match goal with X : in_turn _ _ _ _ _ _ _ _ |- _ => inversion X; subst; clear X end.
    match goal with X : gives (PToken (PLitC 40)) _ _ _ |- _ =>
      apply token_only in X as (c & sp1 & [<-|[]] & -> & F1 & _) end.
    match goal with X : gives (PToken (PLitC 41)) _ _ _ |- _ =>
      apply token_only in X as (c & sp2 & [<-|[]] & -> & F2 & _) end.
    match goal with X : gives (PRef 0) _ _ _ |- _ => apply OUT in X as (y & t1 & q1 & l & Y & R & V) end.
    match goal with Y : gives operand ?t _ _ |- _ =>
      destruct (items_formula n OI y l x V t _ _ _ _ _ 0%nat
        ltac:(cbn in L; rewrite app_length in L; lia) Y R (fun i _ => Nat.le_0_l _)) as (a & u & -> & SP & WO) end.
    exists a, (40 :: sp1 ++ u ++ 41 :: sp2). split; [|split; [|exact WO]].
    + cbn [app]. repeat rewrite <- app_assoc. reflexivity.
    + apply spells_brackets; auto.
  - destruct (M q I _ _ _ _ _ G).
Qed.

Lemma operand_formula : forall n s ps x s1 ps1, (length s < n)%nat ->
  gives operand s ps (Accept x s1 ps1) -> formula_at (length ls) s x s1.
Proof.
  induction n as [|n IH]; intros s ps x s1 ps1 L G; [lia|].
  pose proof (fun more M => primary_formula n more M IH) as PF. clear IH.
  destruct OP as [more M|q more C M]; [exact (PF more M s ps x s1 ps1 L G)|].
  inversion G; subst.
  match goal with X : many _ _ q _ _ _ _ _, Y : gives (word_or_brackets _ _) _ _ _, Z : rfold _ _ _ = _ |- _ =>
    revert X Y Z end.
  clear G. match goal with |- many _ _ _ _ _ ?r ?t ?pt -> _ -> rfold _ _ ?v = _ -> _ =>
    generalize t, pt, v; generalize r; clear - PF C M L end.
  intros rs. revert s ps x L. induction rs as [|r rs IH]; intros s ps x L t pt v0 MA G R.
  - inversion MA; subst. cbn in R. injection R as ->. exact (PF more M _ _ _ _ _ L G).
  - inversion MA; subst. cbn [rfold] in R. destruct (rfold sign rs v0) as [y|] eqn:RY; [|discriminate R].
    match goal with X : gives q _ _ _ |- _ => apply C in X as (c & sp & I & -> & F & ->) end.
    match goal with X : many _ _ q ?s2 _ rs _ _ |- _ =>
      destruct (IH s2 _ y ltac:(cbn in L; rewrite app_length in L; lia) _ _ _ X G RY) as (a & u & -> & SP & WO) end.
    exists (FSign c a), (c :: sp ++ u). split; [cbn [app]; rewrite <- app_assoc; reflexivity|].
    split; [apply spells_sign; auto|eapply worth_sign; eauto].
Qed.

Lemma only_formulas : forall s ps v s' ps', gives (PRef 0) s ps (Accept v s' ps') ->
  formula_at 0 s v s'.
Proof.
  intros s ps v s' ps' G. apply OUT in G as (x & s1 & ps1 & l & X & R & V).
  eapply (items_formula (S (length s))); eauto.
  - intros t pt y t1 pt1 L. apply (operand_formula (S (length s))). exact L.
  - intros i _. apply Nat.le_0_l.
Qed.
End Operand.

(** ** Numbers *)

Lemma digit_inv : forall s ps v s' ps', gives PDigit s ps (Accept v s' ps') ->
  exists c, digit_char c /\ s = c :: s' /\ v = VChar c.
Proof.
  intros s ps v s' ps' G. inversion G; subst.
  match goal with X : gives (PChangeErrorMessage _ _) _ _ _ |- _ => inversion X; subst end.
  match goal with X : gives POneChar _ _ _ |- _ => inversion X; subst end.
  match goal with X : is_digit _ = _ |- _ => apply in_digits in X end. eauto.
Qed.
Lemma digit_vals_inv : forall rs s ps s' ps', many sd env PDigitVal s ps rs s' ps' ->
  exists w, s = w ++ s' /\ Forall digit_char w /\ rs = map (fun c => VInt (c - 48)) w.
Proof.
  induction rs as [|r rs IH]; intros s ps s' ps' M; inversion M; subst; [exists []; auto|].
  match goal with X : many _ _ _ _ _ rs _ _ |- _ => destruct (IH _ _ _ _ X) as (w & -> & F & ->) end.
  match goal with X : gives PDigitVal _ _ _ |- _ => inversion X; subst end.
  match goal with X : gives PDigit _ _ _ |- _ => apply digit_inv in X as (c & D & -> & ->) end.
  match goal with X : digit_to_int _ = Some _ |- _ => unfold digit_to_int in X; cbn [as_int] in X;
    rewrite digit_to_int_value in X by exact D; injection X as <- end.
  exists (c :: w). auto.
Qed.
Lemma numbers_only : only_words number_word sd env (PToken PInt).
Proof.
  intros s ps v s' ps' G. apply token_of_inv in G as (sp & ps1 & G & F). inversion G; subst.
  match goal with X : many _ _ _ _ _ _ _ _ |- _ => apply digit_vals_inv in X as (w & -> & D & E) end.
  exists w, sp. split; [reflexivity|]. split; [|exact F].
  match goal with X : Some _ = Some _ |- _ => injection X as <- end.
  match goal with X : lfold _ _ _ = Some _ |- _ => rewrite E, lfold_next_digit in X by (auto; unfold int_max; lia);
    destruct (decimal_acc 0 w <=? int_max) eqn:Q; [injection X as <-|discriminate X] end.
  apply Z.leb_le in Q. repeat split; auto. intros ->. discriminate E.
Qed.
End Only.
