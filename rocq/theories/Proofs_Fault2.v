(** Proofs about how texts of formulas go on. *)

From Coq Require Import ZArith List Bool Lia.
From Verif Require Import Base Util Deep Spec SpecCalc SpecRules SpecPrecedence SpecGrouping SpecFormula
  SpecGroupedFormula SpecFault.
Import ListNotations.
Open Scope Z_scope.

Section Scan.
Variable ls : list (grouping * (list char * mf2)).
Variable signs : list char.
Definition operator_of (c : char) : Prop := exists g cs f, In (g, (cs, f)) ls /\ In c cs.
Hypothesis LO : forall c, operator_of c -> ~ space_char c /\ ~ digit_char c /\ c <> 40 /\ c <> 41.
Hypothesis LS : forall c, In c signs -> ~ space_char c /\ ~ digit_char c /\ c <> 40 /\ c <> 41.

(** What is before: nothing or the beginning of an operand, a number, or an operand and
    white space. *)
Inductive state := Wanted | Number | Done.
Inductive step : state -> char -> state -> Prop :=
| st_digit c : digit_char c -> step Wanted c Number
| st_digits c : digit_char c -> step Number c Number
| st_blank c : space_char c -> step Wanted c Wanted
| st_space q c : space_char c -> q <> Wanted -> step q c Done
| st_open : step Wanted 40 Wanted
| st_sign c : In c signs -> step Wanted c Wanted
| st_close q : q <> Wanted -> step q 41 Done
| st_op q c : operator_of c -> q <> Wanted -> step q c Wanted.
Inductive steps : state -> str -> state -> Prop :=
| sts_nil q : steps q [] q
| sts_cons q c q1 s q2 : step q c q1 -> steps q1 s q2 -> steps q (c :: s) q2.

Lemma steps_app : forall s t q q2, steps q (s ++ t) q2 <-> exists q1, steps q s q1 /\ steps q1 t q2.
Proof.
  induction s as [|c s IH]; intros t q q2; cbn [app]; split.
  - intros H. exists q. split; [constructor|exact H].
  - intros (q1 & A & B). inversion A; subst. exact B.
  - intros H. inversion H; subst. match goal with X : steps _ (s ++ t) _ |- _ => apply IH in X as (q' & A & B) end.
    exists q'. split; [econstructor; eauto|exact B].
  - intros (q1 & A & B). inversion A; subst. econstructor; eauto. apply IH. eauto.
Qed.

Lemma step_one : forall q c q1 q2, step q c q1 -> step q c q2 -> q1 = q2.
Proof.
  assert (D : forall c, digit_char c -> ~ space_char c /\ c <> 40 /\ c <> 41).
  { unfold digit_char, space_char. intros c H. lia. }
  assert (B : ~ space_char 40 /\ ~ space_char 41) by (unfold space_char; lia).
  intros q c q1 q2 A A'. inversion A; subst; inversion A'; subst; try reflexivity; try congruence;
    try match goal with X : In _ signs |- _ => apply LS in X end;
    try match goal with X : operator_of _ |- _ => apply LO in X end;
    try match goal with X : digit_char _ |- _ => pose proof (D _ X) end; tauto.
Qed.
Lemma steps_one : forall s q q1 q2, steps q s q1 -> steps q s q2 -> q1 = q2.
Proof.
  induction s as [|c s IH]; intros q q1 q2 A A'; inversion A; subst; inversion A'; subst; [reflexivity|].
  match goal with X : step q c ?a, Y : step q c ?b |- _ => pose proof (step_one _ _ _ _ X Y); subst end. eauto.
Qed.

Lemma steps_spaces : forall sp q, Forall space_char sp ->
  steps q sp (match sp with [] => q | _ => match q with Wanted => Wanted | _ => Done end end).
Proof.
  induction sp as [|c sp IH]; intros q F; [constructor|]. inversion F; subst.
  destruct q.
  - specialize (IH Wanted H2). econstructor; [apply st_blank; assumption|]. destruct sp; exact IH.
  - specialize (IH Done H2). econstructor; [apply st_space; [assumption|discriminate]|]. destruct sp; exact IH.
  - specialize (IH Done H2). econstructor; [apply st_space; [assumption|discriminate]|]. destruct sp; exact IH.
Qed.
Lemma steps_digits : forall w, Forall digit_char w -> steps Number w Number.
Proof. induction w; intros F; [constructor|]. inversion F; subst. econstructor; [apply st_digits; assumption|auto]. Qed.

(** Texts of formulas are operands. *)
Lemma spells_steps : forall word : str -> value -> Prop, (forall w v, word w v -> w <> [] /\ Forall digit_char w) ->
  forall k a s, grouped_spells ls signs word k a s -> exists q, steps Wanted s q /\ q <> Wanted.
Proof.
  intros word WD k a s H.
  assert (SP : forall sp q, Forall space_char sp -> q <> Wanted -> exists q', steps q sp q' /\ q' <> Wanted).
  { intros sp q F N. eexists. split; [apply steps_spaces; exact F|]. destruct sp, q; congruence. }
  assert (SW : forall sp, Forall space_char sp -> steps Wanted sp Wanted).
  { intros sp F. pose proof (steps_spaces sp Wanted F) as X. destruct sp; exact X. }
  induction H as [k w v sp Hw F|k j g cs f c a b s1 sp s2 N I K H1 IH1 F H2 IH2
    |k c a sp s I F H IH|k a sp1 s sp2 F1 H IH F2].
  - destruct (WD w v Hw) as (NE & D). destruct w as [|c w]; [congruence|]. inversion D; subst.
    destruct (SP sp Number F ltac:(discriminate)) as (q & Q & NQ). exists q. split; [|exact NQ].
    cbn [app]. econstructor; [apply st_digit; assumption|]. apply steps_app. exists Number.
    split; [apply steps_digits; assumption|exact Q].
  - destruct IH1 as (q1 & S1 & N1). destruct IH2 as (q2 & S2 & N2). exists q2. split; [|exact N2].
    apply steps_app. exists q1. split; [exact S1|]. econstructor.
    + apply st_op; [|exact N1]. apply nth_error_In in N. do 3 eexists. eauto.
    + apply steps_app. exists Wanted. split; [exact (SW sp F)|exact S2].
  - destruct IH as (q & S1 & N1). exists q. split; [|exact N1]. econstructor; [apply st_sign; exact I|].
    apply steps_app. exists Wanted. split; [exact (SW sp F)|exact S1].
  - destruct IH as (q & S1 & N1). destruct (SP sp2 Done F2 ltac:(discriminate)) as (q2 & S2 & N2).
    exists q2. split; [|exact N2]. econstructor; [apply st_open|].
    apply steps_app. exists Wanted. split; [exact (SW sp1 F1)|].
    apply steps_app. exists q. split; [exact S1|]. econstructor; [apply st_close; exact N1|exact S2].
Qed.

Lemma wanted_state : forall u q, operand_wanted ls signs u -> steps Wanted u q -> q = Wanted.
Proof.
  intros u q [->|(u0 & c & sp & -> & F & O)] S; [inversion S; reflexivity|].
  apply steps_app in S as (q0 & _ & S). inversion S; subst.
  match goal with X : step q0 c ?q1, Y : steps ?q1 sp q |- _ => assert (q1 = Wanted) as ->;
    [|pose proof (steps_spaces sp Wanted F) as Z; pose proof (steps_one _ _ _ _ Y Z); destruct sp; assumption] end.
  assert (D : ~ space_char c /\ ~ digit_char c /\ c <> 41).
  { destruct O as [->|[O|O]]; [unfold space_char, digit_char; lia|apply LS in O; tauto|apply LO in O; tauto]. }
  match goal with X : step q0 c _ |- _ => inversion X; subst end; tauto.
Qed.

Lemma last_digit : forall u q, u <> [] -> steps q u Number -> exists u0 c, u = u0 ++ [c] /\ digit_char c.
Proof.
  intros u q N S. destruct (exists_last N) as (u0 & c & ->). exists u0, c. split; [reflexivity|].
  apply steps_app in S as (q0 & _ & S). inversion S; subst.
  match goal with X : steps _ [] _ |- _ => inversion X; subst end.
  match goal with X : step _ _ Number |- _ => inversion X; subst; assumption end.
Qed.

(** ** Brackets *)
Definition weight (c : char) : Z := if c =? 40 then 1 else if c =? 41 then -1 else 0.
Fixpoint balance (s : str) : Z := match s with [] => 0 | c :: s' => weight c + balance s' end.
Fixpoint low (s : str) : Z := match s with [] => 0 | c :: s' => Z.min 0 (weight c + low s') end.
Lemma balance_app : forall s t, balance (s ++ t) = balance s + balance t.
Proof. induction s as [|c s IH]; intros t; cbn [app balance]; [reflexivity|rewrite IH; lia]. Qed.
Lemma low_app : forall s t, low (s ++ t) = Z.min (low s) (balance s + low t).
Proof.
  assert (L : forall t, low t <= 0) by (induction t; cbn; lia).
  induction s as [|c s IH]; intros t; cbn [app balance low]; [specialize (L t); lia|rewrite IH; lia].
Qed.
Lemma low_balance : forall s, low s <= balance s.
Proof. induction s as [|c s IH]; cbn; lia. Qed.
Lemma plain_low : forall s, Forall (fun c => c <> 40 /\ c <> 41) s -> balance s = 0 /\ low s = 0.
Proof.
  induction s as [|c s IH]; intros F; [split; reflexivity|]. inversion F; subst.
  destruct (IH H2) as (A & B). cbn. unfold weight. destruct H1 as (X & Y).
  apply Z.eqb_neq in X, Y. rewrite X, Y, A, B. split; reflexivity.
Qed.
Lemma spaces_low : forall s, Forall space_char s -> balance s = 0 /\ low s = 0.
Proof. intros s F. apply plain_low. revert F. apply Forall_impl. unfold space_char. intros c H. lia. Qed.
Lemma spells_low : forall word : str -> value -> Prop, (forall w v, word w v -> w <> [] /\ Forall digit_char w) ->
  forall k a s, grouped_spells ls signs word k a s -> balance s = 0 /\ low s = 0.
Proof.
  intros word WD k a s H.
  assert (W : forall c, c <> 40 -> c <> 41 -> weight c = 0).
  { intros c X Y. unfold weight. apply Z.eqb_neq in X, Y. rewrite X, Y. reflexivity. }
  induction H as [k w v sp Hw F|k j g cs f c a b s1 sp s2 N I K H1 IH1 F H2 IH2
    |k c a sp s I F H IH|k a sp1 s sp2 F1 H IH F2].
  - destruct (WD w v Hw) as (_ & D). apply spaces_low in F.
    assert (X : balance w = 0 /\ low w = 0).
    { apply plain_low. revert D. apply Forall_impl. unfold digit_char. intros c X. lia. }
    rewrite balance_app, low_app. lia.
  - apply spaces_low in F. rewrite balance_app, low_app. cbn [balance low].
    rewrite balance_app, low_app. destruct (LO c) as (_ & _ & X & Y).
    { apply nth_error_In in N. do 3 eexists. eauto. }
    rewrite (W c X Y). lia.
  - apply spaces_low in F. cbn [balance low]. rewrite balance_app, low_app. destruct (LS c I) as (_ & _ & X & Y).
    rewrite (W c X Y). lia.
  - apply spaces_low in F1, F2. cbn [balance low]. rewrite balance_app, low_app, balance_app, low_app. cbn [balance low].
    change (weight 40) with 1. change (weight 41) with (-1). lia.
Qed.

(** ** How texts of formulas go on *)
Variable word : str -> value -> Prop.
Hypothesis WD : forall w v, word w v -> w <> [] /\ Forall digit_char w.

Lemma begins_step : forall u c, begins_formula ls signs word 0 (u ++ [c]) ->
  exists q q', steps Wanted u q /\ step q c q' /\ 0 <= low (u ++ [c]).
Proof.
  intros u c (a & t & S). rewrite <- app_assoc in S. cbn [app] in S.
  destruct (spells_steps word WD _ _ _ S) as (q & X & _). destruct (spells_low word WD _ _ _ S) as (_ & L).
  apply steps_app in X as (q0 & A & B). inversion B; subst. exists q0. eexists. split; [exact A|].
  split; [eassumption|]. change (u ++ c :: t) with (u ++ [c] ++ t) in L. rewrite app_assoc, low_app in L. lia.
Qed.

Lemma not_after_wanted : forall u c, operand_wanted ls signs u -> ~ digit_char c -> c <> 40 -> ~ In c signs ->
  ~ space_char c -> ~ begins_formula ls signs word 0 (u ++ [c]).
Proof.
  intros u c O D B S P X. apply begins_step in X as (q & q' & A & ST & _).
  apply (wanted_state u q O) in A. subst q. inversion ST; subst; tauto.
Qed.

Lemma not_after_formula : forall u0 a w c, grouped_spells ls signs word 0 a w -> steps Wanted u0 Wanted ->
  ~ operator_of c -> c <> 41 \/ u0 = [] -> ~ space_char c ->
  (digit_char c -> forall v d, u0 ++ w = v ++ [d] -> ~ digit_char d) ->
  ~ begins_formula ls signs word 0 ((u0 ++ w) ++ [c]).
Proof.
  intros u0 a w c S A0 O B P D X. apply begins_step in X as (q & q' & A & ST & L).
  destruct (spells_steps word WD _ _ _ S) as (q1 & A1 & N).
  assert (q = q1).
  { apply (steps_one (u0 ++ w) Wanted); [exact A|]. apply steps_app. eauto. }
  subst q1. inversion ST; subst; try tauto; try congruence.
  - assert (NE : u0 ++ w <> []).
    { intros E. rewrite E in A. inversion A. }
    destruct (last_digit _ _ NE A) as (v & d & E & DD). exact (D ltac:(assumption) v d E DD).
  - destruct B as [B| ->]; [congruence|]. cbn [app] in L. rewrite low_app in L.
    destruct (spells_low word WD _ _ _ S) as (BA & LA). cbn in L. unfold weight in L. cbn in L. lia.
Qed.
End Scan.
