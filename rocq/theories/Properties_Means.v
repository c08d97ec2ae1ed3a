(** C92: LL(1) parsers compute the value of the only derivation. *)

From Coq Require Import ZArith List Bool Lia.
From Verif Require Import Base Util Combinators Variadic Parsers Deep Spec SpecDeep SpecRules SpecTerm
  SpecType SpecPeg SpecCfg SpecBlame SpecMeans Proofs_Parsers2 Proofs_Deep Proofs_Rules Proofs_Term Proofs_Type
  Proofs_PegAll Proofs_Cfg Proofs_Blame Proofs_Means
  Properties_Positions Properties_Deep Properties_Rules Properties_Term Properties_Type Properties_Peg
  Properties_Cfg Properties_Blame.
Import ListNotations.
Open Scope Z_scope.

Local Definition c98 := default_config Std98.
Local Definition c11 := default_config Std11.

(** The result of a parser is the value of a derivation of what it has read. *)
Theorem C92_accepted_has_value : forall cfg env e,
  program_every (fits cfg) env -> every (fits cfg) e ->
  program_every deriving env -> every deriving e ->
  forall n s ps v s' q, eval cfg env n e s ps = Accept v s' q ->
    exists w, s = w ++ s' /\ means env e w v.
Proof.
  intros cfg env e FE Fe DE De n s ps v s' q E.
  apply (proj1 (gives_meant (cfg_std cfg) env DE) e s ps (Accept v s' q)); [|exact De].
  rewrite (C64_the_rules_are_exact cfg env e FE Fe); [eauto|]. left. unfold is_accept. eauto.
Qed.
Print Assumptions C92_accepted_has_value.

(** The words that have a value are words of the context-free language. *)
Theorem C92_values_derive : forall env e, program_every deriving env -> every deriving e ->
  forall w v, means env e w v -> derives (cfg_rules env) (cfg_of e) w.
Proof.
  intros env e DE De w v M.
  exact (proj1 (means_derives env DE (cfg_rules env) (fun k => eq_refl)) e w v M De).
Qed.
Print Assumptions C92_values_derive.

(** If one character decides, there is only one word to read and it has only one
    value. *)
Theorem C92_one_value : forall env e follow F, program_every deriving env -> every deriving e ->
  ll1_grammar (cfg_rules env) follow -> one_decides (cfg_rules env) follow (cfg_of e) F ->
  forall w1 s1 v1 w2 s2 v2, means env e w1 v1 -> goes_on_with F s1 ->
    means env e w2 v2 -> goes_on_with F s2 -> w1 ++ s1 = w2 ++ s2 ->
    w1 = w2 /\ s1 = s2 /\ v1 = v2.
Proof.
  intros env e follow F DE De LL O w1 s1 v1 w2 s2 v2 M1 G1 M2 G2 E.
  destruct (C90_one_word _ _ _ _ LL O w1 s1 w2 s2) as (<- & <-); eauto using C92_values_derive.
  split; [reflexivity|]. split; [reflexivity|].
  exact (proj1 (one_value env DE (cfg_rules env) (fun k => eq_refl) follow LL) e w1 v1 M1 De F O v2 M2).
Qed.
Print Assumptions C92_one_value.

(** So the result is the value, whatever parser it was found with. *)
Theorem C92_result : forall cfg env e follow F me, fits_sequence cfg 2 ->
  program_every (fits cfg) env -> every (fits cfg) e ->
  program_every deriving env -> every deriving e ->
  ll1_grammar (cfg_rules env) follow -> one_decides (cfg_rules env) follow (cfg_of e) F ->
  forall n s ps v s' q, eval cfg env n (PEntireInput e me) s ps = Accept v s' q ->
    s' = [] /\ forall v', means env e s v' <-> v' = v.
Proof.
  intros cfg env e follow F me Sq FE Fe DE De LL O n s ps v s' q X.
  replace (eval cfg env n (PEntireInput e me) s ps) with (entire_input cfg (eval cfg env n e) me s ps) in X
    by (destruct n; reflexivity).
  rewrite (entire_input_spec _ _ _ _ _ Sq) in X.
  destruct (eval cfg env n e s ps) as [r [|c s1] q1|m q1| |] eqn:E; try discriminate. inversion X; subst.
  split; [reflexivity|].
  destruct (C92_accepted_has_value cfg env e FE Fe DE De n s ps _ _ _ E) as (w & -> & M).
  rewrite app_nil_r. intros v'. split.
  - intros M'. destruct (C92_one_value env e follow F DE De LL O w [] v w [] v') as (_ & _ & ->);
      simpl; auto.
  - intros ->. exact M.
Qed.
Print Assumptions C92_result.

(** With a verdict on every text (C46, C47): the parser computes exactly the value ... *)
Theorem C92_value : forall cfg nul rank R K G env e r T rank' follow F,
  program_every (fits cfg) env -> every (fits cfg) e ->
  program_every deriving env -> every deriving e ->
  program_every recognition env -> every recognition e ->
  well_founded_program nul rank R K env ->
  every (loops_read nul rank R K) e -> left_ok nul rank r e = true ->
  (forall k, typed cfg G (env k) (G k)) -> typed cfg G e T ->
  no_left_recursion (cfg_rules env) rank' -> ll1_grammar (cfg_rules env) follow ->
  one_decides (cfg_rules env) follow (cfg_of e) F ->
  forall n s ps, ((length s + 1) * (R + 1) + r + K < n)%nat ->
  forall s' v, goes_on_with F s' ->
    ((exists q, eval cfg env n e s ps = Accept v s' q)
     <-> exists w, s = w ++ s' /\ means env e w v).
Proof.
  intros cfg nul rank R K G env e r T rank' follow F FE Fe DE De RE Re WF Hev LO HE He NL LL O n s ps N s' v Go.
  assert (EQ : forall k, rules_of env k = cfg_rules env k)
    by (intros k; apply same_grammar; auto).
  split.
  - intros (q & E). eapply C92_accepted_has_value; eauto.
  - intros (w & -> & M).
    assert (D := C92_values_derive env e DE De w v M).
    pose proof (C90_derived_is_recognised _ _ _ _ _ NL LL O w s' D Go) as Rc.
    rewrite <- (same_grammar e De Re) in Rc.
    assert (Rc' : recognises (rules_of env) (peg_of e) (w ++ s') (Some s')).
    { revert Rc. generalize (peg_of e) (w ++ s') (Some s'). clear - EQ.
      induction 1; try solve [econstructor 1; eauto | econstructor 2; eauto | econstructor 3; eauto
        | econstructor 4; eauto | econstructor 5; eauto | econstructor 6; eauto | econstructor 7; eauto
        | econstructor 8; eauto | econstructor 9; eauto | econstructor 10; eauto | econstructor 11; eauto
        | econstructor 12; eauto | econstructor 13; eauto | econstructor 14; eauto].
      all: constructor; rewrite EQ; assumption. }
    destruct (proj1 (proj1 (C88_same_language cfg nul rank R K G env e r T FE Fe RE Re WF Hev LO HE He
      n (w ++ s') ps N) s') Rc') as (v' & q & E).
    destruct (C92_accepted_has_value cfg env e FE Fe DE De _ _ _ _ _ _ E) as (w' & X & M').
    destruct (C92_one_value env e follow F DE De LL O w s' v w' s' v') as (_ & _ & ->); auto.
    eauto.
Qed.
Print Assumptions C92_value.

(** ... and also where repetitions reject incomplete elements (C91). *)
Theorem C92_value_entire_input : forall cfg nul rank R K G env e r T follow F me, fits_sequence cfg 2 ->
  program_every (fits cfg) env -> every (fits cfg) e ->
  program_every blaming env -> every blaming e -> blaming_grammar env e follow F ->
  well_founded_program nul rank R K env ->
  every (loops_read nul rank R K) e -> left_ok nul rank r e = true ->
  (forall k, typed cfg G (env k) (G k)) -> typed cfg G e T ->
  forall n s ps, ((length s + 1) * (R + 1) + r + K < n)%nat ->
  (forall v, (exists q, eval cfg env n (PEntireInput e me) s ps = Accept v [] q) <-> means env e s v)
  /\ (derives (cfg_rules env) (cfg_of e) s <-> exists v, means env e s v).
Proof.
  intros cfg nul rank R K G env e r T follow F me Sq FE Fe BE Be BG WF Hev LO HE He n s ps N.
  assert (DE : program_every deriving env) by (intros k; apply blaming_deriving, BE).
  assert (De := blaming_deriving e Be).
  destruct (C91_verdict cfg nul rank R K G env e r T follow F me Sq FE Fe BE Be BG WF Hev LO HE He n s ps N)
    as (A & _).
  destruct BG as (LL & O & _).
  assert (X : forall v q, eval cfg env n (PEntireInput e me) s ps = Accept v [] q ->
    forall v', means env e s v' <-> v' = v)
    by (intros v q E; eapply C92_result; eauto).
  split.
  - intros v. split.
    + intros (q & E). apply (X _ _ E). reflexivity.
    + intros M. destruct (proj2 A (C92_values_derive env e DE De s v M)) as (v' & q & E).
      apply (X _ _ E) in M. subst. eauto.
  - split.
    + intros D. destruct (proj2 A D) as (v & q & E). exists v. apply (X _ _ E). reflexivity.
    + intros (v & M). exact (C92_values_derive env e DE De s v M).
Qed.
Print Assumptions C92_value_entire_input.

(** The result does not depend on the order of the alternatives of the rules, nor on
    the standard. *)
Theorem C92_order : forall cfg1 env1 cfg2 env2 e follow F m1 m2,
  fits_sequence cfg1 2 -> fits_sequence cfg2 2 ->
  program_every (fits cfg1) env1 -> every (fits cfg1) e ->
  program_every (fits cfg2) env2 -> every (fits cfg2) e ->
  program_every deriving env1 -> program_every deriving env2 -> every deriving e ->
  ll1_grammar (cfg_rules env1) follow -> one_decides (cfg_rules env1) follow (cfg_of e) F ->
  (forall k, env1 k = env2 k
     \/ exists l l', env1 k = POneOf l /\ env2 k = POneOf l' /\ forall p, In p l <-> In p l') ->
  forall n1 n2 s ps v1 s1 q1 v2 s2 q2,
    eval cfg1 env1 n1 (PEntireInput e m1) s ps = Accept v1 s1 q1 ->
    eval cfg2 env2 n2 (PEntireInput e m2) s ps = Accept v2 s2 q2 -> v1 = v2.
Proof.
  intros cfg1 env1 cfg2 env2 e follow F m1 m2 Sq1 Sq2 FE1 Fe1 FE2 Fe2 DE1 DE2 De LL O R
    n1 n2 s ps v1 s1 q1 v2 s2 q2 E1 E2.
  destruct (C92_result cfg1 env1 e follow F m1 Sq1 FE1 Fe1 DE1 De LL O n1 s ps v1 s1 q1 E1) as (_ & V).
  assert (M2 : means env2 e s v2).
  { replace (eval cfg2 env2 n2 (PEntireInput e m2) s ps)
      with (entire_input cfg2 (eval cfg2 env2 n2 e) m2 s ps) in E2 by (destruct n2; reflexivity).
    rewrite (entire_input_spec _ _ _ _ _ Sq2) in E2.
    destruct (eval cfg2 env2 n2 e s ps) as [r [|c s3] q3|m q3| |] eqn:E; try discriminate. inversion E2; subst.
    destruct (C92_accepted_has_value cfg2 env2 e FE2 Fe2 DE2 De n2 s ps _ _ _ E) as (w & -> & M).
    rewrite app_nil_r. exact M. }
  symmetry. apply V. apply (proj1 (same_meaning env2 env1
    ltac:(intros k; destruct (R k) as [->|(l & l' & A & B & I)]; [left; reflexivity|right; exists l', l; firstorder]))).
  exact M2.
Qed.
Print Assumptions C92_order.

(** ** Examples *)

Ltac derivs := repeat match goal with
    | H : _ \/ _ |- _ => destruct H
    | H : False |- _ => contradiction
    | H : ?a = ?c |- every _ ?c => subst c
    | |- deriving _ => simpl; auto; try lia
    | |- fits _ _ => unfold fits, fits_one_of, fits_sequence; try exact I;
         repeat match goal with |- _ /\ _ => split end; try discriminate; intros _; cbv; repeat constructor
    | |- forall c, In c _ -> _ => intros ?c ?H; simpl in *
    | |- every _ _ => constructor
    end.
Local Definition too_much := UserMsg 7.

Lemma brackets_deriving : program_every deriving brackets /\ every deriving (PRef 0).
Proof. split; [intros k; unfold brackets, PLitC, PLetter|]; derivs. Qed.

(** The letter in any number of brackets. *)
Lemma in_brackets_means : forall d c, class_of PLetter c = true ->
  means brackets (PRef 0) (in_brackets d c) (VChar c).
Proof.
  intros d c H. induction d as [|d IH]; apply m_ref; simpl.
  - apply (m_one_of _ _ PLetter); [right; left; reflexivity|].
    unfold PLetter in *. simpl in H. unfold says_yes in H.
    repeat constructor. simpl. destruct (is_letter (VChar c)) as [[]|]; try discriminate; reflexivity.
  - apply (m_one_of _ _ (PMiddleOf (PLitC 40) (PRef 0) (PLitC 41))); [left; reflexivity|].
    replace (in_brackets (S d) c) with ([40] ++ in_brackets d c ++ [41] ++ []).
    + apply (m_middle_of _ _ _ _ _ (VChar 40) _ (VChar 41)).
      repeat apply s_cons; try exact IH; try apply s_nil; unfold PLitC; repeat constructor.
    + unfold in_brackets. change (S d) with (1 + d)%nat at 2. rewrite PeanoNat.Nat.add_comm, repeat_app.
      simpl. rewrite <- !app_assoc. reflexivity.
Qed.
Example C92_case : forall d c, class_of PLetter c = true ->
  forall v, means brackets (PRef 0) (in_brackets d c) v <-> v = VChar c.
Proof.
  intros d c H v. destruct brackets_deriving as (Db & De), brackets_grammar as (A & C & _). split.
  - intros M. destruct (C92_one_value brackets (PRef 0) _ _ Db De A C (in_brackets d c) [] v
      (in_brackets d c) [] (VChar c)) as (_ & _ & ->); simpl; auto using in_brackets_means.
  - intros ->. apply in_brackets_means, H.
Qed.
Example C92_value_case : forall d c, class_of PLetter c = true ->
  forall n, (2 * length (in_brackets d c) + 3 < n)%nat ->
  exists q, eval c98 brackets n (PRef 0) (in_brackets d c) start = Accept (VChar c) [] q.
Proof.
  intros d c H n N.
  destruct brackets_facts as (Rb & Fb & Re & Fe), brackets_ll1 as (_ & B & _), C46_case as (W & E & L & _),
    brackets_deriving as (Db & De), brackets_grammar as (A & C & _).
  apply (C92_value c98 _ _ 1 0 (fun _ => a_letter) brackets (PRef 0) 1 a_letter _ _ _
    Fb Fe Db De Rb Re W E L brackets_typed (T_ref c98 (fun _ => a_letter) 0) B A C n (in_brackets d c) start
    ltac:(lia) [] (VChar c) I).
  exists (in_brackets d c). rewrite app_nil_r. split; [reflexivity|apply in_brackets_means, H].
Qed.

(** Nothing else has a value, and [entire_input] rejects it. *)
Example C92_entire_input_case : forall n s, (2 * length s + 3 < n)%nat ->
  forall v, (exists q, eval c98 brackets n (PEntireInput (PRef 0) too_much) s start = Accept v [] q)
    <-> means brackets (PRef 0) s v.
Proof.
  intros n s N.
  destruct brackets_facts as (_ & Fb & _ & Fe), C46_case as (W & E & L & _), brackets_blaming as (Bb & Be).
  assert (Sq : fits_sequence c98 2) by (intros _; cbv; repeat constructor).
  exact (proj1 (C92_value_entire_input c98 _ _ 1 0 (fun _ => a_letter) brackets (PRef 0) 1 a_letter _ _ too_much
    Sq Fb Fe Bb Be brackets_grammar W E L brackets_typed (T_ref c98 (fun _ => a_letter) 0) n s start
    ltac:(lia))).
Qed.

(** The tree of a sum, its only one. *)
Example C92_sums_case : forall v,
  means sums (PRef 0) (text "1+(2+3)+4") v
  <-> v = VSeq [VSeq [VInt 1; VSeq [VInt 2; VInt 3]]; VInt 4].
Proof.
  assert (Sq : fits_sequence c11 2) by (intros H; discriminate).
  destruct sums_grammar as (A & C & _).
  refine (proj2 (C92_result c11 sums (PRef 0) _ _ too_much Sq _ _ _ _ A C 60 _ start _ [] (mkpos 1 10 52) _)).
  - intros [|k]; unfold sums, PInt, PDigitVal, PDigit, PLitC; derivs.
  - derivs.
  - intros [|k]; unfold sums, PInt, PDigitVal, PDigit, PLitC; derivs.
  - derivs.
  - vm_compute. reflexivity.
Qed.

(** The brackets after the letter. *)
Local Definition brackets' : program := fun _ =>
  POneOf [PLetter; PMiddleOf (PLitC 40) (PRef 0) (PLitC 41)].
Example C92_order_case : forall n1 n2 s ps v1 s1 q1 v2 s2 q2,
  eval c98 brackets n1 (PEntireInput (PRef 0) too_much) s ps = Accept v1 s1 q1 ->
  eval c11 brackets' n2 (PEntireInput (PRef 0) too_much) s ps = Accept v2 s2 q2 -> v1 = v2.
Proof.
  destruct brackets_facts as (_ & Fb & _ & Fe), brackets_deriving as (Db & De), brackets_grammar as (A & C & _).
  assert (Sq : fits_sequence c98 2) by (intros _; cbv; repeat constructor).
  assert (Sq' : fits_sequence c11 2) by (intros H; discriminate).
  refine (C92_order c98 brackets c11 brackets' (PRef 0) _ _ too_much too_much Sq Sq' Fb Fe _ _ Db _ De A C _).
  - intros k. unfold brackets', PLitC, PLetter. derivs.
  - derivs.
  - intros k. unfold brackets', PLitC, PLetter. derivs.
  - intros k. right. eexists. eexists. split; [reflexivity|]. split; [reflexivity|]. simpl. tauto.
Qed.

(** ** One character has to decide *)

(** Otherwise a word may have two values, of which the order of the alternatives
    selects one. *)
Theorem C92_order_refuted : exists cfg env1 env2 e m n s ps v1 v2 q,
  program_every deriving env1 /\ program_every deriving env2 /\ every deriving e
  /\ (forall k, exists l l', env1 k = POneOf l /\ env2 k = POneOf l' /\ forall p, In p l <-> In p l')
  /\ eval cfg env1 n (PEntireInput e m) s ps = Accept v1 [] q
  /\ eval cfg env2 n (PEntireInput e m) s ps = Accept v2 [] q
  /\ means env1 e s v1 /\ means env1 e s v2 /\ v1 <> v2.
Proof.
  exists c11, (fun _ => POneOf [POneChar; PAlways POneChar (VInt 1)]),
    (fun _ => POneOf [PAlways POneChar (VInt 1); POneChar]), (PRef 0), too_much, 5%nat, (text "a"), start,
    (VChar 97), (VInt 1), (mkpos 1 2 97).
  split; [intros k; derivs|]. split; [intros k; derivs|]. split; [derivs|].
  split; [intros k; eexists; eexists; split; [reflexivity|]; split; [reflexivity|]; simpl; tauto|].
  split; [vm_compute; reflexivity|]. split; [vm_compute; reflexivity|].
  split; [|split; [|discriminate]]; apply m_ref.
  - apply (m_one_of _ _ POneChar); [left; reflexivity|constructor].
  - apply (m_one_of _ _ (PAlways POneChar (VInt 1))); [right; left; reflexivity|repeat econstructor].
Qed.
Print Assumptions C92_order_refuted.

(** A repetition takes what it can: a* a and "aa", where the second a is gone. *)
Theorem C92_repetition_refuted : exists cfg env e m n s ps v m' q,
  program_every deriving env /\ every deriving e /\ means env e s v
  /\ eval cfg env n (PEntireInput e m) s ps = Reject m' q.
Proof.
  exists c11, (fun _ => POneChar), (PSequence [PRepeated (PLitC 97); PLitC 97]), too_much, 5%nat, (text "aa"), start,
    (VSeq [VSeq [VChar 97]; VChar 97]), (literal_expected 97), (mkpos 1 3 97).
  split; [intros k; derivs|]. split; [unfold PRepeated, PLitC; derivs|]. split; [|vm_compute; reflexivity].
  apply m_sequence. apply (s_cons _ _ _ [97] _ [97]); [|apply (s_cons _ _ _ [97] _ []); [|constructor]].
  - unfold PRepeated. apply (m_foldl _ _ _ _ [97] [VChar 97] (VSeq []));
      [apply (w_more _ _ [97] (VChar 97) [] []); [|constructor]| |].
    + unfold PLitC. repeat constructor.
    + reflexivity.
    + reflexivity.
  - unfold PLitC. repeat constructor.
Qed.
Print Assumptions C92_repetition_refuted.
