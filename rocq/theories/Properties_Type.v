(** C47: well-typed parsers always give a verdict. *)

From Coq Require Import ZArith List Bool Lia.
From Verif Require Import Base Util Combinators Variadic Parsers Deep Spec SpecDeep SpecTerm SpecType
  Proofs_Pos Proofs_Deep Proofs_Term Proofs_Type Properties_Positions Properties_Term.
Import ListNotations.
Open Scope Z_scope.

Local Definition c98 := default_config Std98.
Local Definition c11 := default_config Std11.

(** ** C47 *)

Theorem C47_well_typed_never_illformed : forall cfg G env e T,
  (forall k, typed cfg G (env k) (G k)) -> typed cfg G e T ->
  forall n s ps, eval cfg env n e s ps <> Illformed.
Proof.
  intros cfg G env e T HE He n s ps E.
  assert (X := proj1 (typed_ok cfg G env HE n) e T He s ps). rewrite E in X. exact X.
Qed.
Print Assumptions C47_well_typed_never_illformed.

Theorem C47_results_have_the_type : forall cfg G env e T,
  (forall k, typed cfg G (env k) (G k)) -> typed cfg G e T ->
  forall n s ps r rem q, eval cfg env n e s ps = Accept r rem q -> T r.
Proof.
  intros cfg G env e T HE He n s ps r rem q E.
  assert (X := proj1 (typed_ok cfg G env HE n) e T He s ps). rewrite E in X. exact X.
Qed.
Print Assumptions C47_results_have_the_type.

(** Together with C46: a well-founded, well-typed program accepts or rejects
    every input. *)
Theorem C47_verdict : forall cfg nul rank R K G env e r T,
  well_founded_program nul rank R K env ->
  every (loops_read nul rank R K) e -> left_ok nul rank r e = true ->
  (forall k, typed cfg G (env k) (G k)) -> typed cfg G e T ->
  forall s ps n, ((length s + 1) * (R + 1) + r + K < n)%nat ->
    finishes (eval cfg env n e) s ps.
Proof.
  intros cfg nul rank R K G env e r T WF Hev LO HE He s ps n N.
  assert (A := C47_well_typed_never_illformed cfg G env e T HE He n s ps).
  assert (B := eval_terminates cfg nul rank R K env WF n e s ps r Hev LO N).
  unfold finishes, accepts, rejects.
  destruct (eval cfg env n e s ps); try congruence; [left|right]; eauto.
Qed.
Print Assumptions C47_verdict.

(** *** Examples *)

Definition a_letter : ty := fun v => exists c, v = VChar c /\ letter_char c.

Lemma letter_typed : forall cfg G, typed cfg G PLetter a_letter.
Proof.
  intros cfg G. unfold PLetter. eapply T_sub.
  - eapply T_accept_when; [apply T_one_char|]. intros v (c & ->). discriminate.
  - intros v ((c & ->) & H). exists c. split; auto.
    unfold is_letter, is_lcase_letter, is_ucase_letter, in_range_c in H. simpl in H.
    inversion H as [H0]. unfold letter_char.
    apply orb_true_iff in H0 as [H0|H0]; apply andb_true_iff in H0 as (H1 & H2);
      apply Z.leb_le in H1; apply Z.leb_le in H2; auto.
Qed.

Lemma lit_typed : forall cfg G c, typed cfg G (PLitC c) (fun v => v = VChar c).
Proof.
  intros cfg G c. unfold PLitC. eapply T_sub.
  - eapply T_accept_when; [apply T_change_error_message, T_one_char|]. intros v (d & ->). discriminate.
  - intros v ((d & ->) & H). unfold is_char_c in H. simpl in H. inversion H as [H0].
    apply Z.eqb_eq in H0. congruence.
Qed.

Lemma brackets_typed : forall k, typed c98 (fun _ => a_letter) (brackets k) a_letter.
Proof.
  intros k. unfold brackets. apply T_one_of; [intros _; cbv; repeat constructor|].
  repeat constructor; [|apply letter_typed].
  eapply T_middle_of; [intros _; cbv; repeat constructor | apply lit_typed | | apply lit_typed].
  apply (T_ref c98 (fun _ => a_letter) 0).
Qed.

(** The hypotheses hold for the bracket program: it always gives a verdict, and
    the result is a letter. *)
Example C47_case : forall s n, (2 * length s + 3 < n)%nat ->
  finishes (eval c98 brackets n (PRef 0)) s start
  /\ (forall r rem q, eval c98 brackets n (PRef 0) s start = Accept r rem q -> a_letter r).
Proof.
  intros s n N. destruct C46_case as (W & E & L & _). split.
  - apply (C47_verdict c98 _ _ 1 0 (fun _ => a_letter) brackets (PRef 0) 1 a_letter W E L
             brackets_typed (T_ref c98 (fun _ => a_letter) 0)). lia.
  - apply (C47_results_have_the_type c98 (fun _ => a_letter) brackets (PRef 0) a_letter brackets_typed
             (T_ref c98 (fun _ => a_letter) 0)).
Qed.

(** An operation used outside its domain: [push_front] on a character. *)
Example C47_untyped_case :
  eval c11 brackets 9 (PTransform PLetter (fun v => push_front v (VInt 1))) (text "x") start = Illformed.
Proof. reflexivity. Qed.
