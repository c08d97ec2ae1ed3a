(** C36 - C38: independence from the instantiation depth, from the language
    standard and from the start position. *)

From Coq Require Import ZArith List Bool.
From Verif Require Import Base Util Combinators Variadic Parsers Deep Spec SpecDeep SpecErase
  Proofs_Pos Proofs_Deep Proofs_Rel Proofs_Erase Properties_Positions.
Import ListNotations.
Open Scope Z_scope.

Local Definition c98 := default_config Std98.
Local Definition c11 := default_config Std11.

(** ** C36 *)

Theorem C36_larger_bound_same_outcome : forall cfg env e n n' s ps, (n <= n')%nat ->
  eval cfg env n e s ps <> OutOfFuel ->
  eval cfg env n' e s ps = eval cfg env n e s ps.
Proof.
  intros cfg env e n n' s ps L F.
  destruct (eval_apx cfg env n n' e L s ps) as [H|H]; congruence.
Qed.
Print Assumptions C36_larger_bound_same_outcome.

Theorem C36_outcome_unique : forall cfg env e n n' s ps,
  eval cfg env n e s ps <> OutOfFuel -> eval cfg env n' e s ps <> OutOfFuel ->
  eval cfg env n e s ps = eval cfg env n' e s ps.
Proof.
  intros cfg env e n n' s ps H H'. destruct (PeanoNat.Nat.le_ge_cases n n') as [L|L].
  - symmetry. apply C36_larger_bound_same_outcome; auto.
  - apply C36_larger_bound_same_outcome; auto.
Qed.
Print Assumptions C36_outcome_unique.

Example C36_case :
  eval c11 brackets 1 (PRef 0) (text "(x)") start = OutOfFuel
  /\ eval c11 brackets 5 (PRef 0) (text "(x)") start = Accept (VChar 120) [] (mkpos 1 4 41)
  /\ eval c11 brackets 9 (PRef 0) (text "(x)") start = Accept (VChar 120) [] (mkpos 1 4 41)
  /\ eval c11 brackets 5 (PRef 0) (text "((x") start
     = Reject (unpaired 1 2 (literal_expected 41)) (mkpos 1 4 120).
Proof. vm_compute. auto. Qed.

(** ** C37 *)

(** User-written parsers are arbitrary; error transformers must ignore the
    message they get and functions on messages must be defined for all messages
    (the messages differ between the standards). *)
Definition portable (cfg1 cfg2 : config) (e : pexpr) : Prop :=
  message_blind e /\ fits cfg1 e /\ fits cfg2 e.

Theorem C37_standards_agree : forall cfg1 cfg2 env n e,
  program_every (portable cfg1 cfg2) env -> every (portable cfg1 cfg2) e ->
  same_parser_but_message (eval cfg1 env n e) (eval cfg2 env n e).
Proof.
  intros cfg1 cfg2 env n e HE He.
  assert (M : forall x, every (portable cfg1 cfg2) x -> every (blind_ok cfg1 cfg2) x).
  { intros x. apply every_impl. intros y (A & B & C). split; auto. }
  assert (N : forall x, every (portable cfg1 cfg2) x -> every (blind_ok cfg2 cfg2) x).
  { intros x. apply every_impl. intros y (A & B & C). split; auto. }
  eapply mrel_trans.
  - apply (eval_erase cfg1 cfg2 env (fun k => erase (env k))); auto. intros k. apply M, HE.
  - apply mrel_sym. apply (eval_erase cfg2 cfg2 env (fun k => erase (env k))); auto.
    intros k. apply N, HE.
Qed.
Print Assumptions C37_standards_agree.

(** The expression of the examples: the hypotheses hold and the messages do
    differ. *)
Lemma brackets_portable : program_every (portable c98 c11) brackets.
Proof.
  intros k. unfold brackets, PLitC, PLetter.
  repeat match goal with
  | H : _ \/ _ |- _ => destruct H
  | H : False |- _ => contradiction
  | H : ?a = ?c |- every _ ?c => subst c
  | |- portable _ _ _ =>
      unfold portable, message_blind, fits, fits_one_of, fits_sequence, natives, total_messages;
      repeat split; auto; try (intros _; cbv; repeat constructor)
  | |- forall c, In c _ -> _ => intros ?c ?H; simpl in *
  | |- every _ _ => constructor
  end.
Qed.

Example C37_case :
  program_every (portable c98 c11) brackets
  /\ every (portable c98 c11) (PRef 0)
  /\ eval c98 brackets 9 (PRef 0) (text "((1") start = Reject letter_expected (mkpos 1 3 40)
  /\ eval c11 brackets 9 (PRef 0) (text "((1") start
     = Reject none_of_the_expected_cases_found (mkpos 1 3 40)
  /\ eval c98 brackets 9 (PRef 0) (text "((x") start
     = Reject (unpaired 1 2 (literal_expected 41)) (mkpos 1 4 120).
Proof.
  split; [exact brackets_portable|]. split.
  - constructor; [repeat split; auto|intros c []].
  - vm_compute. auto.
Qed.

(** ** C38 *)

Definition no_position (e : pexpr) : Prop :=
  natives position_independent changes_message_only e /\ total_messages e.

Theorem C38_start_position_irrelevant : forall cfg env n e,
  program_every no_position env -> every no_position e ->
  forall s ps1 ps2,
    same_at s ps1 ps2 (eval cfg env n e s ps1) (eval cfg env n e s ps2).
Proof.
  intros cfg env n e HE He s ps1 ps2.
  assert (M : forall x, every no_position x -> every (rel_ok cfg cfg) x).
  { intros x H. induction H as [x (A & B) _ IH]. constructor; auto.
    split; [exact A|]. split; [exact B|]. left. reflexivity. }
  apply orel_same_at. exact (eval_rel cfg cfg env (fun k => M _ (HE k)) n e (M _ He) s ps1 ps2).
Qed.
Print Assumptions C38_start_position_irrelevant.

Lemma brackets_no_position : program_every no_position brackets.
Proof.
  intros k. unfold brackets, PLitC, PLetter.
  repeat match goal with
  | H : _ \/ _ |- _ => destruct H
  | H : False |- _ => contradiction
  | H : ?a = ?c |- every _ ?c => subst c
  | |- no_position _ => split; exact I
  | |- forall c, In c _ -> _ => intros ?c ?H; simpl in *
  | |- every _ _ => constructor
  end.
Qed.

Example C38_case :
  program_every no_position brackets
  /\ eval c11 brackets 9 (PRef 0) (text "(x)y") (mkpos 7 3 13) = Accept (VChar 120) (text "y") (mkpos 7 6 41)
  /\ eval c11 brackets 9 (PRef 0) (text "(x)y") (mkpos 1 1 0) = Accept (VChar 120) (text "y") (mkpos 1 4 41).
Proof. split; [exact brackets_no_position|]. vm_compute. auto. Qed.
