(** C86: error messages do not influence parsing. *)

From Coq Require Import ZArith List Bool.
From Verif Require Import Base Util Combinators Variadic Parsers Deep Spec SpecDeep SpecErase
  Proofs_Deep Proofs_Rel Proofs_Erase.
Import ListNotations.
Open Scope Z_scope.

Local Definition c98 := default_config Std98.
Local Definition c11 := default_config Std11.

(** The verdict, the result, the remaining input and the position of the end or
    of the error are those of the same parser with all its messages replaced by
    one message. *)
Theorem C86_messages_erased : forall cfg env n e,
  program_every message_blind env -> every message_blind e ->
  same_parser_but_message (eval cfg env n e)
    (eval cfg (fun k => erase (env k)) n (erase e)).
Proof.
  intros cfg env n e HE He.
  assert (M : forall x, every message_blind x -> every (blind_ok cfg cfg) x).
  { intros x. apply every_impl. intros y B. split; auto. }
  apply eval_erase; auto. intros k. apply M, HE.
Qed.
Print Assumptions C86_messages_erased.

(** Two programs that differ in messages only agree on everything else. *)
Theorem C86_messages_irrelevant : forall cfg env1 env2 n e1 e2,
  program_every message_blind env1 -> every message_blind e1 ->
  program_every message_blind env2 -> every message_blind e2 ->
  (forall k, erase (env1 k) = erase (env2 k)) -> erase e1 = erase e2 ->
  same_parser_but_message (eval cfg env1 n e1) (eval cfg env2 n e2).
Proof.
  intros cfg env1 env2 n e1 e2 P1 Q1 P2 Q2 E F.
  assert (M : forall x, every message_blind x -> every (blind_ok cfg cfg) x).
  { intros x. apply every_impl. intros y B. split; auto. }
  eapply mrel_trans.
  - apply (eval_erase cfg cfg env1 (fun k => erase (env2 k))); auto.
    intros k. apply M, P1.
  - rewrite F. apply mrel_sym.
    apply (eval_erase cfg cfg env2 (fun k => erase (env2 k))); auto.
    intros k. apply M, P2.
Qed.
Print Assumptions C86_messages_irrelevant.

(** A program for nested brackets, without and with helpful messages. *)
Definition plain_brackets : program := fun k =>
  match k with
  | O => POneOf [PMiddleOf (PAcceptWhen POneChar (is_char_c 40) no_message)
                   (PRef 0) (PAcceptWhen POneChar (is_char_c 41) no_message); PLetter]
  | _ => PFail no_message
  end.
Definition helpful_brackets : program := fun k =>
  match k with
  | O => POneOf [PMiddleOf (PAcceptWhen POneChar (is_char_c 40) (literal_expected 40))
                   (PTransformErrorMessage (PRef 0) (fun m => Some (unpaired 0 0 m)))
                   (PAcceptWhen POneChar (is_char_c 41) (literal_expected 41));
                 PAcceptWhen POneChar is_letter digit_expected]
  | _ => PFail digit_expected
  end.

Ltac blind :=
  repeat match goal with
  | H : _ \/ _ |- _ => destruct H
  | H : False |- _ => contradiction
  | H : ?a = ?c |- every _ ?c => subst c
  | |- message_blind _ => split; [exact I|try exact I; simpl; try discriminate]
  | |- forall c, In c _ -> _ => intros ?c ?H; simpl in *
  | |- every _ _ => constructor
  end.

Example C86_case :
  program_every message_blind plain_brackets
  /\ program_every message_blind helpful_brackets
  /\ (forall k, erase (plain_brackets k) = erase (helpful_brackets k))
  /\ eval c98 plain_brackets 9 (PRef 0) (text "((x") start
     = Reject (unpaired 1 2 unexpected_end_of_input) (mkpos 1 4 120)
  /\ eval c98 helpful_brackets 9 (PRef 0) (text "((x") start
     = Reject (unpaired 0 0 (unpaired 1 2 unexpected_end_of_input)) (mkpos 1 4 120)
  /\ eval c11 plain_brackets 9 (PRef 0) (text "((x)") start
     = Reject (unpaired 1 1 unexpected_end_of_input) (mkpos 1 5 41)
  /\ eval c11 helpful_brackets 9 (PRef 0) (text "((x))") start
     = Accept (VChar 120) [] (mkpos 1 6 41).
Proof.
  split; [intros [|k]; unfold plain_brackets, PLetter; blind|].
  split; [intros [|k]; unfold helpful_brackets; blind|].
  split; [intros [|k]; reflexivity|].
  vm_compute. auto 10.
Qed.

(** [change_error_message] does more than its name says: it moves the error to
    the place where its argument was applied, so it cannot be left out. *)
Theorem C86_change_error_message_refuted : exists cfg env n p m s ps,
  every message_blind p
  /\ eval cfg env n (PFoldlRejectIncomplete (PChangeErrorMessage p m) (Some (VSeq [])) back_inserter) s ps
     = Accept (VSeq []) (text "ac") start
  /\ eval cfg env n (PFoldlRejectIncomplete p (Some (VSeq [])) back_inserter) s ps
     = Reject (literal_expected 98) (mkpos 1 2 97).
Proof.
  exists c11, (fun _ => POneChar), 9%nat, (PLastOf [PLitC 97; PLitC 98]), digit_expected,
    (text "ac"), start.
  split; [unfold PLitC; blind|]. vm_compute. auto.
Qed.
Print Assumptions C86_change_error_message_refuted.

(** The conditions are needed: an error transformer may look at the message,
    and a function on messages may be undefined for some of them. *)
Definition recover_digit (m : msg) (ps : pos) : outcome :=
  match m with
  | digit_expected => Accept (VInt 0) [] ps
  | _ => Reject m ps
  end.
Definition digit_message_only (m : msg) : option msg :=
  match m with
  | digit_expected => Some letter_expected
  | _ => None
  end.

Theorem C86_message_dependent_refuted : exists cfg env n e1 e2 s ps,
  erase e1 = erase e2
  /\ eval cfg env n e1 s ps = Accept (VInt 0) [] start
  /\ eval cfg env n e2 s ps = Reject letter_expected start.
Proof.
  exists c11, (fun _ => POneChar), 1%nat,
    (PTransformError (PFail digit_expected) recover_digit),
    (PTransformError (PFail letter_expected) recover_digit), (text "x"), start.
  vm_compute. auto.
Qed.
Print Assumptions C86_message_dependent_refuted.

Theorem C86_partial_message_function_refuted : exists cfg env n e1 e2 s ps,
  erase e1 = erase e2
  /\ eval cfg env n e1 s ps = Reject letter_expected start
  /\ eval cfg env n e2 s ps = Illformed.
Proof.
  exists c11, (fun _ => POneChar), 1%nat,
    (PTransformErrorMessage (PFail digit_expected) digit_message_only),
    (PTransformErrorMessage (PFail letter_expected) digit_message_only), (text "x"), start.
  vm_compute. auto.
Qed.
Print Assumptions C86_partial_message_function_refuted.
