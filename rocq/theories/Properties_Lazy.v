(** Unevaluated arguments (C83). *)

From Coq Require Import ZArith List Bool Lia.
From Verif Require Import Base Util Combinators Variadic Parsers Deep Spec SpecDeep Lazy SpecLazy Proofs_Lazy.
Import ListNotations.
Open Scope Z_scope.

(** ** C83 *)

(** Given a position, every parser has an evaluated result: that of the rest of
    this development. *)
Theorem C83_given_a_position : forall cfg env n e s a,
  means (l_eval cfg env n e s (Now a)) (eval cfg env n e s a)
  /\ is_value (l_eval cfg env n e s (Now a)).
Proof. exact at_value. Qed.
Print Assumptions C83_given_a_position.

(** Given a metafunction returning a position, a parser that does not begin with
    [fail_at_first_char_expected] has the same result. *)
Theorem C83_given_a_metafunction : forall cfg env n e s a, no_position_test env e ->
  means (l_eval cfg env n e s (Later a)) (eval cfg env n e s a).
Proof. exact at_metafunction. Qed.
Print Assumptions C83_given_a_metafunction.

(** No parser has another result: at worst it can not be instantiated. *)
Theorem C83_never_another_result : forall cfg env n e s a,
  l_eval cfg env n e s (Later a) = CIllformed
  \/ means (l_eval cfg env n e s (Later a)) (eval cfg env n e s a).
Proof. exact never_different. Qed.
Print Assumptions C83_never_another_result.

(** [fail_at_first_char_expected] compares the position as it is: given a
    metafunction it can not be instantiated where its argument rejects. *)
Theorem C83_position_test : forall cfg env n p s a, no_position_test env p ->
  l_eval cfg env n (PFailAtFirstCharExpected p) s (Later a) = CIllformed
  <-> (exists m q, eval cfg env n p s a = Reject m q) \/ eval cfg env n p s a = Illformed.
Proof. exact position_test. Qed.
Print Assumptions C83_position_test.

Theorem C83_every_parser_refuted : exists cfg env n e s a,
  eval cfg env n e s a = Accept VVoid_ s a
  /\ l_eval cfg env n e s (Later a) = CIllformed.
Proof.
  exists (default_config Std11), (fun _ => PFail none_of_the_expected_cases_found), 1%nat,
    (PFailAtFirstCharExpected PDigit), (text "x"), start.
  split; reflexivity.
Qed.
Print Assumptions C83_every_parser_refuted.

(** The result of a parser given a metafunction need not be a value:
    [optional<P>] returns the position as it got it. *)
Theorem C83_values_refuted : exists cfg env n e s a,
  no_position_test env e /\ ~ is_value (l_eval cfg env n e s (Later a)).
Proof.
  exists (default_config Std11), (fun _ => PFail none_of_the_expected_cases_found), 1%nat,
    (POptional PDigit VVoid), (text "x"), start.
  split.
  - assert (H : forall e d, starts_with (fun _ => PFail none_of_the_expected_cases_found) e d ->
      forall p, d = PFailAtFirstCharExpected p ->
      ~ In e [POptional PDigit VVoid; PDigit; PChangeErrorMessage POneChar digit_expected; POneChar]).
    { induction 1 as [e|e c d I S IH|k d S IH]; intros p E H.
      - subst e. cbn in H. intuition discriminate.
      - apply (IH p E). cbn [In] in H.
        destruct H as [<-|[<-|[<-|[<-|[]]]]]; cbn in I; try contradiction; destruct I as [<-|[]]; cbn; tauto.
      - cbn in H. intuition discriminate. }
    intros p S. apply (H _ _ S p eq_refl). left. reflexivity.
  - intros H. vm_compute in H. inversion H.
Qed.
Print Assumptions C83_values_refuted.

(** Only [optional], [except] and [empty] do so. *)
Theorem C83_evaluated_results : forall cfg env n e, (forall d, starts_with env e d -> ~ hands_on d) ->
  forall s a, is_value (l_eval cfg env n e s a).
Proof. exact evaluates. Qed.
Print Assumptions C83_evaluated_results.

(** *** The functions looking at results are lazy *)

Theorem C83_accessors : forall t c o, stands_for t c -> means c o ->
  (is_error t = Some true <-> exists m p, o = Reject m p)
  /\ (is_error t = Some false <-> exists r s p, o = Accept r s p)
  /\ (forall r, get_result t = Some r <-> exists s p, o = Accept r s p)
  /\ (forall s, get_remaining t = Some s <-> exists r p, o = Accept r s p)
  /\ (forall p, get_position t = Some p <-> (exists r s, o = Accept r s p) \/ exists m, o = Reject m p)
  /\ (forall m, get_message t = Some m <-> exists p, o = Reject m p).
Proof. exact accessors. Qed.
Print Assumptions C83_accessors.

(** They are the functions used in the rest of this development. *)
Theorem C83_accessors_agree : forall t c o, stands_for t c -> means c o ->
  is_error t = Base.is_error o /\ get_result t = Base.get_result o /\ get_remaining t = Base.get_remaining o
  /\ get_position t = Base.get_position o /\ get_message t = Base.get_message o.
Proof. exact accessors_agree. Qed.
Print Assumptions C83_accessors_agree.

Theorem C83_unless_error : forall t c o d d' o',
  stands_for t c -> means c o -> stands_for d d' -> means d' o' ->
  (forall m p, o = Reject m p -> means (unless_error t d) o)
  /\ (forall r s p, o = Accept r s p -> means (unless_error t d) o').
Proof. exact unless_error_spec. Qed.
Print Assumptions C83_unless_error.

(** [accept<...>] and [reject<...>] are themselves lazy: [::type] evaluates the
    members, once. *)
Theorem C83_results_evaluate : forall c o, means c o ->
  means (type c) o /\ is_value (type c) /\ type (type c) = type c.
Proof. exact type_spec. Qed.
Print Assumptions C83_results_evaluate.

(** A class describes one outcome. *)
Theorem C83_one_meaning : forall c, exists o, means c o /\ forall o', means c o' -> o' = o.
Proof.
  intros c. exists (strip c). split; [apply means_strip|].
  intros o' M. symmetry. apply means_inv. exact M.
Qed.
Print Assumptions C83_one_meaning.

Theorem C83_positions : forall x p c, stands_for x p ->
  get_line x = line p /\ get_col x = col p /\ get_prev_char x = prev p
  /\ l_next_char x c = mkpos (line p) (col p + 1) c
  /\ l_next_line x c = mkpos (line p + 1) 1 c.
Proof. exact positions_lazy. Qed.
Print Assumptions C83_positions.

(** Positions are compared when both are values. *)
Theorem C83_comparison : forall x y b,
  l_equal_to x y = Some b <-> exists p q, x = Now p /\ y = Now q /\ (b = true <-> p = q).
Proof. exact equal_to_lazy. Qed.
Print Assumptions C83_comparison.

(** *** Examples *)

Definition no_rules : program := fun _ => PFail none_of_the_expected_cases_found.

(** [int_] and [token<int_>] at a position that is still to be computed *)
Example C83_case : no_position_test no_rules (PToken PInt)
  /\ (forall d, starts_with no_rules (PToken PInt) d -> ~ hands_on d)
  /\ l_eval (default_config Std11) no_rules 9 (PToken PInt) (text "42 ") (Later start)
     = CAccept (VInt 42) (Now []) (Now (mkpos 1 4 32))
  /\ l_eval (default_config Std98) no_rules 9 (PToken PInt) (text "x") (Later start)
     = CReject digit_expected (Now start)
  /\ l_eval (default_config Std11) no_rules 9 (POptional PDigit VVoid) (text "x") (Later start)
     = CAccept VVoid (Now (text "x")) (Later start).
Proof.
  assert (H : forall e d, starts_with no_rules e d ->
    In e [PToken PInt; PInt; PDigitVal; PDigit; PChangeErrorMessage POneChar digit_expected; POneChar] ->
    In d [PToken PInt; PInt; PDigitVal; PDigit; PChangeErrorMessage POneChar digit_expected; POneChar]).
  { induction 1 as [e|e c d I S IH|k d S IH]; intros H.
    - exact H.
    - apply IH. cbn [In] in H.
      destruct H as [<-|[<-|[<-|[<-|[<-|[<-|[]]]]]]]; cbn in I; try contradiction; destruct I as [<-|[]]; cbn; tauto.
    - cbn in H. intuition discriminate. }
  split; [|split; [|repeat split; vm_compute; reflexivity]].
  - intros p S. apply H in S; [|left; reflexivity]. cbn in S. intuition discriminate.
  - intros d S D. apply H in S; [|left; reflexivity]. cbn in S.
    destruct S as [<-|[<-|[<-|[<-|[<-|[<-|[]]]]]]]; inversion D.
Qed.

(** [get_position<returns<accept<...>>>] with a position still to be computed *)
Example C83_accessor_case :
  let c := CAccept (VInt 1) (Later (text "b")) (Later start) in
  means c (Accept (VInt 1) (text "b") start)
  /\ get_remaining (Later c) = Some (text "b") /\ get_position (Now c) = Some start
  /\ get_message (Now c) = None /\ is_error (Later c) = Some false
  /\ unless_error (Now (CReject digit_expected (Later start))) (Later c) = CReject digit_expected (Now start)
  /\ unless_error (Later c) (Now (CReject digit_expected (Later start))) = CReject digit_expected (Now start).
Proof.
  cbv zeta. split; [constructor; right; reflexivity|]. repeat split.
Qed.
