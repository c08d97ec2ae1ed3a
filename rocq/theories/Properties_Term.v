(** C46: which recursive parsers can be instantiated. *)

From Coq Require Import ZArith List Bool Lia.
From Verif Require Import Base Util Combinators Variadic Parsers Deep Spec SpecDeep SpecTerm
  Proofs_Pos Proofs_Deep Proofs_Term Properties_Positions Properties_Deep.
Import ListNotations.
Open Scope Z_scope.

Local Definition c98 := default_config Std98.
Local Definition c11 := default_config Std11.

(** ** C46 *)

(** A program in which no named parser starts itself before reading and all
    loop bodies read something is instantiated on every input, at a depth
    linear in the length of the input, with one outcome for all larger
    depths. *)
Theorem C46_well_founded_terminates : forall cfg nul rank R K env e r,
  well_founded_program nul rank R K env ->
  every (loops_read nul rank R K) e -> left_ok nul rank r e = true ->
  forall s ps, exists o, o <> OutOfFuel /\
    forall n, ((length s + 1) * (R + 1) + r + K < n)%nat -> eval cfg env n e s ps = o.
Proof.
  intros cfg nul rank R K env e r WF Hev LO s ps.
  set (N := S ((length s + 1) * (R + 1) + r + K)).
  assert (T : eval cfg env N e s ps <> OutOfFuel)
    by (eapply eval_terminates; eauto; unfold N; lia).
  exists (eval cfg env N e s ps). split; auto.
  intros n L. apply C36_larger_bound_same_outcome; auto.
Qed.
Print Assumptions C46_well_founded_terminates.

(** [nullable] is right: where it says no, every acceptance reads something. *)
Theorem C46_not_nullable_reads : forall cfg nul rank R K env e r,
  well_founded_program nul rank R K env ->
  every (loops_read nul rank R K) e -> left_ok nul rank r e = true ->
  nullable nul e = false ->
  forall n s ps v rem q, eval cfg env n e s ps = Accept v rem q ->
    (length rem < length s)%nat.
Proof.
  intros cfg nul rank R K env e r WF Hev LO NU n s ps v rem q E.
  set (N := (n + S ((length s + 1) * (R + 1) + r + K))%nat).
  eapply (eval_reads cfg nul rank R K env WF N); eauto; [unfold N; lia|].
  rewrite <- E. apply C36_larger_bound_same_outcome; [unfold N; lia | congruence].
Qed.
Print Assumptions C46_not_nullable_reads.

(** A named parser that starts itself before reading can not be instantiated on
    any input at any depth. *)
Theorem C46_left_recursion_never : forall cfg env k, begins env (env k) k ->
  forall n s ps, eval cfg env n (PRef k) s ps = OutOfFuel
                 \/ eval cfg env n (PRef k) s ps = Illformed.
Proof.
  intros cfg env k B n s ps. pose proof (left_recursion_never cfg env k B n s ps) as H.
  destruct (eval cfg env n (PRef k) s ps); simpl in H; tauto.
Qed.
Print Assumptions C46_left_recursion_never.

(** A loop whose body accepts without reading can not be instantiated. *)
Theorem C46_loop_without_reading_never : forall cfg env n p st f s ps v,
  (forall m, eval cfg env m p s ps = OutOfFuel \/ eval cfg env m p s ps = Accept v s ps) ->
  (forall x, f x v <> None) -> st <> None ->
  eval cfg env n (PFoldl p st f) s ps = OutOfFuel.
Proof.
  intros cfg env n p st f s ps v H F S. rewrite eval_eq.
  specialize (H n). revert H. generalize (eval cfg env n p) as P. intros P H.
  revert st S. induction n as [|n IH]; intros st S; auto. cbn [foldl].
  destruct H as [-> | E]; auto. rewrite E.
  destruct st as [x|]; [|congruence]. apply IH; auto.
Qed.
Print Assumptions C46_loop_without_reading_never.

(** *** Examples *)

Lemma brackets_well_founded :
  well_founded_program (fun _ => false) (fun _ => 0%nat) 1 0 brackets.
Proof.
  split.
  - intros k. unfold brackets, PLitC, PLetter.
    repeat match goal with
    | H : _ \/ _ |- _ => destruct H
    | H : False |- _ => contradiction
    | H : ?a = ?c |- every _ ?c => subst c
    | |- loops_read _ _ _ _ _ => simpl; auto
    | |- forall c, In c _ -> _ => intros ?c ?H; simpl in *
    | |- every _ _ => constructor
    end.
  - intros k _. reflexivity.
  - intros k. reflexivity.
Qed.

(** Depth 6 is the bound for one pair of brackets; the parser needs 2. *)
Example C46_case :
  well_founded_program (fun _ => false) (fun _ => 0%nat) 1 0 brackets
  /\ every (loops_read (fun _ => false) (fun _ => 0%nat) 1 0) (PRef 0)
  /\ left_ok (fun _ => false) (fun _ => 0%nat) 1 (PRef 0) = true
  /\ nullable (fun _ => false) (PRef 0) = false
  /\ eval c11 brackets 10 (PRef 0) (text "(x)") start = Accept (VChar 120) [] (mkpos 1 4 41).
Proof.
  split; [exact brackets_well_founded|]. split.
  - constructor; [simpl; lia|intros c []].
  - vm_compute. auto.
Qed.

(** expr ::= expr '+' letter | letter: left recursion, also behind an
    alternative that accepts. *)
Local Definition left_rec : program := fun _ =>
  POneOf [PLetter; PSequence [PRef 0; PLitC 43; PLetter]].

Example C46_left_recursion_case :
  begins left_rec (left_rec 0%nat) 0
  /\ left_ok (fun _ => false) (fun _ => 0%nat) 0 (left_rec 0%nat) = false
  /\ eval c11 left_rec 40 (PRef 0) (text "x+y") start = OutOfFuel
  /\ eval c98 left_rec 40 (PRef 0) (text "x+y") start = OutOfFuel.
Proof.
  split; [|vm_compute; auto].
  eapply begins_lead; [right; left; reflexivity|].
  eapply begins_lead; [eexists; reflexivity|]. constructor.
Qed.

Example C46_loop_case :
  (forall m, eval c11 brackets m (PReturn (VInt 1)) (text "x") start
             = Accept (VInt 1) (text "x") start)
  /\ eval c11 brackets 9 (PRepeated (PReturn (VInt 1))) (text "x") start = OutOfFuel.
Proof. split; [intros [|m]; reflexivity | reflexivity]. Qed.
