(** C38 with error messages: parsing at another place gives the same messages,
    the positions in [unpaired] messages being moved along. *)

From Coq Require Import ZArith List Bool Lia.
From Verif Require Import Base Util Combinators Variadic Parsers Deep Spec SpecDeep SpecRules SpecMoved
  Proofs_Pos Proofs_Deep Proofs_Rules Proofs_Rel Proofs_Moved
  Properties_Positions Properties_Deep Properties_Rules.
Import ListNotations.
Open Scope Z_scope.

Local Definition c11 := default_config Std11.

Lemma blind_no_position : forall e, every position_blind e -> every no_position e.
Proof.
  intros e H. induction H as [e A _ IH]. constructor; [|exact IH].
  destruct e; simpl in A; split; simpl; auto.
  - intros s ps1 ps2. exact (proj1 (A s ps1 ps2)).
  - intros m q. destruct (A [] q q q q m m (moved_same _ _ _ m)) as (m' & _ & E & _). eauto.
  - intros m. destruct (A [] start start m m (moved_same _ _ _ m)) as (m' & _ & E & _). congruence.
Qed.

Theorem C38_messages_moved : forall cfg env n e,
  program_every (fits cfg) env -> every (fits cfg) e ->
  program_every position_blind env -> every position_blind e ->
  forall s ps1 ps2,
    same_all s ps1 ps2 (eval cfg env n e s ps1) (eval cfg env n e s ps2).
Proof.
  intros cfg env n e FE Fe HE He s ps1 ps2.
  pose proof (C38_start_position_irrelevant cfg env n e
    (fun k => blind_no_position _ (HE k)) (blind_no_position _ He) s ps1 ps2) as S.
  split; [exact S|].
  destruct (eval cfg env n e s ps1) as [|m1 q1| |] eqn:E1; auto.
  destruct (eval cfg env n e s ps2) as [|m2 q2| |] eqn:E2; auto.
  assert (G1 : gives (cfg_std cfg) env e s ps1 (Reject m1 q1)).
  { apply C64_the_rules_are_exact; eauto. right. do 2 eexists. reflexivity. }
  assert (G2 : gives (cfg_std cfg) env e s ps2 (Reject m2 q2)).
  { apply C64_the_rules_are_exact; eauto. right. do 2 eexists. reflexivity. }
  destruct (gives_moved (cfg_std cfg) env HE) as (M & _).
  destruct (M _ _ _ _ G1 He ps2) as (o2 & G & R).
  rewrite (C64_at_most_one_result cfg env e FE Fe _ _ _ _ G G2) in R.
  exact (proj1 R).
Qed.
Print Assumptions C38_messages_moved.

(** Nested brackets: the inner one is not closed. *)
Lemma brackets_fit : program_every (fits c11) brackets.
Proof.
  intros k. unfold brackets, PLitC, PLetter.
  repeat match goal with
  | H : _ \/ _ |- _ => destruct H
  | H : False |- _ => contradiction
  | H : ?a = ?c |- every _ ?c => subst c
  | |- forall c, In c _ -> _ => intros ?c ?H; simpl in *
  | |- every _ _ => constructor
  | |- fits _ _ => simpl; try exact I; discriminate
  end.
Qed.
Lemma brackets_blind : program_every position_blind brackets.
Proof.
  intros k. unfold brackets, PLitC, PLetter.
  repeat match goal with
  | H : _ \/ _ |- _ => destruct H
  | H : False |- _ => contradiction
  | H : ?a = ?c |- every _ ?c => subst c
  | |- forall c, In c _ -> _ => intros ?c ?H; simpl in *
  | |- every _ _ => constructor
  | |- position_blind _ => exact I
  end.
Qed.

Example C38_messages_case :
  program_every (fits c11) brackets /\ program_every position_blind brackets
  /\ eval c11 brackets 9 (PRef 0) (text "((x") (mkpos 7 3 13)
     = Reject (unpaired 7 4 (literal_expected 41)) (mkpos 7 6 120)
  /\ eval c11 brackets 9 (PRef 0) (text "((x") (mkpos 1 1 0)
     = Reject (unpaired 1 2 (literal_expected 41)) (mkpos 1 4 120).
Proof.
  split; [exact brackets_fit|]. split; [exact brackets_blind|]. vm_compute. auto.
Qed.

(** A function on error messages that looks at the position in the message can
    give different messages at different places. *)
Theorem C38_messages_moved_refuted : exists e s ps1 ps2 m1 m2 q1 q2,
  every (fits c11) e /\ every no_position e
  /\ eval c11 (fun _ => PFail end_of_input_expected) 9 e s ps1 = Reject m1 q1
  /\ eval c11 (fun _ => PFail end_of_input_expected) 9 e s ps2 = Reject m2 q2
  /\ ~ moved s ps1 ps2 m1 m2.
Proof.
  exists (PTransformErrorMessage
            (PMiddleOf POneChar (PReturn VVoid_) (PFail unexpected_character))
            (fun m => match m with
                      | unpaired 1 _ _ => Some expected_to_fail
                      | _ => Some m
                      end)).
  exists (text "("), (mkpos 1 1 0), (mkpos 2 1 0), expected_to_fail,
    (unpaired 2 1 unexpected_character), (mkpos 1 2 40), (mkpos 2 2 40).
  split; [|split; [|split; [|split]]].
  - repeat match goal with
    | H : _ \/ _ |- _ => destruct H
    | H : False |- _ => contradiction
    | H : ?a = ?c |- every _ ?c => subst c
    | |- forall c, In c _ -> _ => intros ?c ?H; simpl in *
    | |- every _ _ => constructor
    | |- fits _ _ => simpl; try exact I; discriminate
    end.
  - repeat match goal with
    | H : _ \/ _ |- _ => destruct H
    | H : False |- _ => contradiction
    | H : ?a = ?c |- every _ ?c => subst c
    | |- forall c, In c _ -> _ => intros ?c ?H; simpl in *
    | |- every _ _ => constructor
    | |- no_position _ => split; simpl; try exact I
    end.
    intros m. destruct m; try discriminate. destruct l as [|[| |]|]; discriminate.
  - vm_compute. reflexivity.
  - vm_compute. reflexivity.
  - intros M. inversion M.
Qed.
Print Assumptions C38_messages_moved_refuted.
