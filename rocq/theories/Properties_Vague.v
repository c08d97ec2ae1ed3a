(** C37 with error messages: what the variadic implementation says where the C++98
    implementation says something else. *)

From Coq Require Import ZArith List Bool Lia.
From Verif Require Import Base Util Combinators Variadic Parsers Deep Spec SpecDeep SpecRules SpecVague
  Proofs_Pos Proofs_Deep Proofs_Rules Proofs_Vague
  Properties_Positions Properties_Deep Properties_Rules.
Import ListNotations.
Open Scope Z_scope.

Local Definition c98 := default_config Std98.
Local Definition c11 := default_config Std11.
Local Definition c14 := default_config Std14.

(** The outcome [o] is what parsing ends with. *)
Definition ends_with (cfg : config) (env : program) (e : pexpr) (s : str) (ps : pos)
  (o : outcome) : Prop :=
  (is_accept o \/ is_reject o) /\ exists n, eval cfg env n e s ps = o.

Lemma ends_gives : forall cfg env e s ps o,
  program_every (fits cfg) env -> every (fits cfg) e ->
  (ends_with cfg env e s ps o <-> gives (cfg_std cfg) env e s ps o).
Proof.
  intros cfg env e s ps o FE Fe. split.
  - intros (S & E). apply C64_the_rules_are_exact; auto.
  - intros G. pose proof (gives_settled _ _ _ _ _ _ G) as S. split; [exact S|].
    apply C64_the_rules_are_exact; auto.
Qed.

Lemma vaguer_one_of_c : forall sd cs s, sd <> Std98 ->
  vaguer (one_of_c_error Std98 cs s) (one_of_c_error sd cs s).
Proof.
  intros sd cs s N.
  assert (R : (exists c, one_of_c_error Std98 cs s = literal_expected c)
    \/ one_of_c_error Std98 cs s = none_of_the_expected_cases_found).
  { simpl. induction cs as [|c cs IH]; [right; reflexivity|].
    destruct cs; [left; eexists; reflexivity|exact IH]. }
  destruct R as [(c & ->) | ->]; destruct sd; try contradiction; destruct s;
    first [exact (vaguer_end c)|exact vaguer_no_case_end|exact (vaguer_no_case _)|exact (vaguer_same _)].
Qed.

Lemma every_respects : forall V A e,
  (forall x, respects_vaguer x -> respects V A x) ->
  every respects_vaguer e -> every (respects V A) e.
Proof. intros V A e H. apply every_impl. exact H. Qed.

Theorem C37_messages : forall cfg1 cfg2 env e,
  cfg_std cfg1 = Std98 -> cfg_std cfg2 <> Std98 ->
  program_every (fits cfg1) env -> every (fits cfg1) e ->
  program_every (fits cfg2) env -> every (fits cfg2) e ->
  program_every respects_vaguer env -> every respects_vaguer e ->
  forall s ps,
    (forall o1, ends_with cfg1 env e s ps o1 ->
       exists o2, ends_with cfg2 env e s ps o2 /\ outcome_vaguer o1 o2)
    /\ (forall o2, ends_with cfg2 env e s ps o2 ->
       exists o1, ends_with cfg1 env e s ps o1 /\ outcome_vaguer o1 o2).
Proof.
  intros cfg1 cfg2 env e E1 N2 FE1 Fe1 FE2 Fe2 HE He s ps.
  assert (P : forall x, respects_vaguer x -> respects vaguer (fun _ => True) x).
  { intros x H. split; [exact I|]. destruct x; simpl in H; auto. }
  assert (Q : forall x, respects_vaguer x -> respects (fun a b => vaguer b a) (fun _ => True) x).
  { intros x H. split; [exact I|]. destruct x; simpl in H; auto.
    - intros m m' q M. specialize (H _ _ q M). unfold outcome_vaguer in H. unfold vrel.
      match goal with |- match ?f m q with _ => _ end => destruct (f m q), (f m' q) end; try discriminate; try congruence.
      destruct H; split; congruence.
    - intros m m' M. specialize (H _ _ M). match goal with |- match ?f _ with _ => _ end => destruct (f m), (f m') end; auto. }
  split.
  - intros o1 X. apply ends_gives in X; auto. rewrite E1 in X.
    destruct (gives_vague Std98 (cfg_std cfg2) env vaguer (fun _ => True)) as (G & _).
    + constructor.
    + constructor. assumption.
    + intros. apply vaguer_one_of_c. assumption.
    + intros _. destruct (cfg_std cfg2); try contradiction; constructor.
    + intros l p es es' d _ F C. destruct (cfg_std cfg2); try contradiction;
        exact (choice_98_11 _ _ _ _ F C).
    + intros k. exact (every_respects _ _ _ P (HE k)).
    + destruct (G _ _ _ _ X (every_respects _ _ _ P He)) as (o2 & G2 & R).
      exists o2. split; [apply ends_gives; auto|exact R].
  - intros o2 X. apply ends_gives in X; auto.
    destruct (gives_vague (cfg_std cfg2) Std98 env (fun a b => vaguer b a) (fun _ => True)) as (G & _).
    + constructor.
    + constructor. assumption.
    + intros. apply vaguer_one_of_c. assumption.
    + intros _. destruct (cfg_std cfg2); try contradiction; constructor.
    + intros l p es es' d _ F C. destruct (cfg_std cfg2); try contradiction;
        exact (choice_11_98 _ _ _ _ F C).
    + intros k. exact (every_respects _ _ _ Q (HE k)).
    + destruct (G _ _ _ _ X (every_respects _ _ _ Q He)) as (o1 & G1 & R).
      exists o1. split; [apply ends_gives; auto; rewrite E1; exact G1|].
      unfold vrel in R. unfold outcome_vaguer.
      destruct o1, o2; try discriminate; try congruence. destruct R; split; congruence.
Qed.
Print Assumptions C37_messages.

Lemma every_eq : forall (A : pexpr -> Prop) e, every A e -> every (respects eq A) e.
Proof.
  intros A e. apply every_impl. intros x Ax. split; [exact Ax|].
  destruct x; auto.
  - intros m m' q <-. unfold vrel. match goal with |- match ?x with _ => _ end => destruct x end; auto.
  - intros m m' <-. match goal with |- match ?x with _ => _ end => destruct x end; auto.
Qed.

Lemma verr_eq : forall es es', Forall2 (verr eq) es es' -> es = es'.
Proof.
  induction 1 as [|[m q] [m' q'] l l' (E1 & E2) F IH]; simpl in *; congruence.
Qed.

Lemma same_by_rules : forall cfg1 cfg2 env e (A : pexpr -> Prop),
  program_every (fits cfg1) env -> every (fits cfg1) e ->
  program_every (fits cfg2) env -> every (fits cfg2) e ->
  program_every A env -> every A e ->
  (forall cs s, A (POneOfC cs) ->
     one_of_c_error (cfg_std cfg1) cs s = one_of_c_error (cfg_std cfg2) cs s) ->
  (A (PLastOf []) -> match cfg_std cfg1 with Std98 => -1 | _ => 0 end
     = match cfg_std cfg2 with Std98 => -1 | _ => 0 end) ->
  (forall l ps es d, A (POneOf l) -> choice_error (cfg_std cfg1) ps es d ->
     choice_error (cfg_std cfg2) ps es d) ->
  forall s ps o, ends_with cfg1 env e s ps o -> ends_with cfg2 env e s ps o.
Proof.
  intros cfg1 cfg2 env e A FE1 Fe1 FE2 Fe2 AE Ae C1 C2 C3 s ps o X.
  apply ends_gives in X; auto. apply ends_gives; auto.
  destruct (gives_vague (cfg_std cfg1) (cfg_std cfg2) env eq A) as (G & _).
  - reflexivity.
  - congruence.
  - exact C1.
  - intros a. rewrite (C2 a). reflexivity.
  - intros l p es es' d Al F C. apply verr_eq in F as <-. exists d. split; [eauto|split; reflexivity].
  - intros k. apply every_eq, AE.
  - destruct (G _ _ _ _ X (every_eq _ _ Ae)) as (o2 & G2 & R).
    enough (o = o2) by congruence. unfold vrel in R. destruct o, o2; try discriminate; auto.
    destruct R; congruence.
Qed.

(** Without the three parsers that say something else, everything is the same, and
    the functions of the user are arbitrary. *)
Definition says_the_same (e : pexpr) : Prop :=
  match e with
  | POneOf _ | POneOfC _ | PLastOf [] => False
  | _ => True
  end.

Theorem C37_same_messages : forall cfg1 cfg2 env e,
  program_every (fits cfg1) env -> every (fits cfg1) e ->
  program_every (fits cfg2) env -> every (fits cfg2) e ->
  program_every says_the_same env -> every says_the_same e ->
  forall s ps o, ends_with cfg1 env e s ps o <-> ends_with cfg2 env e s ps o.
Proof.
  intros cfg1 cfg2 env e FE1 Fe1 FE2 Fe2 SE Se s ps o. split;
    apply same_by_rules with (A := says_the_same); auto; simpl; intros; contradiction.
Qed.
Print Assumptions C37_same_messages.

(** The two variadic implementations say the same. *)
Theorem C37_variadic_same : forall cfg1 cfg2 env e,
  cfg_std cfg1 <> Std98 -> cfg_std cfg2 <> Std98 ->
  program_every (fits cfg1) env -> every (fits cfg1) e ->
  program_every (fits cfg2) env -> every (fits cfg2) e ->
  forall s ps o, ends_with cfg1 env e s ps o <-> ends_with cfg2 env e s ps o.
Proof.
  intros cfg1 cfg2 env e N1 N2 FE1 Fe1 FE2 Fe2 s ps o.
  assert (T : forall x, every (fun _ => True) x).
  { intros x. revert x. apply pexpr_children_ind. intros x IH. constructor; auto. }
  split; apply same_by_rules with (A := fun _ => True); auto; try (intros k; apply T);
    destruct (cfg_std cfg1), (cfg_std cfg2); try contradiction; auto.
Qed.
Print Assumptions C37_variadic_same.

Ltac fit :=
  repeat match goal with
  | H : _ \/ _ |- _ => destruct H
  | H : False |- _ => contradiction
  | H : ?a = ?c |- every _ ?c => subst c
  | |- forall c, In c _ -> _ => intros ?c ?H; simpl in *
  | |- every _ _ => constructor
  | |- fits _ _ => first [exact I
      |vm_compute; first [discriminate|intros _; lia|split; [first [discriminate|intros _; lia]|discriminate]]]
  | |- respects_vaguer _ => simpl; auto; try (intros; exact I)
  | |- says_the_same _ => exact I
  end.

Definition nothing : program := fun _ => PFail end_of_input_expected.

(** Choices in brackets. *)
Definition choose : pexpr :=
  PMiddleOf (PLitC 40) (POneOf [PLitC 97; PDigit]) (PLitC 41).
Definition choose_c : pexpr :=
  PMiddleOf (PLitC 40) (POneOfC [97; 98]) (PLitC 41).
Definition last_in_brackets : pexpr :=
  PMiddleOf (PLitC 40) (PLitC 97) (PLastOf []).

Example C37_messages_case :
  (program_every (fits c98) nothing /\ program_every (fits c11) nothing
   /\ program_every respects_vaguer nothing)
  /\ (forall e, In e [choose; choose_c; last_in_brackets] ->
        every (fits c98) e /\ every (fits c11) e /\ every respects_vaguer e)
  (* no case: only the variadic implementation says so *)
  /\ eval c98 nothing 9 choose (text "(x") start = Reject digit_expected (mkpos 1 2 40)
  /\ eval c11 nothing 9 choose (text "(x") start
     = Reject none_of_the_expected_cases_found (mkpos 1 2 40)
  (* one_of_c at the end *)
  /\ eval c98 nothing 9 choose_c (text "(") start = Reject (literal_expected 98) (mkpos 1 2 40)
  /\ eval c11 nothing 9 choose_c (text "(") start = Reject unexpected_end_of_input (mkpos 1 2 40)
  (* inside unpaired *)
  /\ eval c98 nothing 9 last_in_brackets (text "(a") start
     = Reject (unpaired 1 1 (index_out_of_range 0 (-1) (-1))) (mkpos 1 3 97)
  /\ eval c11 nothing 9 last_in_brackets (text "(a") start
     = Reject (unpaired 1 1 (index_out_of_range 0 (-1) 0)) (mkpos 1 3 97)
  (* the same message *)
  /\ eval c98 nothing 9 choose (text "(a") start
     = Reject (unpaired 1 1 (literal_expected 41)) (mkpos 1 3 97)
  /\ eval c11 nothing 9 choose (text "(a") start
     = Reject (unpaired 1 1 (literal_expected 41)) (mkpos 1 3 97).
Proof.
  split; [|split].
  - split; [|split]; intros k; unfold nothing; fit.
  - intros e [<-|[<-|[<-|[]]]]; (split; [|split]);
      unfold choose, choose_c, last_in_brackets, PLitC, PDigit; fit.
  - vm_compute. repeat split; reflexivity.
Qed.

(** A transformer that looks at the message, without a choice. *)
Definition explained : pexpr :=
  PSequence [PLitC 97; PTransformError (POneCharExceptC [120])
    (fun m q => match m with unexpected_character => Reject expected_to_fail start | _ => Accept VVoid_ [] q end)].

Example C37_same_messages_case :
  every (fits c98) explained /\ every (fits c11) explained /\ every says_the_same explained
  /\ eval c98 nothing 9 explained (text "ax") start = Reject expected_to_fail start
  /\ eval c11 nothing 9 explained (text "ax") start = Reject expected_to_fail start
  /\ eval c98 nothing 9 explained (text "a") start = Accept (VSeq [VChar 97; VVoid_]) [] (mkpos 1 2 97)
  /\ eval c11 nothing 9 explained (text "a") start = Accept (VSeq [VChar 97; VVoid_]) [] (mkpos 1 2 97).
Proof.
  split; [|split; [|split]].
  1-3: unfold explained, PLitC, PDigit; fit.
  vm_compute. repeat split; reflexivity.
Qed.

(** A transformer that looks at the message of a choice tells the implementations
    apart, even in what is accepted. *)
Theorem C37_messages_refuted : exists e s r q m q',
  every (fits c98) e /\ every (fits c11) e
  /\ ends_with c98 nothing e s start (Accept r s q)
  /\ ends_with c11 nothing e s start (Reject m q').
Proof.
  exists (PTransformError (POneOf [PLitC 97; PLitC 98])
            (fun m q => match m with
                        | literal_expected _ => Accept VVoid_ [120] q
                        | _ => Reject m q
                        end)),
    (text "x"), VVoid_, start, none_of_the_expected_cases_found, start.
  split; [unfold PLitC; fit|]. split; [unfold PLitC; fit|]. split; split.
  - left. do 3 eexists. reflexivity.
  - exists 9%nat. vm_compute. reflexivity.
  - right. do 2 eexists. reflexivity.
  - exists 9%nat. vm_compute. reflexivity.
Qed.
Print Assumptions C37_messages_refuted.
