(** C88: parsers recognise the languages of parsing expression grammars. *)

From Coq Require Import ZArith List Bool Lia.
From Verif Require Import Base Util Combinators Variadic Parsers Deep Spec SpecDeep SpecRules SpecTerm
  SpecType SpecPeg Proofs_Deep Proofs_Rules Proofs_Term Proofs_Type Proofs_PegAll Properties_Positions
  Properties_Positions Properties_Deep Properties_Rules Properties_Term Properties_Type.
Import ListNotations.
Open Scope Z_scope.

Local Definition c98 := default_config Std98.
Local Definition c11 := default_config Std11.

(** The parsing expressions of the named parsers. *)
Definition rules_of (env : program) : nat -> parsing_expression := fun k => peg_of (env k).

(** Whatever a parser accepts its parsing expression recognises, leaving the
    same rest, and on whatever it rejects its parsing expression fails. *)
Theorem C88_parsers_recognise : forall cfg env e,
  program_every (fits cfg) env -> every (fits cfg) e ->
  program_every recognition env -> every recognition e ->
  forall n s ps,
    (forall r s' q, eval cfg env n e s ps = Accept r s' q ->
       recognises (rules_of env) (peg_of e) s (Some s'))
    /\ (forall m q, eval cfg env n e s ps = Reject m q ->
       recognises (rules_of env) (peg_of e) s None).
Proof.
  intros cfg env e FE Fe RE Re n s ps.
  destruct (gives_recognises (cfg_std cfg) env RE) as (A & _).
  split; [intros r s' q E|intros m q E].
  - apply (A e s ps (Accept r s' q)); auto.
    apply C64_the_rules_are_exact; auto; [left; unfold is_accept; eauto|exists n; exact E].
  - apply (A e s ps (Reject m q)); auto.
    apply C64_the_rules_are_exact; auto; [right; unfold is_reject; eauto|exists n; exact E].
Qed.
Print Assumptions C88_parsers_recognise.

(** A parsing expression does one thing on a text. *)
Theorem C88_one_verdict : forall rules g s r1 r2,
  recognises rules g s r1 -> recognises rules g s r2 -> r1 = r2.
Proof. exact recognises_once. Qed.
Print Assumptions C88_one_verdict.

(** So a parser that always finishes (C46, C47) accepts exactly what its
    parsing expression recognises. *)
Theorem C88_same_language : forall cfg nul rank R K G env e r T,
  program_every (fits cfg) env -> every (fits cfg) e ->
  program_every recognition env -> every recognition e ->
  well_founded_program nul rank R K env ->
  every (loops_read nul rank R K) e -> left_ok nul rank r e = true ->
  (forall k, typed cfg G (env k) (G k)) -> typed cfg G e T ->
  forall n s ps, ((length s + 1) * (R + 1) + r + K < n)%nat ->
    (forall s', recognises (rules_of env) (peg_of e) s (Some s')
       <-> exists v q, eval cfg env n e s ps = Accept v s' q)
    /\ (recognises (rules_of env) (peg_of e) s None
       <-> exists m q, eval cfg env n e s ps = Reject m q).
Proof.
  intros cfg nul rank R K G env e r T FE Fe RE Re WF Hev LO HE He n s ps N.
  destruct (C88_parsers_recognise cfg env e FE Fe RE Re n s ps) as (A & B).
  pose proof (C47_verdict cfg nul rank R K G env e r T WF Hev LO HE He s ps n N) as [V|V].
  - destruct V as (v & s1 & q & E). split; [intros s'|].
    + split; [|intros (v' & q' & E'); eauto]. intros H.
      pose proof (C88_one_verdict _ _ _ _ _ H (A _ _ _ E)) as X. injection X as ->. eauto.
    + split; [|intros (m' & q' & E'); eauto]. intros H.
      pose proof (C88_one_verdict _ _ _ _ _ H (A _ _ _ E)). discriminate.
  - destruct V as (m & q & E). split; [intros s'|].
    + split; [|intros (v' & q' & E'); eauto]. intros H.
      pose proof (C88_one_verdict _ _ _ _ _ H (B _ _ E)). discriminate.
    + split; [|intros (m' & q' & E'); eauto]. intros H. eauto.
Qed.
Print Assumptions C88_same_language.

(** Conversely every grammar of parsing expressions can be written with the
    library, with two arguments for the templates with many. *)
Lemma parser_of_typed : forall cfg g, fits_one_of cfg 2 -> fits_sequence cfg 2 ->
  typed cfg (fun _ _ => True) (parser_of g) (fun _ => True).
Proof.
  intros cfg g F1 F2. induction g; simpl.
  - apply T_return. exact I.
  - apply T_fail.
  - eapply T_sub; [apply T_accept_when; [apply T_one_char|]|auto]. intros v (c & ->). discriminate.
  - eapply T_sub; [apply T_sequence; [auto|discriminate|]|auto].
    repeat (apply T_cons; [eassumption|]). apply T_nil.
  - apply T_one_of; auto. simpl. repeat (apply T_cons; [eassumption|]). apply T_nil.
  - eapply T_foldl; eauto. intros v w _ _. eauto.
  - eapply T_except; eauto.
  - apply (T_ref cfg (fun _ _ => True)).
Qed.

Theorem C88_every_grammar : forall cfg nul rank R K rules g r,
  fits_one_of cfg 2 -> fits_sequence cfg 2 ->
  well_founded_program nul rank R K (fun k => parser_of (rules k)) ->
  every (loops_read nul rank R K) (parser_of g) -> left_ok nul rank r (parser_of g) = true ->
  forall n s ps, ((length s + 1) * (R + 1) + r + K < n)%nat ->
    (forall s', recognises rules g s (Some s')
       <-> exists v q, eval cfg (fun k => parser_of (rules k)) n (parser_of g) s ps = Accept v s' q)
    /\ (recognises rules g s None
       <-> exists m q, eval cfg (fun k => parser_of (rules k)) n (parser_of g) s ps = Reject m q).
Proof.
  intros cfg nul rank R K rules g r F1 F2 WF Hev LO n s ps N.
  destruct (C88_same_language cfg nul rank R K (fun _ _ => True) (fun k => parser_of (rules k))
    (parser_of g) r (fun _ => True)) with (n := n) (s := s) (ps := ps) as (A & B); auto.
  - intros k. apply parser_of_fits; auto.
  - apply parser_of_fits; auto.
  - intros k. apply parser_of_recognition.
  - apply parser_of_recognition.
  - intros k. apply parser_of_typed; auto.
  - apply parser_of_typed; auto.
  - assert (X : forall x, recognises rules g s x
       <-> recognises (rules_of (fun k => parser_of (rules k))) (peg_of (parser_of g)) s x).
    { assert (S : forall a b, alike a b -> alike b a) by (induction 1; constructor; auto).
      intros x. split; intros H.
      - eapply alike_recognises; [|exact H|apply S, peg_of_parser_of].
        intros k. apply S, peg_of_parser_of.
      - eapply alike_recognises; [|exact H|apply peg_of_parser_of].
        intros k. apply peg_of_parser_of. }
    split; [intros s'|]; rewrite X; auto.
Qed.
Print Assumptions C88_every_grammar.

(** ** Examples *)

(** a^n b^n c^n, not context free: D ::= &(A c) a* B !. ;
    A ::= a A b | a b ;  B ::= b B c | b c. *)
Definition is (c : char) := FClass (Z.eqb c).
Definition abc_rules (k : nat) : parsing_expression :=
  match k with
  | 1%nat => FAlt (FSeq (is 97) (FSeq (FName 1) (is 98))) (FSeq (is 97) (is 98))
  | 2%nat => FAlt (FSeq (is 98) (FSeq (FName 2) (is 99))) (FSeq (is 98) (is 99))
  | _ => FSeq (fand (FSeq (FName 1) (is 99)))
           (FSeq (FStar (is 97)) (FSeq (FName 2) (FNot fany)))
  end.
Definition abc_rank (k : nat) : nat := match k with 1%nat | 2%nat => 0%nat | _ => 1%nat end.

Lemma abc_well_founded : well_founded_program (fun _ => false) abc_rank 2 0
  (fun k => parser_of (abc_rules k)).
Proof.
  split.
  - intros [|[|[|k]]]; simpl;
    repeat match goal with
    | H : _ \/ _ |- _ => destruct H
    | H : False |- _ => contradiction
    | H : ?a = ?c |- every _ ?c => subst c
    | |- loops_read _ _ _ _ _ => simpl; auto
    | |- forall c, In c _ -> _ => intros ?c ?H; simpl in *
    | |- every _ _ => constructor
    end.
  - intros [|[|[|k]]]; reflexivity.
  - intros [|[|[|k]]]; reflexivity.
Qed.

Example C88_case :
  fits_one_of c98 2 /\ fits_sequence c98 2
  /\ well_founded_program (fun _ => false) abc_rank 2 0 (fun k => parser_of (abc_rules k))
  /\ every (loops_read (fun _ => false) abc_rank 2 0) (parser_of (FName 0))
  /\ left_ok (fun _ => false) abc_rank 2 (parser_of (FName 0)) = true
  /\ recognises abc_rules (FName 0) (text "aabbcc") (Some [])
  /\ recognises abc_rules (FName 0) (text "aabbc") None
  /\ recognises abc_rules (FName 0) (text "aabcc") None.
Proof.
  assert (F1 : fits_one_of c98 2) by (intros _; cbv; repeat constructor).
  assert (F2 : fits_sequence c98 2) by (intros _; cbv; repeat constructor).
  assert (E : every (loops_read (fun _ => false) abc_rank 2 0) (parser_of (FName 0)))
    by (constructor; [simpl; lia|intros c []]).
  assert (X := C88_every_grammar c98 _ _ _ _ abc_rules (FName 0) 2 F1 F2 abc_well_founded E eq_refl 60).
  split; [exact F1|]. split; [exact F2|]. split; [exact abc_well_founded|]. split; [exact E|].
  split; [reflexivity|]. split; [|split].
  - apply (X (text "aabbcc") start); [simpl; lia|].
    exists (VSeq [VVoid_; VSeq [VVoid_; VSeq [VSeq [VChar 98; VSeq [VSeq [VChar 98; VChar 99]; VChar 99]]; VVoid_]]]),
      (mkpos 1 7 99). vm_compute. reflexivity.
  - apply (X (text "aabbc") start); [simpl; lia|].
    exists unexpected_end_of_input, (mkpos 1 6 99). vm_compute. reflexivity.
  - apply (X (text "aabcc") start); [simpl; lia|].
    exists expected_to_fail, start. vm_compute. reflexivity.
Qed.

(** A parser of the user manual kind: a list of words in brackets. *)
Definition words : pexpr :=
  PMiddleOf (PToken (PLitC 40)) (PRepeated (PToken (PFoldl1 PLetter (Some (VSeq [])) back_inserter)))
    (PToken (PLitC 41)).
Example C88_parser_case :
  every recognition words /\ every (fits c98) words
  /\ eval c98 brackets 9 words (text "(ab c) d") start
     = Accept (VSeq [VSeq [VChar 97; VChar 98]; VSeq [VChar 99]]) (text "d") (mkpos 1 8 32)
  /\ recognises (rules_of brackets) (peg_of words) (text "(ab c) d") (Some (text "d"))
  /\ recognises (rules_of brackets) (peg_of words) (text "(ab,") None.
Proof.
  assert (F : forall cfg, fits_sequence cfg 3 -> fits_sequence cfg 2 -> every (fits cfg) words).
  { intros cfg F3 F2. unfold words, PToken, PRepeated, PLitC, PLetter, PSpace.
    repeat match goal with
    | H : _ \/ _ |- _ => destruct H
    | H : False |- _ => contradiction
    | H : ?a = ?c |- every _ ?c => subst c
    | |- fits _ _ => simpl; auto
    | |- forall c, In c _ -> _ => intros ?c ?H; simpl in *
    | |- every _ _ => constructor
    end. }
  assert (Rw : every recognition words).
  { unfold words, PToken, PRepeated, PLitC, PLetter, PSpace.
    repeat match goal with
    | H : _ \/ _ |- _ => destruct H
    | H : False |- _ => contradiction
    | H : ?a = ?c |- every _ ?c => subst c
    | |- recognition _ => simpl; auto
    | |- forall c, In c _ -> _ => intros ?c ?H; simpl in *
    | |- every _ _ => constructor
    end. }
  assert (Rb : program_every recognition brackets).
  { intros k. unfold brackets, PLitC, PLetter.
    repeat match goal with
    | H : _ \/ _ |- _ => destruct H
    | H : False |- _ => contradiction
    | H : ?a = ?c |- every _ ?c => subst c
    | |- recognition _ => simpl; auto
    | |- forall c, In c _ -> _ => intros ?c ?H; simpl in *
    | |- every _ _ => constructor
    end. }
  assert (Fb : program_every (fits c98) brackets).
  { intros k. unfold brackets, PLitC, PLetter.
    repeat match goal with
    | H : _ \/ _ |- _ => destruct H
    | H : False |- _ => contradiction
    | H : ?a = ?c |- every _ ?c => subst c
    | |- fits _ _ => unfold fits, fits_one_of, fits_sequence; try exact I; intros _; cbv; repeat constructor
    | |- forall c, In c _ -> _ => intros ?c ?H; simpl in *
    | |- every _ _ => constructor
    end. }
  assert (Fw : every (fits c98) words) by (apply F; intros _; cbv; repeat constructor).
  split; [exact Rw|]. split; [exact Fw|]. split; [vm_compute; reflexivity|]. split.
  - eapply (proj1 (C88_parsers_recognise c98 brackets words Fb Fw Rb Rw 9 (text "(ab c) d") start)
              (VSeq [VSeq [VChar 97; VChar 98]; VSeq [VChar 99]]) (text "d") (mkpos 1 8 32)).
    vm_compute. reflexivity.
  - eapply (proj2 (C88_parsers_recognise c98 brackets words Fb Fw Rb Rw 9 (text "(ab,") start)
              (unpaired 1 1 (literal_expected 41)) (mkpos 1 4 98)).
    vm_compute. reflexivity.
Qed.

(** ** What is not a parsing expression *)

(** The reject_incomplete variants look at where the error is: two parsers with
    the same parsing expression can be told apart. *)
Theorem C88_reject_incomplete_refuted : exists cfg env n p q s ps,
  every recognition p /\ every recognition q /\ peg_of p = peg_of q
  /\ eval cfg env n (PFoldlRejectIncomplete p (Some (VSeq [])) back_inserter) s ps
     = Accept (VSeq []) s ps
  /\ eval cfg env n (PFoldlRejectIncomplete q (Some (VSeq [])) back_inserter) s ps
     = Reject (literal_expected 98) (mkpos 1 2 97).
Proof.
  exists c11, (fun _ => POneChar), 9%nat,
    (PChangeErrorMessage (PLastOf [PLitC 97; PLitC 98]) digit_expected),
    (PLastOf [PLitC 97; PLitC 98]), (text "ac"), start.
  assert (Q : every recognition (PLastOf [PLitC 97; PLitC 98])).
  { unfold PLitC. repeat match goal with
    | H : _ \/ _ |- _ => destruct H
    | H : False |- _ => contradiction
    | H : ?a = ?c |- every _ ?c => subst c
    | |- recognition _ => simpl; auto
    | |- forall c, In c _ -> _ => intros ?c ?H; simpl in *
    | |- every _ _ => constructor
    end. }
  split; [constructor; [exact I|intros c [<-|[]]; exact Q]|]. split; [exact Q|].
  vm_compute. auto.
Qed.
Print Assumptions C88_reject_incomplete_refuted.

(** A choice recognises a text as soon as one alternative does; [one_of] needs
    all of them to finish. *)
Theorem C88_all_alternatives_refuted : exists rules g s s',
  recognises rules g s (Some s')
  /\ forall cfg n ps,
       eval cfg (fun k => parser_of (rules k)) n (parser_of g) s ps = OutOfFuel
       \/ eval cfg (fun k => parser_of (rules k)) n (parser_of g) s ps = Illformed.
Proof.
  exists (fun _ => FName 0), (FAlt (is 97) (FName 0)), (text "a"), [].
  split; [apply f_alt; constructor; reflexivity|].
  intros cfg n ps.
  assert (L : forall s q, eval cfg (fun k => parser_of (FName 0)) n (PRef 0) s q = OutOfFuel).
  { induction n as [|n IH]; intros s q; [reflexivity|]. apply (IH s q). }
  set (env := fun _ : nat => parser_of (FName 0)) in *.
  replace (eval cfg env n (parser_of (FAlt (is 97) (FName 0))))
    with (one_of cfg [eval cfg env n (PAcceptWhen POneChar (char_in (Z.eqb 97)) unexpected_character);
            eval cfg env n (PRef 0)]) by (destruct n; reflexivity).
  assert (A : eval cfg env n (PAcceptWhen POneChar (char_in (Z.eqb 97)) unexpected_character) (text "a") ps
    = Accept (VChar 97) [] (next_pos 97 ps)) by (destruct n; reflexivity).
  unfold one_of, one_of_98. destruct (cfg_std cfg).
  - destruct (Nat.leb _ _); [|auto]. unfold one_of_98_impl. cbn [fold_left].
    unfold fail at 1 2. unfold one_of_fwd_op at 2 4. rewrite A. simpl. rewrite L. auto.
  - cbn [one_of_11]. rewrite A, L. auto.
  - cbn [one_of_11]. rewrite A, L. auto.
Qed.
Print Assumptions C88_all_alternatives_refuted.
