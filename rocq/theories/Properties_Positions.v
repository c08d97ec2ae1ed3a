(** C01 - C07: remaining input and source positions. *)

From Coq Require Import ZArith List Bool.
From Verif Require Import Base Util Combinators Variadic Parsers Deep Spec SpecDeep
  Proofs_Pos Proofs_Deep Proofs_Final1.
Import ListNotations.
Open Scope Z_scope.

(** A recursive example program: nested brackets around a letter.
    0 = one_of<middle_of<lit_c<'('>, 0, lit_c<')'>>, letter> *)
Definition brackets : program := fun _ =>
  POneOf [PMiddleOf (PLitC 40) (PRef 0) (PLitC 41); PLetter].

(** The hypotheses of C01 - C03 only speak about parsers and error transformers
    the user wrote without the library; this one rewrites a message. *)
Definition blame : msg -> pos -> outcome := fun _ ps => Reject (UserMsg 1) ps.
Definition with_user_code : pexpr :=
  PTransformError (PSequence [PNative one_char; PRef 0]) blame.

Theorem C01_remaining_is_suffix : forall cfg env n e,
  program_every (natives sound_accept keeps_errors) env ->
  every (natives sound_accept keeps_errors) e ->
  forall s ps r rem ps', eval cfg env n e s ps = Accept r rem ps' ->
  exists consumed, s = consumed ++ rem.
Proof.
  exact (fun cfg env n e HE He s ps r rem ps' A =>
    match eval_sound_accept cfg env n e HE He s ps r rem ps' A with
    | ex_intro _ w (conj H _) => ex_intro _ w H
    end).
Qed.
Print Assumptions C01_remaining_is_suffix.

Theorem C02_position_follows_consumed_text : forall cfg env n e,
  program_every (natives sound_accept keeps_errors) env ->
  every (natives sound_accept keeps_errors) e ->
  forall s ps r rem ps', eval cfg env n e s ps = Accept r rem ps' ->
  exists consumed, s = consumed ++ rem /\ walk ps consumed ps'.
Proof. exact eval_sound_accept. Qed.
Print Assumptions C02_position_follows_consumed_text.

(** The hypotheses hold for programs using the library only, and for natives
    that respect the protocol. *)
Lemma one_char_sound : sound_accept one_char /\ sound_reject one_char.
Proof.
  split; intros s ps.
  - intros r rem ps' A. destruct s as [|c s]; simpl in A; inversion A; subst.
    exists [c]. split; auto. apply walk_iff. reflexivity.
  - intros m ps' A. destruct s as [|c s]; simpl in A; inversion A; subst.
    exists []. split; [exists []; auto|constructor].
Qed.
Lemma brackets_every : forall N E, program_every (natives N E) brackets.
Proof.
  intros N E k. repeat (constructor; simpl; auto; intros ? H;
    repeat destruct H as [<- | H]; try contradiction).
Qed.
Lemma user_code_every : every (natives (fun p => sound_accept p /\ sound_reject p)
    (fun f => keeps_errors f /\ keeps_positions f)) with_user_code.
Proof.
  constructor.
  - split; intros m ps; unfold blame; [congruence|]. intros m' ps' H. congruence.
  - intros c [<- | []]. constructor; [exact I|].
    intros c [<- | [<- | []]]; constructor; simpl; auto using one_char_sound; contradiction.
Qed.
Lemma user_code_every_accept : every (natives sound_accept keeps_errors) with_user_code.
Proof.
  refine (every_impl _ _ _ _ user_code_every).
  intros e; destruct e; simpl; tauto.
Qed.

Example C01_C02_case :
  program_every (natives sound_accept keeps_errors) brackets
  /\ every (natives sound_accept keeps_errors) with_user_code
  /\ eval (default_config Std98) brackets 9 with_user_code (text "#((a))!") start
     = Accept (VSeq [VChar 35; VChar 97]) (text "!") (mkpos 1 7 41).
Proof.
  split; [apply brackets_every|]. split; [exact user_code_every_accept|]. vm_compute. reflexivity.
Qed.

Theorem C03_error_position_is_inside_the_text : forall cfg env n e,
  program_every (natives (fun p => sound_accept p /\ sound_reject p)
    (fun f => keeps_errors f /\ keeps_positions f)) env ->
  every (natives (fun p => sound_accept p /\ sound_reject p)
    (fun f => keeps_errors f /\ keeps_positions f)) e ->
  forall s ps m pe, eval cfg env n e s ps = Reject m pe ->
  exists looked_at, prefix looked_at s /\ walk ps looked_at pe.
Proof. exact eval_sound_reject. Qed.
Print Assumptions C03_error_position_is_inside_the_text.

Theorem C03_error_position_bounds : forall cfg env n e,
  program_every (natives (fun p => sound_accept p /\ sound_reject p)
    (fun f => keeps_errors f /\ keeps_positions f)) env ->
  every (natives (fun p => sound_accept p /\ sound_reject p)
    (fun f => keeps_errors f /\ keeps_positions f)) e ->
  forall s ps m pe pend, eval cfg env n e s ps = Reject m pe -> walk ps s pend ->
  pos_le ps pe /\ pos_le pe pend.
Proof.
  exact (fun cfg env n e HE He => sound_reject_bounds _ (eval_sound_reject cfg env n e HE He)).
Qed.
Print Assumptions C03_error_position_bounds.

Example C03_case :
  eval (default_config Std11) brackets 9 with_user_code (text "#((a(") start
  = Reject (UserMsg 1) (mkpos 1 5 97).
Proof. vm_compute. reflexivity. Qed.

Theorem C04_positions_increase : forall ps w ps', w <> [] -> walk ps w ps' ->
  pos_less ps ps' = true /\ pos_equal_to ps ps' = false.
Proof. exact positions_increase. Qed.
Print Assumptions C04_positions_increase.

Theorem C04_positions_ordered_by_consumption : forall s u w ps pu pw,
  prefix u s -> prefix w s -> walk ps u pu -> walk ps w pw ->
  (pos_less pu pw = true <-> (length u < length w)%nat)
  /\ (pos_equal_to pu pw = true <-> u = w).
Proof. exact positions_ordered_by_length. Qed.
Print Assumptions C04_positions_ordered_by_consumption.

(** The test of the *_reject_incomplete parsers: for a parser built from the
    library, the error position is the start position exactly when the parser
    had not got past any character. *)
Theorem C04_error_at_start_means_no_progress : forall cfg env n e,
  program_every (natives (fun p => sound_accept p /\ sound_reject p)
    (fun f => keeps_errors f /\ keeps_positions f)) env ->
  every (natives (fun p => sound_accept p /\ sound_reject p)
    (fun f => keeps_errors f /\ keeps_positions f)) e ->
  forall s ps m pe w, eval cfg env n e s ps = Reject m pe -> walk ps w pe ->
  (pos_equal_to ps pe = true <-> w = []).
Proof.
  exact (fun cfg env n e HE He => error_at_start _ (eval_sound_reject cfg env n e HE He)).
Qed.
Print Assumptions C04_error_at_start_means_no_progress.

Example C04_case : exists pu pw,
  prefix (text "ab") (text "abcd") /\ prefix (text "abc") (text "abcd")
  /\ walk start (text "ab") pu /\ walk start (text "abc") pw /\ pos_less pu pw = true.
Proof.
  exists (mkpos 1 3 98), (mkpos 1 4 99). repeat split.
  - exists (text "cd"); auto.
  - exists (text "d"); auto.
  - apply walk_iff; reflexivity.
  - apply walk_iff; reflexivity.
Qed.

Theorem C05_line_counts_terminators : forall cfg env n e,
  program_every (natives sound_accept keeps_errors) env ->
  every (natives sound_accept keeps_errors) e ->
  forall s r rem ps', eval cfg env n e s start = Accept r rem ps' ->
  exists consumed, s = consumed ++ rem /\ line ps' = 1 + terminators consumed.
Proof.
  exact (fun cfg env n e HE He s r rem ps' A =>
    match eval_sound_accept cfg env n e HE He s start r rem ps' A with
    | ex_intro _ w (conj H W) => ex_intro _ w (conj H (walk_start_line w ps' W))
    end).
Qed.
Print Assumptions C05_line_counts_terminators.

Theorem C05_error_line_counts_terminators : forall cfg env n e,
  program_every (natives (fun p => sound_accept p /\ sound_reject p)
    (fun f => keeps_errors f /\ keeps_positions f)) env ->
  every (natives (fun p => sound_accept p /\ sound_reject p)
    (fun f => keeps_errors f /\ keeps_positions f)) e ->
  forall s m pe, eval cfg env n e s start = Reject m pe ->
  exists looked_at, prefix looked_at s /\ line pe = 1 + terminators looked_at.
Proof.
  exact (fun cfg env n e HE He s m pe A =>
    match eval_sound_reject cfg env n e HE He s start m pe A with
    | ex_intro _ w (conj H W) => ex_intro _ w (conj H (walk_start_line w pe W))
    end).
Qed.
Print Assumptions C05_error_line_counts_terminators.

(** "a CR LF b LF CR": three terminators after the CR LF pair is one. *)
Example C05_case :
  eval (default_config Std11) brackets 9 (PRepeated POneChar) [97; 13; 10; 98; 10; 13] start
  = Accept (VSeq (map VChar [97; 13; 10; 98; 10; 13])) [] (mkpos 4 1 13)
  /\ terminators [97; 13; 10; 98; 10; 13] = 3.
Proof. vm_compute. auto. Qed.

(** The documented meaning of the column fails after CR LF. *)
Theorem C06_column_refuted : exists e s r rem ps' consumed,
  eval (default_config Std11) brackets 9 e s start = Accept r rem ps'
  /\ s = consumed ++ rem
  /\ col ps' <> 1 + Z.of_nat (length (last_line consumed)).
Proof.
  exists (PRepeated POneChar), [13; 10], (VSeq [VChar 13; VChar 10]), [], (mkpos 2 2 10), [13; 10].
  vm_compute. repeat split; congruence.
Qed.
Print Assumptions C06_column_refuted.

(** What the code computes: the column counts from the last line terminator,
    where the LF of a CR LF counts as the first character of its line. *)
Theorem C06_column_exact : forall cfg env n e,
  program_every (natives sound_accept keeps_errors) env ->
  every (natives sound_accept keeps_errors) e ->
  forall s r rem ps', eval cfg env n e s start = Accept r rem ps' ->
  exists consumed, s = consumed ++ rem
  /\ (last_terminator_is_crlf consumed ->
        col ps' = 1 + Z.of_nat (length (last_line consumed)) + 1)
  /\ (~ last_terminator_is_crlf consumed ->
        col ps' = 1 + Z.of_nat (length (last_line consumed))).
Proof.
  exact (fun cfg env n e HE He s r rem ps' A =>
    match eval_sound_accept cfg env n e HE He s start r rem ps' A with
    | ex_intro _ w (conj H W) => ex_intro _ w (conj H (walk_start_col w ps' W))
    end).
Qed.
Print Assumptions C06_column_exact.

Theorem C06_error_column_exact : forall cfg env n e,
  program_every (natives (fun p => sound_accept p /\ sound_reject p)
    (fun f => keeps_errors f /\ keeps_positions f)) env ->
  every (natives (fun p => sound_accept p /\ sound_reject p)
    (fun f => keeps_errors f /\ keeps_positions f)) e ->
  forall s m pe, eval cfg env n e s start = Reject m pe ->
  exists looked_at, prefix looked_at s
  /\ (last_terminator_is_crlf looked_at ->
        col pe = 1 + Z.of_nat (length (last_line looked_at)) + 1)
  /\ (~ last_terminator_is_crlf looked_at ->
        col pe = 1 + Z.of_nat (length (last_line looked_at))).
Proof.
  exact (fun cfg env n e HE He s m pe A =>
    match eval_sound_reject cfg env n e HE He s start m pe A with
    | ex_intro _ w (conj H W) => ex_intro _ w (conj H (walk_start_col w pe W))
    end).
Qed.
Print Assumptions C06_error_column_exact.

Example C06_case :
  eval (default_config Std11) brackets 9 (PRepeated POneChar) [97; 10; 98; 99] start
  = Accept (VSeq (map VChar [97; 10; 98; 99])) [] (mkpos 2 3 99)
  /\ last_line [97; 10; 98; 99] = [98; 99].
Proof. vm_compute. auto. Qed.

Theorem C07_position_comparisons : forall a b c : pos,
  (* strict total order *)
  pos_less a a = false
  /\ (pos_less a b = true -> pos_less b c = true -> pos_less a c = true)
  /\ (pos_less a b = true \/ pos_equal_to a b = true \/ pos_less b a = true)
  /\ (pos_equal_to a b = true <-> a = b)
  (* derived relations *)
  /\ (pos_not_equal_to a b = true <-> a <> b)
  /\ (pos_greater a b = true <-> pos_less b a = true)
  /\ (pos_greater_equal a b = true <-> pos_less a b = false)
  /\ (pos_less_equal a b = true <-> pos_less a b = true \/ a = b)
  (* the order is lexicographic on line, column, previous character *)
  /\ (pos_less a b = true <-> pos_lt a b).
Proof. exact comparisons. Qed.
Print Assumptions C07_position_comparisons.

Example C07_case :
  pos_less (mkpos 1 9 97) (mkpos 2 1 10) = true
  /\ pos_less (mkpos 2 1 10) (mkpos 2 1 13) = true
  /\ pos_greater (mkpos 2 1 13) (mkpos 1 9 97) = true.
Proof. vm_compute. auto. Qed.
