(** C15 - C19, C31, C43: sequence, nth_of, one_of, iterate and the arity
    limits. *)

From Coq Require Import ZArith List Bool Lia.
From Verif Require Import Base Util Combinators Variadic Parsers Spec
  Proofs_Pos Proofs_Fold Proofs_Variadic Proofs_Parsers Proofs_Final3.
Import ListNotations.
Open Scope Z_scope.

Definition c98 := default_config Std98.
Definition c11 := default_config Std11.

(** ** C15 sequence *)

Theorem C15_sequence_accepts : forall cfg l s ps v s' ps',
  fits_sequence cfg (length l) -> l <> [] ->
  (sequence cfg l s ps = Accept v s' ps' <->
   exists rs, v = VSeq rs /\ in_row l s ps rs s' ps').
Proof. exact sequence_cfg_accept. Qed.
Print Assumptions C15_sequence_accepts.

Theorem C15_sequence_fails_as_its_first_failure : forall cfg l s ps,
  fits_sequence cfg (length l) -> l <> [] ->
  (forall m pe, sequence cfg l s ps = Reject m pe <-> first_failure l s ps (Reject m pe))
  /\ (sequence cfg l s ps = Illformed <-> first_failure l s ps Illformed)
  /\ (sequence cfg l s ps = OutOfFuel <-> first_failure l s ps OutOfFuel).
Proof. exact sequence_cfg_failure. Qed.
Print Assumptions C15_sequence_fails_as_its_first_failure.

Theorem C15_implementations_agree : forall cfg98 cfg11 l s ps,
  cfg_std cfg98 = Std98 -> cfg_std cfg11 <> Std98 ->
  (1 <= length l < limit_sequence cfg98)%nat ->
  sequence cfg98 l s ps = sequence cfg11 l s ps.
Proof. exact sequence_std. Qed.
Print Assumptions C15_implementations_agree.

(** The sequence of no parsers exists in the variadic implementation only. *)
Theorem C15_empty_sequence : forall cfg s ps,
  sequence cfg [] s ps =
  match cfg_std cfg with Std98 => Illformed | _ => Accept (VSeq []) s ps end.
Proof. exact sequence_empty. Qed.
Print Assumptions C15_empty_sequence.

Example C15_case :
  fits_sequence c98 3
  /\ in_row [lit_c 40; digit_val; lit_c 41] (text "(1)x") start
       [VChar 40; VInt 1; VChar 41] (text "x") (mkpos 1 4 41)
  /\ sequence c98 [lit_c 40; digit_val; lit_c 41] (text "(1)x") start
     = Accept (VSeq [VChar 40; VInt 1; VChar 41]) (text "x") (mkpos 1 4 41)
  /\ first_failure [lit_c 40; digit_val; lit_c 41] (text "(1x") start
       (Reject (literal_expected 41) (mkpos 1 3 49)).
Proof.
  split; [intros _; cbv; repeat constructor|]. split.
  - econstructor; [vm_compute; reflexivity|]. econstructor; [vm_compute; reflexivity|].
    econstructor; [vm_compute; reflexivity|]. constructor.
  - split; [vm_compute; reflexivity|].
    exists [lit_c 40; digit_val], (lit_c 41), [], [VChar 40; VInt 1], (text "x"), (mkpos 1 3 49).
    split; auto. split; [|vm_compute; reflexivity].
    econstructor; [vm_compute; reflexivity|]. econstructor; [vm_compute; reflexivity|]. constructor.
Qed.

(** ** C16 nth_of, first_of, last_of *)

Theorem C16_nth_of_accepts : forall cfg l k s ps v s' ps',
  fits_sequence cfg (length l) -> (k < length l)%nat ->
  (nth_of_c cfg (Z.of_nat k) l s ps = Accept v s' ps' <->
   exists rs, in_row l s ps rs s' ps' /\ nth_error rs k = Some v).
Proof. exact nth_of_cfg_accept. Qed.
Print Assumptions C16_nth_of_accepts.

Theorem C16_nth_of_fails_as_its_first_failure : forall cfg l k s ps,
  fits_sequence cfg (length l) -> (k < length l)%nat ->
  (forall m pe, nth_of_c cfg (Z.of_nat k) l s ps = Reject m pe
                <-> first_failure l s ps (Reject m pe))
  /\ (nth_of_c cfg (Z.of_nat k) l s ps = Illformed <-> first_failure l s ps Illformed)
  /\ (nth_of_c cfg (Z.of_nat k) l s ps = OutOfFuel <-> first_failure l s ps OutOfFuel).
Proof. exact nth_of_cfg_failure. Qed.
Print Assumptions C16_nth_of_fails_as_its_first_failure.

(** Whatever the parsers are: they are not run. *)
Theorem C16_nth_of_out_of_range : forall cfg l k s ps,
  fits_sequence cfg (length l) -> (k < 0 \/ Z.of_nat (length l) <= k) ->
  nth_of_c cfg k l s ps
  = Reject (index_out_of_range 0 (Z.of_nat (length l) - 1) k) ps.
Proof. exact nth_of_cfg_out_of_range. Qed.
Print Assumptions C16_nth_of_out_of_range.

Theorem C16_first_of_accepts : forall cfg l s ps v s' ps',
  fits_sequence cfg (length l) -> l <> [] ->
  (first_of cfg l s ps = Accept v s' ps' <->
   exists rs, in_row l s ps (v :: rs) s' ps').
Proof. exact first_of_cfg_accept. Qed.
Print Assumptions C16_first_of_accepts.

Theorem C16_last_of_accepts : forall cfg l s ps v s' ps',
  fits_sequence cfg (length l) -> l <> [] ->
  (last_of cfg l s ps = Accept v s' ps' <->
   exists rs, in_row l s ps (rs ++ [v]) s' ps').
Proof. exact last_of_cfg_accept. Qed.
Print Assumptions C16_last_of_accepts.

(** In particular they fail as nth_of does. *)
Theorem C16_first_and_last_of_are_nth_of : forall cfg l,
  fits_sequence cfg (length l) -> l <> [] ->
  same_parser (first_of cfg l) (nth_of_c cfg 0 l)
  /\ same_parser (last_of cfg l) (nth_of_c cfg (Z.of_nat (length l) - 1) l).
Proof. exact first_last_of_nth. Qed.
Print Assumptions C16_first_and_last_of_are_nth_of.

Theorem C16_implementations_agree : forall cfg98 cfg11 l s ps,
  cfg_std cfg98 = Std98 -> cfg_std cfg11 <> Std98 ->
  (length l < limit_sequence cfg98)%nat ->
  (forall k, nth_of_c cfg98 k l s ps = nth_of_c cfg11 k l s ps)
  /\ first_of cfg98 l s ps = first_of cfg11 l s ps
  /\ (l <> [] -> last_of cfg98 l s ps = last_of cfg11 l s ps).
Proof. exact nth_family_std. Qed.
Print Assumptions C16_implementations_agree.

(** Without parsers the implementations report different messages: index -1 and
    index 0. *)
Theorem C16_last_of_nothing : forall cfg s ps, fits_sequence cfg 0 ->
  last_of cfg [] s ps =
  Reject (index_out_of_range 0 (-1) (match cfg_std cfg with Std98 => -1 | _ => 0 end)) ps.
Proof. exact last_of_empty. Qed.
Print Assumptions C16_last_of_nothing.

Example C16_case :
  nth_of_c c98 1 [lit_c 40; digit_val; lit_c 41] (text "(1)x") start
    = Accept (VInt 1) (text "x") (mkpos 1 4 41)
  /\ first_of c98 [lit_c 40; digit_val; lit_c 41] (text "(1)x") start
    = Accept (VChar 40) (text "x") (mkpos 1 4 41)
  /\ last_of c98 [lit_c 40; digit_val; lit_c 41] (text "(1)x") start
    = Accept (VChar 41) (text "x") (mkpos 1 4 41)
  /\ nth_of_c c98 3 [lit_c 40; digit_val; lit_c 41] (text "(1)x") start
    = Reject (index_out_of_range 0 2 3) start.
Proof. vm_compute. auto. Qed.

(** ** C17 one_of *)

Theorem C17_one_of_accepts : forall cfg l s ps r s' ps', fits_one_of cfg (length l) ->
  (one_of cfg l s ps = Accept r s' ps' <-> first_accepting l s ps (Accept r s' ps')).
Proof. exact one_of_cfg_accept. Qed.
Print Assumptions C17_one_of_accepts.

Theorem C17_one_of_rejects : forall cfg l s ps, fits_one_of cfg (length l) ->
  (rejects (one_of cfg l) s ps <-> forall p, In p l -> rejects p s ps).
Proof. exact one_of_cfg_all_reject. Qed.
Print Assumptions C17_one_of_rejects.

(** The error position is the furthest of the start position and the error
    positions of the alternatives. *)
Theorem C17_one_of_error_position : forall cfg l s ps m pe, fits_one_of cfg (length l) ->
  one_of cfg l s ps = Reject m pe ->
  exists es, all_reject l s ps es
    /\ pos_le ps pe
    /\ (forall e, In e es -> pos_le (snd e) pe)
    /\ (pe = ps \/ exists e, In e es /\ snd e = pe).
Proof. exact one_of_cfg_reject_pos. Qed.
Print Assumptions C17_one_of_error_position.

Theorem C17_implementations_agree : forall cfg98 cfg11 l,
  cfg_std cfg98 = Std98 -> cfg_std cfg11 <> Std98 ->
  (length l <= limit_one_of cfg98)%nat ->
  same_parser_but_message (one_of cfg98 l) (one_of cfg11 l).
Proof. exact one_of_std. Qed.
Print Assumptions C17_implementations_agree.

Definition two_words : list pfun :=
  [keyword (text "ab") (VInt 1); keyword (text "abc") (VInt 2); keyword (text "xyz") (VInt 3)].
Example C17_case :
  fits_one_of c98 (length two_words)
  /\ first_accepting two_words (text "abc") start (Accept (VInt 1) (text "c") (mkpos 1 3 98))
  /\ one_of c11 two_words (text "abc") start = Accept (VInt 1) (text "c") (mkpos 1 3 98)
  /\ one_of c98 two_words (text "xyw") start = Reject (literal_expected 122) (mkpos 1 3 121).
Proof.
  split; [intros _; cbv; repeat constructor|]. split.
  - split.
    + intros q [<- | [<- | [<- | []]]]; [left | left | right].
      * eexists _, _, _; vm_compute; reflexivity.
      * eexists _, _, _; vm_compute; reflexivity.
      * eexists _, _; vm_compute; reflexivity.
    + exists [], (keyword (text "ab") (VInt 1)), (tl two_words). repeat split; auto.
      * intros q [].
      * eexists _, _, _; vm_compute; reflexivity.
  - vm_compute. auto.
Qed.

(** ** C18 the message of one_of *)

(** C++98: the last one of the errors at the furthest position. *)
Theorem C18_cpp98_message : forall cfg l s ps m pe es, fits_one_of cfg (length l) ->
  cfg_std cfg = Std98 -> l <> [] -> all_reject l s ps es ->
  (forall e, In e es -> pos_le ps (snd e)) ->
  one_of cfg l s ps = Reject m pe -> last_furthest es (m, pe).
Proof. exact one_of_98_winner. Qed.
Print Assumptions C18_cpp98_message.

(** C++11 and later: the same if some alternative got past its first character;
    otherwise none_of_the_expected_cases_found. *)
Theorem C18_cpp11_message : forall cfg l s ps m pe es,
  cfg_std cfg <> Std98 -> all_reject l s ps es ->
  (forall e, In e es -> pos_le ps (snd e)) ->
  one_of cfg l s ps = Reject m pe ->
  ((exists e, In e es /\ pos_lt ps (snd e)) -> last_furthest es (m, pe))
  /\ ((forall e, In e es -> snd e = ps) -> m = none_of_the_expected_cases_found /\ pe = ps).
Proof. exact one_of_11_winner. Qed.
Print Assumptions C18_cpp11_message.

(** So the message depends on the language standard. *)
Theorem C18_same_message_refuted : exists l s m98 m11,
  (length l <= limit_one_of c98)%nat
  /\ one_of c98 l s start = Reject m98 start
  /\ one_of c11 l s start = Reject m11 start
  /\ m98 <> m11.
Proof.
  exists [digit; letter], (text "+"), letter_expected, none_of_the_expected_cases_found.
  vm_compute. repeat split; try congruence. repeat constructor.
Qed.
Print Assumptions C18_same_message_refuted.

(** A message of the user as the last alternative, [one_of<p1, ..., pn, fail<m>>]
    (doc/getting_started.qbk:1861-1879): in C++11 and later it has no effect; in C++98
    it replaces the message if no alternative got past its first character. *)
Theorem C18_fail_ignored : forall cfg l m s ps, cfg_std cfg <> Std98 ->
  one_of cfg (l ++ [fail m]) s ps = one_of cfg l s ps.
Proof.
  intros cfg l m s ps H.
  assert (E : one_of_11 (l ++ [fail m]) s ps = one_of_11 l s ps).
  { induction l as [|p l IH].
    - cbn. unfold later_result, pos_less. rewrite !Z.ltb_irrefl, !Z.eqb_refl. reflexivity.
    - cbn [app one_of_11]. rewrite IH. reflexivity. }
  unfold one_of. destruct (cfg_std cfg); [congruence|exact E|exact E].
Qed.
Print Assumptions C18_fail_ignored.

Theorem C18_fail_message : forall cfg l m s ps, cfg_std cfg = Std98 ->
  fits_one_of cfg (S (length l)) ->
  one_of cfg (l ++ [fail m]) s ps =
    match one_of cfg l s ps with
    | Reject m' pe => if pos_less ps pe then Reject m' pe else Reject m ps
    | o => o
    end.
Proof.
  intros cfg l m s ps H F. specialize (F H). unfold one_of. rewrite H. unfold one_of_98.
  rewrite app_length. cbn [length]. rewrite Nat.add_1_r, (proj2 (Nat.leb_le _ _) F).
  assert (G : (length l <= limit_one_of cfg)%nat) by lia.
  rewrite (proj2 (Nat.leb_le _ _) G). unfold one_of_98_impl. rewrite fold_left_app.
  destruct (fold_left (one_of_fwd_op s ps) l _) as [r s' ps'|m' pe| |]; reflexivity.
Qed.
Print Assumptions C18_fail_message.

Example C18_fail_case :
  fits_one_of c98 3
  /\ one_of c98 [digit; letter; fail (UserMsg 7)] (text "+") start = Reject (UserMsg 7) start
  /\ one_of c11 [digit; letter; fail (UserMsg 7)] (text "+") start
     = Reject none_of_the_expected_cases_found start.
Proof. split; [intros _; vm_compute; lia|]. vm_compute. auto. Qed.

Example C18_case :
  all_reject two_words (text "xaw") start
    [(literal_expected 97, start); (literal_expected 97, start); (literal_expected 121, mkpos 1 2 120)]
  /\ last_furthest
      [(literal_expected 97, start); (literal_expected 97, start); (literal_expected 121, mkpos 1 2 120)]
      (literal_expected 121, mkpos 1 2 120)
  /\ one_of c11 two_words (text "xaw") start = Reject (literal_expected 121) (mkpos 1 2 120)
  /\ one_of c98 two_words (text "xaw") start = Reject (literal_expected 121) (mkpos 1 2 120).
Proof.
  split; [repeat (constructor; [vm_compute; reflexivity|]); constructor|].
  split; [|vm_compute; auto].
  exists [(literal_expected 97, start); (literal_expected 97, start)], []. split; auto. split.
  - intros x [<- | [<- | []]]; left; vm_compute; auto.
  - intros x [].
Qed.

(** ** C19 one_of instantiates all alternatives *)

Theorem C19_one_of_instantiates_every_alternative : forall cfg l s ps o,
  fits_one_of cfg (length l) -> (o = Illformed \/ o = OutOfFuel) ->
  (one_of cfg l s ps = o <-> first_unfinished l s ps o).
Proof. exact one_of_cfg_unfinished_iff. Qed.
Print Assumptions C19_one_of_instantiates_every_alternative.

(** An accepting alternative does not hide a later one that can not be
    instantiated (here: repeated<return_<void>>, which never terminates). *)
Theorem C19_short_circuit_refuted : forall cfg n,
  (2 <= limit_one_of cfg)%nat ->
  exists p q s, accepts p s start /\ one_of cfg [p; q] s start = OutOfFuel
    /\ q = repeated n (return_ VVoid).
Proof.
  intros cfg n L. exists (return_ VVoid), (repeated n (return_ VVoid)), [].
  split; [eexists _, _, _; reflexivity|]. split; [|reflexivity].
  apply one_of_cfg_unfinished_iff; auto.
  - intros _. exact L.
  - exists [return_ VVoid], (repeated n (return_ VVoid)), []. repeat split; auto.
    + intros q [<- | []]. left. eexists _, _, _; reflexivity.
    + eapply stuck_repeated; [constructor|reflexivity].
Qed.
Print Assumptions C19_short_circuit_refuted.

Example C19_case :
  (2 <= limit_one_of c11)%nat
  /\ first_unfinished [return_ VVoid; transform one_char (fun _ => None)] (text "a") start Illformed.
Proof.
  split; [repeat constructor|].
  exists [return_ VVoid], (transform one_char (fun _ => None)), []. repeat split; auto.
  intros q [<- | []]. left. eexists _, _, _; reflexivity.
Qed.

(** ** C31 iterate *)

Theorem C31_iterate_accepts : forall n k p s ps v s' ps', (k < n)%nat ->
  (iterate_c n p (Z.of_nat k) s ps = Accept v s' ps' <->
   exists rs, v = VSeq rs /\ length rs = k /\ runs p s ps rs s' ps').
Proof. exact iterate_c_accept. Qed.
Print Assumptions C31_iterate_accepts.

Theorem C31_iterate_rejects : forall n k p s ps m pe, (k < n)%nat ->
  (iterate_c n p (Z.of_nat k) s ps = Reject m pe <->
   exists rs s1 ps1, (length rs < k)%nat /\ runs p s ps rs s1 ps1 /\ p s1 ps1 = Reject m pe).
Proof. exact iterate_c_reject. Qed.
Print Assumptions C31_iterate_rejects.

Theorem C31_iterate_negative : forall n k p s ps, k < 0 ->
  (forall v s' ps', iterate_c n p k s ps <> Accept v s' ps')
  /\ (forall m pe, iterate_c n p k s ps = Reject m pe <->
      exists rs s1 ps1, (length rs < n)%nat /\ runs p s ps rs s1 ps1 /\ p s1 ps1 = Reject m pe).
Proof. exact iterate_negative. Qed.
Print Assumptions C31_iterate_negative.

Example C31_case :
  iterate_c 9 digit_val 2 (text "123") start = Accept (VSeq [VInt 1; VInt 2]) (text "3") (mkpos 1 3 50)
  /\ iterate_c 9 digit_val 3 (text "12x") start = Reject digit_expected (mkpos 1 3 50)
  /\ iterate_c 9 digit_val (-1) (text "12x") start = Reject digit_expected (mkpos 1 3 50)
  /\ iterate_c 3 digit_val (-1) (text "1234") start = OutOfFuel.
Proof. vm_compute. auto. Qed.

(** ** C43 the C++98 limits *)

(** The documented maximum number of arguments is not supported ... *)
Theorem C43_maximum_arity_refuted : forall cfg, cfg_std cfg = Std98 ->
  (forall l s ps, length l = limit_sequence cfg ->
     sequence cfg l s ps = Illformed
     /\ (forall k, nth_of_c cfg k l s ps = Illformed)
     /\ first_of cfg l s ps = Illformed
     /\ last_of cfg l s ps = Illformed)
  /\ (forall cs s ps, length cs = limit_one_of cfg -> one_of_c cfg cs s ps = Illformed)
  /\ (forall cs s ps, length cs = limit_one_char_except cfg ->
        one_char_except_c cfg cs s ps = Illformed).
Proof. exact limit_reached. Qed.
Print Assumptions C43_maximum_arity_refuted.

(** ... nor more; everything below is (C15_implementations_agree,
    C16_implementations_agree, C25), and one_of supports its maximum
    (C17_implementations_agree). *)
Theorem C43_over_the_limit : forall cfg l s ps, cfg_std cfg = Std98 ->
  ((limit_sequence cfg <= length l)%nat ->
     sequence cfg l s ps = Illformed
     /\ (forall k, nth_of_c cfg k l s ps = Illformed)
     /\ first_of cfg l s ps = Illformed
     /\ last_of cfg l s ps = Illformed)
  /\ ((limit_one_of cfg < length l)%nat -> one_of cfg l s ps = Illformed)
  /\ (sequence cfg [] s ps = Illformed).
Proof. exact over_limit. Qed.
Print Assumptions C43_over_the_limit.

(** With the default limits: four parsers in a sequence, twenty alternatives,
    nineteen characters of one_of_c, nine of one_char_except_c; and no more. *)
Theorem C43_default_limits : forall d k,
  (fits_sequence (default_config d) k <-> d <> Std98 \/ (k <= 4)%nat)
  /\ (fits_one_of (default_config d) k <-> d <> Std98 \/ (k <= 20)%nat)
  /\ (fits_one_of_c (default_config d) k <-> d <> Std98 \/ (k <= 19)%nat)
  /\ (fits_one_char_except (default_config d) k <-> d <> Std98 \/ (k <= 9)%nat).
Proof.
  unfold fits_sequence, fits_one_of, fits_one_of_c, fits_one_char_except.
  intros [] k; cbn [cfg_std limit_sequence limit_one_of limit_one_char_except default_config];
    repeat split; intros; try discriminate; try (left; discriminate);
    try (right; specialize (H eq_refl); lia); destruct H; try congruence; lia.
Qed.
Print Assumptions C43_default_limits.

Example C43_case :
  sequence c98 [one_char; one_char; one_char; one_char] (text "abcde") start
    = Accept (VSeq [VChar 97; VChar 98; VChar 99; VChar 100]) (text "e") (mkpos 1 5 100)
  /\ sequence c98 [one_char; one_char; one_char; one_char; one_char] (text "abcde") start = Illformed
  /\ sequence c11 [one_char; one_char; one_char; one_char; one_char] (text "abcde") start
    = Accept (VSeq [VChar 97; VChar 98; VChar 99; VChar 100; VChar 101]) [] (mkpos 1 6 101).
Proof. vm_compute. auto. Qed.
