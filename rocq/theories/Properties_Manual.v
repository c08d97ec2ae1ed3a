(** C77: the parsers of the user manual. *)

From Coq Require Import ZArith List Bool Lia.
From Verif Require Import Base Util Combinators Variadic Parsers Deep Calculator Grammar Functions Manual
  Spec SpecDeep SpecCalc SpecTutorial SpecManual SpecGrammar SpecFun
  Proofs_Pos Proofs_Fold Proofs_Parsers Proofs_Parsers2 Proofs_Calc Proofs_Tutorial Proofs_Functions Proofs_Manual.
Import ListNotations.
Open Scope Z_scope.

Local Definition c11 := default_config Std11.

(** The sum of a list of numbers: the [transform] of [repeated], the [foldl] and
    the [foldr] add up the numbers at the beginning, without them 0; the
    versions with [1] want a number. *)
Theorem C77_lists : forall cfg env n s ps, calc_fits cfg -> (length s < n)%nat ->
  (forall p, In p [sum_parser; better_sum_parser; better_sum_parser_r] ->
    reads_exactly list_sum_reading VInt (eval cfg env n p) s ps
    /\ forall m pe, eval cfg env n p s ps <> Reject m pe)
  /\ (forall p, In p [better_sum_parser1; better_sum_parser_r1] ->
    reads_exactly list_sum_reading1 VInt (eval cfg env n p) s ps).
Proof.
  intros cfg env n s ps F L.
  assert (G : forall p, In p [sum_parser; better_sum_parser; better_sum_parser_r] ->
    reads_exactly list_sum_reading VInt (eval cfg env n p) s ps).
  { intros p H. eapply good_exact; [|exact L]. simpl in H. destruct H as [<-|[<-|[<-|[]]]];
      [apply sum_parser_good | apply better_good | apply better_r_good]; auto. }
  split.
  - intros p H. split; auto. intros m pe E. destruct (G p H) as (_ & _ & R & _).
    assert (N := proj1 R (ex_intro _ m (ex_intro _ pe E))).
    destruct (number_list_total (length s) s ltac:(lia)) as (l & t & Hl). apply (N (sum_of l) t). exists l. auto.
  - intros p H. eapply good_exact; [|exact L]. simpl in H. destruct H as [<-|[<-|[]]];
      [apply better1_good | apply better_r1_good]; auto.
Qed.
Print Assumptions C77_lists.

Local Definition run (p : pexpr) (s : str) : outcome := eval c11 no_program 60 p s start.

Example C77_lists_example :
  run sum_parser (text "11 13 3 21") = run better_sum_parser (text "11 13 3 21")
  /\ (exists ps, run better_sum_parser (text "11 13 3 21") = Accept (VInt 48) [] ps)
  /\ (exists ps, run better_sum_parser_r (text "11 13 3 21 x") = Accept (VInt 48) (text "x") ps)
  /\ (exists ps, run better_sum_parser (text "x") = Accept (VInt 0) (text "x") ps)
  /\ (exists m ps, run better_sum_parser1 (text "x") = Reject m ps)
  /\ run better_sum_parser (text "2147483647 1") = Illformed
  /\ list_sum_reading (Some 48) (text "11 13 3 21") [].
Proof.
  splits; [vm_compute; eauto ..|].
  assert (F : calc_fits c11) by (split; intros E; discriminate).
  destruct (C77_lists c11 no_program 60 (text "11 13 3 21") start F ltac:(vm_compute; lia)) as (H & _).
  destruct (H better_sum_parser) as ((R & _) & _); [simpl; auto|].
  assert (X : exists ps', eval c11 no_program 60 better_sum_parser (text "11 13 3 21") start = Accept (VInt 48) [] ps')
    by (vm_compute; eauto).
  apply R in X as (a & E & X). injection E as <-. exact X.
Qed.

(** ... the three give the same, remaining input and position included. *)
Theorem C77_same_lists : forall cfg env n s ps p1 p2, calc_fits cfg -> (length s < n)%nat ->
  In p1 [sum_parser; better_sum_parser; better_sum_parser_r] ->
  In p2 [sum_parser; better_sum_parser; better_sum_parser_r] ->
  eval cfg env n p1 s ps = eval cfg env n p2 s ps.
Proof. intros cfg env n s ps p1 p2 F L H1 H2. apply list_sums_same; auto. Qed.
Print Assumptions C77_same_lists.

(** Sums with [+]: [sum_parser2] adds up what follows the signs, [sum_parser3] a
    number and what follows the signs, both as far as they can; [sum_parser4] and
    [sum_parser5] accept what [sum_parser3] accepts unless a [+] follows. *)
Theorem C77_sums : forall cfg env n s ps, calc_fits cfg -> (length s < n)%nat ->
  reads_exactly plus_list_reading VInt (eval cfg env n sum_parser2) s ps
  /\ reads_exactly plus_exp_reading VInt (eval cfg env n sum_parser3) s ps
  /\ forall p, In p [sum_parser4; sum_parser5] -> forall v t,
    (exists ps', eval cfg env n p s ps = Accept v t ps')
    <-> exists z, v = VInt z /\ plus_exp_reading (Some z) s t /\ not_starting_with (fun c => c = 43) t.
Proof.
  intros cfg env n s ps F L.
  assert (G3 : reads_exactly plus_exp_reading VInt (eval cfg env n sum_parser3) s ps)
    by (eapply good_exact; [apply sum3_good; auto | exact L]).
  splits; [eapply good_exact; [apply sum2_good; auto | exact L] | exact G3 |].
  assert (X : forall v t, (exists ps', eval cfg env n sum_parser5 s ps = Accept v t ps')
    <-> exists z, v = VInt z /\ plus_exp_reading (Some z) s t /\ not_starting_with (fun c => c = 43) t).
  { intros v t. destruct G3 as (A & _). split.
    - intros (ps' & E). apply (sum5_sum3 cfg F) in E as (E & N).
      destruct (proj1 (A v t) (ex_intro _ ps' E)) as (z & -> & R). eauto.
    - intros (z & -> & R & N). destruct (proj2 (A (VInt z) t) (ex_intro _ z (conj eq_refl R))) as (ps' & E).
      exists ps'. apply (sum5_sum3 cfg F). auto. }
  intros p H v t. rewrite <- X. simpl in H. destruct H as [<-|[<-|[]]]; [|reflexivity].
  destruct (sums_agree cfg F env n s ps L) as [->|(E & N)]; [reflexivity|]. rewrite E.
  split; intros (ps' & E'); [destruct (N _ _ _ E') | discriminate].
Qed.
Print Assumptions C77_sums.

Example C77_sums_example :
  (exists ps, run sum_parser2 (text "+ 13 + 3 +") = Accept (VInt 16) (text "+") ps)
  /\ (exists ps, run sum_parser2 (text "11 + 13") = Accept (VInt 0) (text "11 + 13") ps)
  /\ (exists ps, run sum_parser3 (text "11 + 13 + 3 + 21") = Accept (VInt 48) [] ps)
  /\ (exists ps, run sum_parser3 (text "11 + 13 + 3 + 21 +") = Accept (VInt 48) (text "+") ps)
  /\ (exists ps, run sum_parser4 (text "11 + 13 + 3 + 21") = Accept (VInt 48) [] ps)
  /\ (exists ps, run sum_parser5 (text "11 + 13 + 3 + 21 3") = Accept (VInt 48) (text "3") ps).
Proof. splits; vm_compute; eauto. Qed.

(** The answers of [sum_parser4], from the right, and [sum_parser5], from the
    left: equal, errors and positions included - except that [sum_parser5] may
    already have added up too much when [sum_parser4] finds an error. *)
Theorem C77_directions : forall cfg env n s ps, calc_fits cfg -> (length s < n)%nat ->
  eval cfg env n sum_parser5 s ps = eval cfg env n sum_parser4 s ps
  \/ (eval cfg env n sum_parser5 s ps = Illformed
      /\ forall v t ps', eval cfg env n sum_parser4 s ps <> Accept v t ps').
Proof. intros cfg env n s ps F L. apply sums_agree; auto. Qed.
Print Assumptions C77_directions.

(** They are not always equal. *)
Theorem C77_same_directions_refuted : exists s, run sum_parser5 s = Illformed
  /\ run sum_parser4 s = Reject digit_expected (adv start s).
Proof. exists (text "2147483647+1+1+"). split; vm_compute; reflexivity. Qed.
Print Assumptions C77_same_directions_refuted.

(** For every list of elements with separators between them and every operation
    that is associative and commutative, [foldr_start_with_parser] and
    [foldl_reject_incomplete_start_with_parser] find the same. *)
Theorem C77_separated : forall cfg p q (D : value -> Prop) f, fits_sequence cfg 2 ->
  sound_accept p -> sound_reject p -> sound_accept q -> consuming q -> rejects_at_once q ->
  (forall s ps r t pt, p s ps = Accept r t pt -> D r) -> sum_like D f ->
  forall n s ps, (length s < n)%nat ->
  let left := foldl_reject_incomplete_start_with_parser n (last_of cfg [q; p]) p f s ps in
  let right := foldr_start_with_parser n (first_of cfg [p; q]) p f s ps in
  left = right \/ (left = Illformed /\ forall v t ps', right <> Accept v t ps').
Proof.
  intros cfg p q D f F Ap Rp Aq Cq Rq Dp Hf n s ps L.
  apply (separated_agree cfg F p q Ap Rp Aq Cq Rq D f Dp Hf n s ps L).
Qed.
Print Assumptions C77_separated.

(** ... a conjunction of digits: not zero *)
Example C77_separated_example :
  let f : mf2 := fun a b => match a, b with VInt x, VInt y => Some (VInt (Z.min x y)) | _, _ => None end in
  sum_like (fun v => exists z, v = VInt z) f
  /\ (exists ps, foldr_start_with_parser 20 (first_of c11 [digit_val; lit_c 44]) digit_val f (text "7,3,5;") start
    = Accept (VInt 3) (text ";") ps)
  /\ (exists ps, foldl_reject_incomplete_start_with_parser 20 (last_of c11 [lit_c 44; digit_val]) digit_val f (text "7,3,5;") start
    = Accept (VInt 3) (text ";") ps).
Proof.
  intros f. splits; try (vm_compute; eauto; fail). constructor.
  - intros (z & [=]).
  - intros a b c (x & ->) (y & ->) E. injection E as <-. eauto.
  - intros a b (x & ->) (y & ->). simpl. rewrite Z.min_comm. reflexivity.
  - intros a b c (x & ->) (y & ->) (z & ->). simpl. rewrite Z.min_assoc. reflexivity.
Qed.

(** A [+] without a number after a sum: [sum_parser3] accepts, with
    [entire_input] the error is "end of input expected" in front of the [+];
    the error of [sum_parser4] and [sum_parser5] is "digit expected" where the
    number should be. *)
Theorem C77_incomplete : forall cfg env n s ps z t u, calc_fits cfg -> (length s < n)%nat ->
  plus_exp_reading (Some z) s t -> dangling_plus t u ->
  exists w1 w2 ps1 ps2, s = w1 ++ t /\ t = w2 ++ u /\ walk ps w1 ps1 /\ walk ps1 w2 ps2
    /\ eval cfg env n sum_parser3 s ps = Accept (VInt z) t ps1
    /\ entire_input cfg (eval cfg env n sum_parser3) end_of_input_expected s ps = Reject end_of_input_expected ps1
    /\ eval cfg env n sum_parser5 s ps = Reject digit_expected ps2
    /\ eval cfg env n sum_parser4 s ps = Reject digit_expected ps2.
Proof.
  intros cfg env n s ps z t u F L R Dg.
  assert (G3 : reads_exactly plus_exp_reading VInt (eval cfg env n sum_parser3) s ps)
    by (eapply good_exact; [apply sum3_good; auto | exact L]).
  destruct G3 as (A & _). destruct (proj2 (A (VInt z) t) (ex_intro _ z (conj eq_refl R))) as (ps1 & E).
  destruct (sum5_dangling cfg F env n s ps (VInt z) t ps1 u L E Dg) as (w2 & ps2 & Et & W2 & E5).
  pose proof (manual_accepts cfg env n sum_parser3 ltac:(simpl; tauto) _ _ _ _ _ E) as (w1 & Es & W1).
  exists w1, w2, ps1, ps2. splits; auto.
  - rewrite entire_input_spec, E by (apply (cfs cfg F); lia). destruct t; [|reflexivity].
    destruct Dg as ((_ & T) & _). apply tokens_length in T. simpl in T. lia.
  - destruct (sums_agree cfg F env n s ps L) as [<-|(E4 & _)]; [exact E5 | rewrite E4 in E5; discriminate].
Qed.
Print Assumptions C77_incomplete.

Example C77_incomplete_example :
  run sum_parser5 (text "11 + 13 + 3 + 21 +") = Reject digit_expected (adv start (text "11 + 13 + 3 + 21 +"))
  /\ run sum_parser4 (text "11 + 13 + 3 + 21 +") = Reject digit_expected (adv start (text "11 + 13 + 3 + 21 +"))
  /\ entire_input c11 (eval c11 no_program 60 sum_parser3) end_of_input_expected (text "11 + 13 + 3 + 21 +") start
     = Reject end_of_input_expected (adv start (text "11 + 13 + 3 + 21 "))
  /\ dangling_plus (text "+") [].
Proof.
  splits; try (vm_compute; reflexivity). split; [|exact Logic.I]. split; [simpl; auto|].
  apply (tk_cons (COp 43) [43] [] [] [] []); simpl; auto; repeat constructor.
Qed.

(** The grammar of the manual is [sum_parser3]. *)
Theorem C77_grammar : forall cfg env n s ps, grammar_fits cfg -> (150 <= n)%nat -> (length s < n)%nat ->
  plus_grammar cfg n s ps = eval cfg env n sum_parser3 s ps
  /\ plus_parser cfg n s ps = entire_input cfg (eval cfg env n sum_parser3) end_of_input_expected s ps.
Proof.
  intros cfg env n s ps Fg L150 L.
  assert (F : calc_fits cfg) by (destruct Fg as (Fo & Fs & _); split; [intros H; specialize (Fo H); lia | exact Fs]).
  assert (E : eval cfg env n sum_parser3 = eval cfg no_program n sum_parser3) by (destruct n; reflexivity).
  split.
  - rewrite E, plus_grammar_is by auto. apply e_plus_same; auto.
  - rewrite plus_parser_is, !entire_input_spec by (auto; apply (cfs cfg F); lia).
    rewrite E, (e_plus_same cfg F no_program n s ps L). reflexivity.
Qed.
Print Assumptions C77_grammar.

Example C77_grammar_example :
  (exists ps, plus_grammar c11 150 (text "1 + 2 + 3 + 4") start = Accept (VInt 10) [] ps)
  /\ (exists ps, plus_parser c11 150 (text "1 + 2 + 3 + 4") start = Accept (VInt 10) [] ps)
  /\ plus_parser c11 150 (text "1 + 2 +") start = Reject end_of_input_expected (adv start (text "1 + 2 ")).
Proof. splits; vm_compute; eauto. Qed.

(** "don't do that": with an optional [+] the whole of [11 + 13 3 21] is read,
    which is no sum. *)
Theorem C77_optional_plus_refuted : exists s,
  (exists v ps, run optional_plus_parser s = Accept v [] ps) /\ forall x, ~ plus_exp_reading x s [].
Proof.
  exists (text "11 + 13 3 21"). split; [vm_compute; eauto|]. intros x H.
  assert (F : calc_fits c11) by (split; intros E; discriminate).
  destruct (C77_sums c11 no_program 60 (text "11 + 13 3 21") start F ltac:(vm_compute; lia)) as (_ & (A & B & _) & _).
  destruct x as [z|].
  - destruct (proj2 (A (VInt z) []) (ex_intro _ z (conj eq_refl H))) as (ps & E). vm_compute in E. discriminate.
  - assert (E := proj2 B (ex_intro _ [] H)). vm_compute in E. discriminate.
Qed.
Print Assumptions C77_optional_plus_refuted.
