(** C87: line and column numbers do not overflow. *)

From Coq Require Import ZArith List Bool Lia.
From Verif Require Import Base Util Combinators Variadic Parsers Deep Spec SpecDeep SpecRules
  SpecCost SpecCounters Proofs_Pos Proofs_Deep Proofs_Final1 Proofs_Parsers2 Proofs_Cost Properties_Positions.
Import ListNotations.
Open Scope Z_scope.

Lemma walk_within : forall ps w q, walk ps w q -> 1 <= col ps -> within ps w q.
Proof.
  intros ps w q W. unfold within. induction W as [ps|l k b c w q N W IH|l k b c w q N W IH]; intros C;
    cbn [length line col] in *; [lia| |]; rewrite Nat2Z.inj_succ;
    (destruct IH as (A & B & D); [lia|]); lia.
Qed.

Lemma within_longer : forall ps w q s, within ps w q -> (length w <= length s)%nat -> within ps s q.
Proof. unfold within. intros ps w q s (A & B & C) L. lia. Qed.

(** User-written parsers that follow the protocol. *)
Definition orderly : pexpr -> Prop :=
  natives (fun p => sound_accept p /\ sound_reject p) (fun f => keeps_errors f /\ keeps_positions f).

Lemma orderly_sane : forall e, every orderly e -> every (natives sound_accept keeps_errors) e.
Proof. intros e. apply every_impl. intros x; destruct x; simpl; unfold orderly, natives; tauto. Qed.

(** Wherever a parser is applied while a text is parsed, and wherever it
    accepts or reports an error, the counters are within the bounds. *)
Theorem C87_counters : forall cfg env e,
  program_every (fits cfg) env -> program_every orderly env ->
  every (fits cfg) e -> every orderly e ->
  forall s ps, 1 <= col ps ->
  forall e1 s1 ps1, reaches (cfg_std cfg) env (e, s, ps) (e1, s1, ps1) ->
    within ps s ps1
    /\ forall n,
         (forall r s2 ps2, eval cfg env n e1 s1 ps1 = Accept r s2 ps2 -> within ps s ps2)
         /\ (forall m pe, eval cfg env n e1 s1 ps1 = Reject m pe -> within ps s pe).
Proof.
  intros cfg env e HE HN He Hn s ps C e1 s1 ps1 R.
  assert (HS : program_every (natives sound_accept keeps_errors) env)
    by (intros k; apply orderly_sane, HN).
  assert (P : every (fits cfg) e1 /\ every orderly e1).
  { clear C. remember (e, s, ps) as a eqn:Ea. remember (e1, s1, ps1) as b eqn:Eb.
    revert e s ps Ea He Hn. induction R as [a|a b c Cl R IH]; intros e s ps -> He Hn.
    - injection Eb as -> -> ->. auto.
    - destruct b as ((e2 & s2) & ps2). apply (IH Eb e2 s2 ps2 eq_refl).
      + apply call_part in Cl as [I|(k & _ & ->)]; [eapply every_child; eauto|apply HE].
      + apply call_part in Cl as [I|(k & _ & ->)]; [eapply every_child; eauto|apply HN]. }
  destruct P as (F1 & N1).
  apply (reach_walks cfg env HE HS) in R as (w & E & W); cbn [fst snd] in *; auto using orderly_sane.
  subst s. split.
  - eapply within_longer; [apply walk_within; eauto|]. rewrite app_length. lia.
  - intros n. split.
    + intros r s2 ps2 A. apply eval_sound_accept in A as (w2 & -> & W2); auto using orderly_sane.
      eapply within_longer; [eapply walk_within; [eapply walk_app; eauto|]; auto|].
      rewrite !app_length. lia.
    + intros m pe A. apply eval_sound_reject in A as (w2 & (t & ->) & W2); auto.
      eapply within_longer; [eapply walk_within; [eapply walk_app; eauto|]; auto|].
      rewrite !app_length. lia.
Qed.
Print Assumptions C87_counters.

(** Texts shorter than the largest [int] do not overflow the counters. *)
Theorem C87_no_overflow : forall cfg env e,
  program_every (fits cfg) env -> program_every orderly env ->
  every (fits cfg) e -> every orderly e ->
  forall s, Z.of_nat (length s) < int_32_max ->
  forall e1 s1 ps1, reaches (cfg_std cfg) env (e, s, start) (e1, s1, ps1) ->
    fits_int ps1
    /\ forall n,
         (forall r s2 ps2, eval cfg env n e1 s1 ps1 = Accept r s2 ps2 -> fits_int ps2)
         /\ (forall m pe, eval cfg env n e1 s1 ps1 = Reject m pe -> fits_int pe).
Proof.
  intros cfg env e HE HN He Hn s L e1 s1 ps1 R.
  assert (K : forall q, within start s q -> fits_int q).
  { intros q (A & B & C). change (line start) with 1 in *. change (col start) with 1 in *.
    unfold fits_int, int_32_max in *. lia. }
  destruct (C87_counters cfg env e HE HN He Hn s start ltac:(simpl; lia) e1 s1 ps1 R) as (A & B).
  split; [auto|]. intros n. destruct (B n) as (B1 & B2). split; eauto.
Qed.
Print Assumptions C87_no_overflow.

(** The bound is reached, by either counter. *)
Definition read_all : pexpr := PFoldl POneChar (Some VVoid) (fun st _ => Some st).

Lemma read_all_line : forall n l k c,
  eval (default_config Std11) (fun _ => POneChar) (S n) read_all (repeat 13 n) (mkpos l k c)
  = Accept VVoid [] (adv (mkpos l k c) (repeat 13 n))
  /\ line (adv (mkpos l k c) (repeat 13 n)) = l + Z.of_nat n.
Proof.
  unfold read_all. cbn [eval]. induction n as [|n IH]; intros l k c; [split; [reflexivity|simpl; lia]|].
  specialize (IH (l + 1) 1 13). destruct IH as (A & B). split.
  - exact A.
  - rewrite Nat2Z.inj_succ. change (repeat 13 (S n)) with (13 :: repeat 13 n). cbn [adv].
    replace (next_pos 13 (mkpos l k c)) with (mkpos (l + 1) 1 13) by reflexivity. rewrite B. lia.
Qed.

Lemma read_all_col : forall n l k c,
  eval (default_config Std11) (fun _ => POneChar) (S n) read_all (repeat 97 n) (mkpos l k c)
  = Accept VVoid [] (adv (mkpos l k c) (repeat 97 n))
  /\ col (adv (mkpos l k c) (repeat 97 n)) = k + Z.of_nat n.
Proof.
  unfold read_all. cbn [eval]. induction n as [|n IH]; intros l k c; [split; [reflexivity|simpl; lia]|].
  specialize (IH l (k + 1) 97). destruct IH as (A & B). split.
  - exact A.
  - rewrite Nat2Z.inj_succ. change (repeat 97 (S n)) with (97 :: repeat 97 n). cbn [adv].
    replace (next_pos 97 (mkpos l k c)) with (mkpos l (k + 1) 97) by reflexivity. rewrite B. lia.
Qed.

Theorem C87_bound_reached : forall k, exists cfg env e n,
  (exists s q, length s = k /\ eval cfg env n e s start = Accept VVoid [] q /\ line q = 1 + Z.of_nat k)
  /\ (exists s q, length s = k /\ eval cfg env n e s start = Accept VVoid [] q /\ col q = 1 + Z.of_nat k).
Proof.
  intros k. exists (default_config Std11), (fun _ => POneChar), read_all, (S k). split.
  - exists (repeat 13 k), (adv start (repeat 13 k)). split; [apply repeat_length|].
    apply read_all_line.
  - exists (repeat 97 k), (adv start (repeat 97 k)). split; [apply repeat_length|].
    apply read_all_col.
Qed.
Print Assumptions C87_bound_reached.

Example C87_case :
  program_every (fits (default_config Std98)) brackets
  /\ program_every orderly brackets
  /\ reaches Std98 brackets (PRef 0, text "((x", start)
       (PLitC 40, text "((x", start)
  /\ eval (default_config Std98) brackets 9 (PRef 0) (text "((x") start
     = Reject (unpaired 1 2 (literal_expected 41)) (mkpos 1 4 120)
  /\ within start (text "((x") (mkpos 1 4 120)
  /\ ~ within start (text "((") (mkpos 1 4 120).
Proof.
  split.
  { intros k. unfold brackets, PLitC, PLetter.
    repeat match goal with
    | H : _ \/ _ |- _ => destruct H
    | H : False |- _ => contradiction
    | H : ?a = ?c |- every _ ?c => subst c
    | |- fits _ _ => unfold fits, fits_one_of, fits_sequence; try exact I; intros _; cbv; repeat constructor
    | |- forall c, In c _ -> _ => intros ?c ?H; simpl in *
    | |- every _ _ => constructor
    end. }
  split; [apply brackets_every|].
  split.
  { eapply reaches_more; [apply calls_ref|]. unfold brackets.
    eapply reaches_more; [apply calls_one_of; left; reflexivity|].
    eapply reaches_more; [|apply reaches_itself].
    apply (calls_in_turn Std98 brackets _ [] (PLitC 40) [PRef 0; PLitC 41] _ _ []); constructor. }
  split; [vm_compute; reflexivity|].
  unfold within. split; [vm_compute; repeat split; discriminate|].
  intros (_ & _ & A). vm_compute in A. apply A. reflexivity.
Qed.
