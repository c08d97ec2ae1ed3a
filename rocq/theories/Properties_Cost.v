(** How many applications of parsers parsing a text takes: every theorem is
    stated with the vocabulary of Spec.v, SpecDeep.v, SpecRules.v and SpecCost.v. *)

From Coq Require Import ZArith List Bool Lia.
From Verif Require Import Base Util Combinators Variadic Parsers Deep Spec SpecDeep SpecRules SpecCost
  Proofs_Pos Proofs_Deep Proofs_Rules Proofs_Cost Properties_Deep Properties_Rules.
Import ListNotations.
Open Scope Z_scope.

Ltac each_part :=
  constructor; [first [exact Logic.I | intros _; cbn; lia | split; [intros _; cbn; lia | discriminate]] |
    let H := fresh in intros ? H; cbn in H;
    repeat lazymatch type of H with _ \/ _ => destruct H as [<-|H]; [each_part|] end; destruct H].

(** ** C78: the applications of parsers while a text is parsed *)

(** The result of a parser depends on the applications it makes and on nothing
    else: a program whose named parsers have the same results where they are
    applied gives the same result. *)
Theorem C78_only_calls_matter : forall cfg env env' e,
  program_every (fits cfg) env -> program_every (fits cfg) env' -> every (fits cfg) e ->
  forall s ps o, is_accept o \/ is_reject o -> (exists n, eval cfg env n e s ps = o) ->
    (forall k s1 ps1 o1, reaches (cfg_std cfg) env (e, s, ps) (PRef k, s1, ps1) -> is_accept o1 \/ is_reject o1 ->
       (exists n, eval cfg env n (env k) s1 ps1 = o1) -> exists n, eval cfg env' n (env' k) s1 ps1 = o1) ->
    exists n, eval cfg env' n e s ps = o.
Proof.
  intros cfg env env' e HE HE' He s ps o S R A.
  apply C64_the_rules_are_exact in R; auto.
  apply C64_the_rules_are_exact; auto. apply (depends_on_calls _ env); auto.
  intros k s1 ps1 o1 Rk G. pose proof (gives_settled _ _ _ _ _ _ G) as S1.
  apply C64_the_rules_are_exact; auto. eapply A; eauto.
  apply C64_the_rules_are_exact; auto.
Qed.
Print Assumptions C78_only_calls_matter.

(** When a parser has a result, so has every application it makes. *)
Theorem C78_calls_have_results : forall cfg env e,
  program_every (fits cfg) env -> every (fits cfg) e ->
  forall s ps o, is_accept o \/ is_reject o -> (exists n, eval cfg env n e s ps = o) ->
    forall e1 s1 ps1, reaches (cfg_std cfg) env (e, s, ps) (e1, s1, ps1) ->
      exists o1, (is_accept o1 \/ is_reject o1) /\ gives (cfg_std cfg) env e1 s1 ps1 o1.
Proof.
  intros cfg env e HE He s ps o S R e1 s1 ps1 Re.
  apply C64_the_rules_are_exact in R; auto.
  apply gives_tree with (1 := HE) in R; auto. eapply tree_reaches in R; [|exact Re].
  destruct (tree_result _ _ _ R) as (o1 & G). exists o1. split; [exact (gives_settled _ _ _ _ _ _ G) | exact G].
Qed.
Print Assumptions C78_calls_have_results.

(** A parser that applies itself to the same text at the same place, directly or
    not, never gets a result: left recursion. *)
Theorem C78_left_recursion : forall cfg env e,
  program_every (fits cfg) env -> every (fits cfg) e ->
  forall s ps b, calls (cfg_std cfg) env (e, s, ps) b -> reaches (cfg_std cfg) env b (e, s, ps) ->
    forall n, eval cfg env n e s ps = Illformed \/ eval cfg env n e s ps = OutOfFuel.
Proof.
  intros cfg env e HE He s ps b C R. apply C64_no_result; auto. intros o G.
  apply gives_tree with (1 := HE) in G; auto. apply (tree_acyclic _ _ _ G).
  clear G. revert C R. generalize (e, s, ps) at 1 3 as a. generalize (e, s, ps) as c. clear.
  intros c a C R. revert a C. induction R as [x|x y z C' R IH]; intros a C.
  - constructor. exact C.
  - eapply needs_trans; [constructor; exact C|]. apply IH. exact C'.
Qed.
Print Assumptions C78_left_recursion.

(** The number of distinct applications is linear in the length of the text. *)
Theorem C78_linear : forall cfg env e K,
  program_every (fits cfg) env -> program_every (natives sound_accept keeps_errors) env ->
  every (fits cfg) e -> every (natives sound_accept keeps_errors) e -> names_below env K e ->
  forall s ps L, NoDup L -> (forall a, In a L -> reaches (cfg_std cfg) env (e, s, ps) a) ->
    (length L <= length (written env K e) * S (length s))%nat.
Proof.
  intros cfg env e K HE HN He Hn NB s ps L ND R. eapply nodup_bound; eauto.
  apply written_all; auto.
  - intros k. eapply every_impl; [|apply HE]. auto.
  - eapply every_impl; [|exact He]. auto.
Qed.
Print Assumptions C78_linear.

(** When the parser has a result, the applications that wait for each other are
    distinct, so there are at most as many. *)
Theorem C78_depth : forall cfg env e K,
  program_every (fits cfg) env -> program_every (natives sound_accept keeps_errors) env ->
  every (fits cfg) e -> every (natives sound_accept keeps_errors) e -> names_below env K e ->
  forall s ps o, is_accept o \/ is_reject o -> (exists n, eval cfg env n e s ps = o) ->
    forall l, call_chain (cfg_std cfg) env (e, s, ps) l ->
      NoDup l /\ (length l <= length (written env K e) * S (length s))%nat.
Proof.
  intros cfg env e K HE HN He Hn NB s ps o S R l Ch.
  apply C64_the_rules_are_exact in R; auto. apply gives_tree with (1 := HE) in R; auto.
  assert (ND : NoDup l) by (eapply chain_nodup; eauto). split; auto.
  eapply C78_linear; eauto. intros a I. eapply chain_reaches; eauto.
Qed.
Print Assumptions C78_depth.

(** Were applications not shared, there would be exponentially many: the parser
    of brackets makes two to the power of [n] chains of applications for [n]
    opening brackets, with at most 11 distinct applications for each character. *)
Theorem C78_sharing_matters : forall cfg, program_every (fits cfg) two_brackets ->
  forall n ps,
    (exists P, NoDup P /\ length P = (2 ^ n)%nat
       /\ forall l, In l P -> call_chain (cfg_std cfg) two_brackets (PRef 0, repeat 40 n, ps) l)
    /\ forall L, NoDup L -> (forall a, In a L -> reaches (cfg_std cfg) two_brackets (PRef 0, repeat 40 n, ps) a) ->
         (length L <= 11 * S n)%nat.
Proof.
  intros cfg HE n ps. split.
  - exists (paths n ps). split; [apply paths_nodup|]. split; [apply paths_length|]. apply paths_chains.
  - intros L ND R. rewrite <- (repeat_length 40 n) at 1.
    assert (HN : program_every (natives sound_accept keeps_errors) two_brackets).
    { intros k. each_part. }
    change 11%nat with (length (written two_brackets 1 (PRef 0))).
    eapply C78_linear; eauto.
    + each_part.
    + each_part.
    + intros k I. cbn in I. repeat (destruct I as [E|I]; [try discriminate; injection E as <-; lia|]). destruct I.
Qed.
Print Assumptions C78_sharing_matters.

(** When the parser has a result, no fold gets further than the text is long, so
    there are at most quadratically many distinct steps of folds. *)
Theorem C78_fold_steps : forall cfg env e K,
  program_every (fits cfg) env -> program_every (natives sound_accept keeps_errors) env ->
  every (fits cfg) e -> every (natives sound_accept keeps_errors) e -> names_below env K e ->
  forall s ps o, is_accept o \/ is_reject o -> (exists n, eval cfg env n e s ps = o) ->
    (forall e1 s1 ps1 k, reaches (cfg_std cfg) env (e, s, ps) (e1, s1, ps1) ->
       fold_step (cfg_std cfg) env (e1, s1, ps1) k -> (k <= length s1)%nat)
    /\ forall L, NoDup L ->
         (forall a k, In (a, k) L -> reaches (cfg_std cfg) env (e, s, ps) a /\ fold_step (cfg_std cfg) env a k) ->
         (length L <= length (written env K e) * S (length s) * S (length s))%nat.
Proof.
  intros cfg env e K HE HN He Hn NB s ps o S R.
  assert (B : forall e1 s1 ps1 k, reaches (cfg_std cfg) env (e, s, ps) (e1, s1, ps1) ->
       fold_step (cfg_std cfg) env (e1, s1, ps1) k -> (k <= length s1)%nat).
  { intros e1 s1 ps1 k Re St.
    destruct (C78_calls_have_results cfg env e HE He s ps o S R e1 s1 ps1 Re) as (o1 & _ & G).
    destruct (reach_fits cfg env HE HN _ _ Re He Hn) as (F1 & N1).
    eapply (step_bound cfg env HE HN); eauto. }
  split; auto. intros L ND H. apply count_pairs; auto.
  - intros (((e1 & s1) & ps1) & k) I. apply H in I as (Re & St). cbn [snd].
    pose proof (B _ _ _ _ Re St). destruct (reach_walks cfg env HE HN _ _ Re He Hn) as (w & E & _).
    cbn [fst snd] in E. rewrite E, app_length. lia.
  - intros l Nl Hl. eapply C78_linear; eauto. intros a I. destruct (Hl a I) as (k & Ik). apply (H _ _ Ik).
Qed.
Print Assumptions C78_fold_steps.

(** Folds with quadratically many steps exist: looking at all the letters again
    before each of them. *)
Theorem C78_quadratic : forall cfg env n ps,
  (exists o, gives (cfg_std cfg) env again_and_again (repeat 97 n) ps o)
  /\ exists L, NoDup L /\ (2 * length L = (n + 1) * (n + 2))%nat
     /\ forall a k, In (a, k) L ->
          reaches (cfg_std cfg) env (again_and_again, repeat 97 n, ps) a /\ fold_step (cfg_std cfg) env a k.
Proof.
  intros cfg env n ps. split; [apply again_and_again_gives|]. exists (inner_steps n ps).
  split; [apply inner_steps_nodup|]. split; [apply inner_steps_length|]. apply inner_steps_made.
Qed.
Print Assumptions C78_quadratic.

(** ** Examples *)

Example C78_two_brackets_fit : forall sd, program_every (fits (default_config sd)) two_brackets.
Proof.
  intros sd k. each_part.
Qed.

(** Three opening brackets: eight chains, at most 44 distinct applications. *)
Example C78_three : exists P, length P = 8%nat /\ NoDup P
  /\ forall l, In l P -> call_chain Std11 two_brackets (PRef 0, text "(((", start) l.
Proof.
  destruct (proj1 (C78_sharing_matters (default_config Std11) (C78_two_brackets_fit _) 3 start)) as (P & N & E & H).
  exists P. auto.
Qed.

(** A chain of the parentheses of C64, three parsers deep, and its bound. *)
Example C78_nested : forall l,
  call_chain Std11 nested (PRef 0, text "(a)b", start) l -> (length l <= 35)%nat.
Proof.
  intros l C. change 35%nat with (length (written nested 1 (PRef 0)) * S (length (text "(a)b")))%nat.
  assert (HN : program_every (natives sound_accept keeps_errors) nested).
  { intros k. each_part. }
  destruct C64_derivation as (pe & G).
  assert (F : every (fits (default_config Std11)) (PRef 0)) by (constructor; [exact Logic.I | intros ? []]).
  assert (Hn : every (natives sound_accept keeps_errors) (PRef 0)) by (constructor; [exact Logic.I | intros ? []]).
  assert (NB : names_below nested 1 (PRef 0)).
  { intros k I. cbn in I. repeat (destruct I as [E|I]; [try discriminate; injection E as <-; lia|]). destruct I. }
  eapply (C78_depth (default_config Std11) nested (PRef 0) 1 (C64_nested_fits Std11) HN F Hn NB _ start); [| |exact C].
  - left. do 3 eexists. reflexivity.
  - apply C64_the_rules_are_exact; [apply C64_nested_fits | exact F | left; do 3 eexists; reflexivity | exact G].
Qed.

Definition plain_as : program := fun _ => POneOfC [97].
(** The bound for three letters. *)
Example C78_again_three : forall L, NoDup L ->
  (forall a k, In (a, k) L -> reaches Std11 plain_as (again_and_again, text "aaa", start) a
     /\ fold_step Std11 plain_as a k) ->
  (length L <= 96)%nat.
Proof.
  intros L ND H.
  change 96%nat with (length (written plain_as 0 again_and_again) * S (length (text "aaa")) * S (length (text "aaa")))%nat.
  destruct (proj1 (C78_quadratic (default_config Std11) plain_as 3 start)) as (o & G).
  assert (F : every (fits (default_config Std11)) again_and_again) by each_part.
  assert (HE : program_every (fits (default_config Std11)) plain_as) by (intros k; each_part).
  pose proof (gives_settled _ _ _ _ _ _ G) as S.
  eapply (C78_fold_steps (default_config Std11) plain_as again_and_again 0 HE); [| | | |exact S| |exact ND|exact H].
  - intros k. each_part.
  - exact F.
  - each_part.
  - intros k I. cbn in I. repeat (destruct I as [E|I]; [discriminate|]). destruct I.
  - apply C64_the_rules_are_exact; auto.
Qed.

(** Left recursion: a name that stands for itself or something else. *)
Definition leftish : program := fun _ => POneOf [POneOfC [97]; PSequence [PRef 0; POneOfC [98]]].
Example C78_leftish : forall n, eval (default_config Std11) leftish n (PRef 0) (text "ab") start = Illformed
  \/ eval (default_config Std11) leftish n (PRef 0) (text "ab") start = OutOfFuel.
Proof.
  apply (C78_left_recursion (default_config Std11) leftish (PRef 0)) with (b := (leftish 0%nat, text "ab", start)).
  - intros k. each_part.
  - constructor; [exact Logic.I | intros ? []].
  - apply calls_ref.
  - eapply reaches_more; [apply calls_one_of; right; left; reflexivity|].
    eapply reaches_more; [|apply reaches_itself].
    eapply (calls_in_turn _ _ _ [] (PRef 0) [POneOfC [98]]); [apply c_sequence | constructor].
Qed.

(** One rule is exchanged for another one with the same results where it is
    applied. *)
Definition plain_a : program := fun _ => POneOfC [97].
Definition a_or_b : program := fun _ => POneOfC [97; 98].
Example C78_exchanged : exists n,
  eval (default_config Std11) a_or_b n (PSequence [PRef 0; POneOfC [98]]) (text "ab") start
  = Accept (VSeq [VChar 97; VChar 98]) [] (mkpos 1 3 98).
Proof.
  apply (C78_only_calls_matter (default_config Std11) plain_a a_or_b).
  - intros k. each_part.
  - intros k. each_part.
  - each_part.
  - left. do 3 eexists. reflexivity.
  - exists 5%nat. vm_compute. reflexivity.
  - intros k s1 ps1 o1 R _ (n & E). exists n.
    assert (s1 = text "ab" /\ ps1 = start) as (-> & ->).
    { assert (D : forall a c b, ~ calls Std11 plain_a (POneOfC a, c, b) (PRef k, s1, ps1)).
      { intros a c b C. inversion C; subst; match goal with H : _ |- _ => solve [inversion H] end. }
      assert (D' : forall a c b, ~ reaches Std11 plain_a (POneOfC a, c, b) (PRef k, s1, ps1)).
      { intros a c b R'. inversion R' as [|? [[x y] z] ? C _]; subst.
        inversion C; subst; match goal with H : _ |- _ => solve [inversion H] end. }
      inversion R as [|? b ? C R1]; subst.
      inversion C; subst; try solve [match goal with H : _ |- _ => solve [inversion H] end].
      match goal with H : chains _ _ |- _ => inversion H as [? Q1 Q| | | | |] end.
      destruct l1 as [|q [|r l1]]; simpl in Q.
      - injection Q as <- _.
        match goal with H : in_turn _ _ _ _ _ _ _ _ |- _ => inversion H; subst end.
        inversion R1 as [|? b ? C1 R2]; subst; auto.
        inversion C1; subst; try solve [match goal with H : _ |- _ => solve [inversion H] end].
        exfalso. eapply D'. exact R2.
      - injection Q as <- <- _. exfalso. eapply D'. exact R1.
      - destruct l1; discriminate. }
    destruct n; [exact E|]. exact E.
Qed.
