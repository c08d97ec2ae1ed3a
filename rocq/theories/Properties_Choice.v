(** Properties proved about changing the alternatives of a choice: stated with the
    vocabulary of Spec.v, SpecDeep.v, SpecRules.v, SpecReplace.v, SpecErase.v and
    SpecChoice.v. *)

From Coq Require Import ZArith List Bool Lia.
From Verif Require Import Base Util Combinators Variadic Parsers Deep Spec SpecDeep
  SpecRules SpecReplace SpecErase SpecChoice Proofs_Pos Proofs_Deep Proofs_Rules Proofs_Replace
  Proofs_Choice Properties_Positions Properties_Deep Properties_Rules Properties_Replace.
Import ListNotations.
Open Scope Z_scope.

Local Definition c11 := default_config Std11.

(** ** C94: choices can be reordered, cleaned up and factored *)

Theorem C94_laws : forall cfg env a b,
  program_every (fits cfg) env -> every (fits cfg) a ->
  choice_law (cfg_std cfg) env a b -> agree_but_message (cfg_std cfg) env a b.
Proof. intros cfg env a b HE. exact (laws_agree cfg env HE a b). Qed.
Print Assumptions C94_laws.

(** Parsers go ahead unless the user wrote one that does not. *)
Theorem C94_goes_ahead : forall cfg env e,
  program_every (fits cfg) env -> every (fits cfg) e ->
  program_every (natives (fun p => sound_accept p /\ sound_reject p)
    (fun f => keeps_errors f /\ keeps_positions f)) env ->
  every (natives (fun p => sound_accept p /\ sound_reject p)
    (fun f => keeps_errors f /\ keeps_positions f)) e ->
  goes_ahead (cfg_std cfg) env e.
Proof.
  intros cfg env e HE He HN Hn.
  assert (NI : forall e, natives (fun p => sound_accept p /\ sound_reject p)
    (fun f => keeps_errors f /\ keeps_positions f) e -> natives sound_accept keeps_errors e)
    by (intros []; cbn [natives]; tauto).
  split.
  - intros s ps r s' ps' G. apply (C64_the_rules_are_exact cfg env e HE He) in G as (n & G);
      [|left; do 3 eexists; reflexivity].
    destruct (C02_position_follows_consumed_text cfg env n e
      (fun k => every_impl _ _ NI _ (HN k)) (every_impl _ _ NI _ Hn) _ _ _ _ _ G) as (w & _ & W).
    apply walk_iff in W as ->. apply adv_le.
  - intros s ps m pe G. apply (C64_the_rules_are_exact cfg env e HE He) in G as (n & G);
      [|right; do 2 eexists; reflexivity].
    destruct (C03_error_position_bounds cfg env n e HN Hn s ps m pe (adv ps s) G) as (A & _);
      [apply walk_adv|exact A].
Qed.
Print Assumptions C94_goes_ahead.

(** ** Anywhere in a program *)

Theorem C94_replace_in_parser : forall sd env (R : pexpr -> pexpr -> Prop) e e',
  program_every message_blind env -> every message_blind e -> every message_blind e' ->
  (forall a b, R a b -> agree_but_message sd env a b) ->
  replaced R e e' -> agree_but_message sd env e e'.
Proof.
  intros sd env R e e' HB B B' HR H.
  assert (P : forall Q, replaced_program Q env env) by (intros Q k; apply replaced_refl).
  split; intros s ps o G.
  - apply (replaced_refines sd env env (fun a b => R b a) (P _)
      (fun a b X => proj1 (HR b a X)) HB e' e); auto. apply replaced_sym, H.
  - apply (replaced_refines sd env env R (P _) (fun a b X => proj2 (HR a b X)) HB e e'); auto.
Qed.
Print Assumptions C94_replace_in_parser.

Theorem C94_replace_in_program : forall sd env env' (R : pexpr -> pexpr -> Prop) e e',
  program_every message_blind env -> every message_blind e ->
  program_every message_blind env' -> every message_blind e' ->
  (forall a b, R a b -> agree_but_message sd env a b /\ agree_but_message sd env' a b) ->
  replaced_program R env env' -> replaced R e e' ->
  forall s ps,
    (forall o, gives sd env e s ps o -> exists o', gives sd env' e' s ps o' /\ same_but_message o o')
    /\ (forall o, gives sd env' e' s ps o -> exists o', gives sd env e s ps o' /\ same_but_message o o').
Proof.
  intros sd env env' R e e' HB B HB' B' HR HP H s ps. split; intros o G.
  - apply (replaced_refines sd env' env (fun a b => R b a) (fun k => replaced_sym _ _ _ (HP k))
      (fun a b X => proj1 (proj2 (HR b a X))) HB e' e); auto. apply replaced_sym, H.
  - apply (replaced_refines sd env env' R HP (fun a b X => proj2 (proj1 (HR a b X))) HB' e e'); auto.
Qed.
Print Assumptions C94_replace_in_program.

(** The laws applied anywhere in the definitions of a program: the same types are
    built, and the same texts are rejected at the same line and column. *)
Theorem C94_same_compilation : forall cfg env env' (R : pexpr -> pexpr -> Prop) e e',
  program_every (fits cfg) env -> every (fits cfg) e ->
  program_every (fits cfg) env' -> every (fits cfg) e' ->
  program_every message_blind env -> every message_blind e ->
  program_every message_blind env' -> every message_blind e' ->
  (forall a b, R a b -> every (fits cfg) a
     /\ choice_law (cfg_std cfg) env a b /\ choice_law (cfg_std cfg) env' a b) ->
  replaced_program R env env' -> replaced R e e' ->
  (forall s v, compiles_to cfg env e s (Built v) <-> compiles_to cfg env' e' s (Built v))
  /\ (forall s l c, (exists m, compiles_to cfg env e s (ParsingFailed l c m))
        <-> (exists m, compiles_to cfg env' e' s (ParsingFailed l c m))).
Proof.
  intros cfg env env' R e e' F1 F2 F3 F4 B1 B2 B3 B4 HR HP H.
  pose proof (C94_replace_in_program (cfg_std cfg) env env' R e e' B1 B2 B3 B4
    (fun a b X => match HR a b X with conj F (conj L L') =>
       conj (C94_laws cfg env a b F1 F L) (C94_laws cfg env' a b F3 F L') end) HP H) as X.
  pose proof (C64_build_parser cfg env e F1 F2) as D1.
  pose proof (C64_build_parser cfg env' e' F3 F4) as D2.
  split.
  - intros s v. unfold compiles_to. rewrite (proj1 (D1 s) v), (proj1 (D2 s) v).
    split; intros (rest & pe & G); exists rest, pe; apply X in G as (o' & G & S);
      apply sbm_accept in S as ->; exact G.
  - intros s l c. unfold compiles_to. split; intros (m & G).
    + apply (proj2 (D1 s) l c m) in G as (pe & G & Q). apply X in G as (o' & G & S).
      apply sbm_reject in S as (m' & ->). exists m'. apply (proj2 (D2 s) l c m'). eauto.
    + apply (proj2 (D2 s) l c m) in G as (pe & G & Q). apply X in G as (o' & G & S).
      apply sbm_reject in S as (m' & ->). exists m'. apply (proj2 (D1 s) l c m'). eauto.
Qed.
Print Assumptions C94_same_compilation.

(** A small language before and after the common beginning of two alternatives
    has been moved out. *)
Definition key (c : char) : pexpr := PKeyword [c] (VChar c).
Definition before : program := fun _ =>
  POneOf [POneOf [PLastOf [key 40; key 120]; PLastOf [key 40; PRef 0]]; key 97].
Definition after : program := fun _ =>
  POneOf [PLastOf [key 40; POneOf [key 120; PRef 0]]; key 97].
Definition moved_out (a b : pexpr) : Prop :=
  a = POneOf [PLastOf [key 40; key 120]; PLastOf [key 40; PRef 0]]
  /\ b = PLastOf [key 40; POneOf [key 120; PRef 0]].

Lemma key_fits : forall cfg c, every (fits cfg) (key c).
Proof. intros cfg c. constructor; [exact Logic.I|]. intros ? []. Qed.
Lemma key_ahead : forall sd env c, goes_ahead sd env (key c).
Proof.
  intros sd env c. split; intros s ps; intros; match goal with G : gives _ _ _ _ _ _ |- _ =>
    inversion G; subst end;
    match goal with W : walk _ _ _ |- _ => apply walk_iff in W; subst end; apply adv_le.
Qed.
Lemma key_apart : forall sd env c d, c <> d -> exclusive sd env (key c) (key d).
Proof.
  intros sd env c d N s ps (r & s' & ps' & G) (r1 & s1 & ps1 & G1).
  inversion G; subst. inversion G1; subst. cbn in *. congruence.
Qed.

Example C94_case_swap : forall sd env, choice_law sd env
  (POneOf [key 40; key 97; key 98]) (POneOf [key 40; key 98; key 97]).
Proof. intros sd env. apply (cl_swap sd env [key 40]), key_apart. lia. Qed.

Example C94_case_factor : forall sd env, choice_law sd env
  (POneOf [PLastOf [key 40; key 120]; PLastOf [key 40; key 121]])
  (PLastOf [key 40; POneOf [key 120; key 121]]).
Proof.
  intros sd env. apply (cl_factor_last sd env (key 40) [key 120; key 121]); [discriminate| |].
  - apply key_ahead.
  - intros b [<-|[<-|[]]]; apply key_ahead.
Qed.

Ltac everywhere := repeat (constructor;
  [first [exact Logic.I | intros X; discriminate X
         | split; exact Logic.I | split; [intros X; discriminate X|discriminate]]|];
  let x := fresh in let X := fresh in intros x X; cbn [children In map key] in X;
  repeat destruct X as [<-|X]; try destruct X).

Lemma before_fits : program_every (fits c11) before.
Proof. intros k. unfold before. everywhere. Qed.
Lemma after_fits : program_every (fits c11) after.
Proof. intros k. unfold after. everywhere. Qed.

Example C94_case_ahead : goes_ahead Std11 before (PRef 0) /\ goes_ahead Std11 after (PRef 0).
Proof.
  split; [apply (C94_goes_ahead c11 before (PRef 0) before_fits)
         |apply (C94_goes_ahead c11 after (PRef 0) after_fits)];
    try (intros k; unfold before, after); everywhere.
Qed.

Example C94_case_compilation :
  (forall s v, compiles_to c11 before (PRef 0) s (Built v)
     <-> compiles_to c11 after (PRef 0) s (Built v))
  /\ (forall s l c, (exists m, compiles_to c11 before (PRef 0) s (ParsingFailed l c m))
        <-> (exists m, compiles_to c11 after (PRef 0) s (ParsingFailed l c m))).
Proof.
  destruct C94_case_ahead as (A & A').
  apply (C94_same_compilation c11 before after moved_out); try exact before_fits;
    try exact after_fits; try (intros k; unfold before, after; everywhere; fail); try (everywhere; fail).
  - intros a b (-> & ->). split; [everywhere|].
    split; apply (cl_factor_last _ _ (key 40) [key 120; PRef 0]); try discriminate;
      try apply key_ahead; intros b [<-|[<-|[]]]; auto; apply key_ahead.
  - intros k. apply (replaced_inside moved_out (before k)
      [PLastOf [key 40; POneOf [key 120; PRef 0]]; key 97]).
    constructor; [apply replaced_here; split; reflexivity|].
    constructor; [apply replaced_refl|constructor].
  - apply replaced_refl.
Qed.

Example C94_case_values :
  eval c11 before 20 (PRef 0) (text "((a") start = Accept (VChar 97) [] (mkpos 1 4 97)
  /\ eval c11 after 20 (PRef 0) (text "((a") start = Accept (VChar 97) [] (mkpos 1 4 97)
  /\ eval c11 before 20 (PRef 0) (text "((c") start
     = Reject none_of_the_expected_cases_found (mkpos 1 3 40)
  /\ eval c11 after 20 (PRef 0) (text "((c") start
     = Reject none_of_the_expected_cases_found (mkpos 1 3 40).
Proof. repeat split; vm_compute; reflexivity. Qed.

(** ** Alternatives that are never chosen *)

(** If wherever [q] accepts an alternative before it accepts as well, [q] can be
    left out: nothing changes for the texts that are accepted (all alternatives
    are instantiated, so [q] has to have an outcome), and what is rejected is still
    rejected, not further on. *)
Theorem C94_hidden : forall cfg env l1 q l2,
  program_every (fits cfg) env -> (forall p, In p l1 -> every (fits cfg) p) ->
  (forall s ps, takes (cfg_std cfg) env q s ps ->
     exists p, In p l1 /\ takes (cfg_std cfg) env p s ps) ->
  forall s ps,
    (forall r s' ps', gives (cfg_std cfg) env (POneOf (l1 ++ q :: l2)) s ps (Accept r s' ps')
       <-> (exists o, gives (cfg_std cfg) env q s ps o)
           /\ gives (cfg_std cfg) env (POneOf (l1 ++ l2)) s ps (Accept r s' ps'))
    /\ (forall m pe, gives (cfg_std cfg) env (POneOf (l1 ++ q :: l2)) s ps (Reject m pe) ->
          exists m' pe', gives (cfg_std cfg) env (POneOf (l1 ++ l2)) s ps (Reject m' pe')
            /\ pos_le pe' pe).
Proof.
  intros cfg env l1 q l2 HE FL H s ps. split.
  - intros r s' ps'. apply (hidden_accept cfg env HE l1 q l2 FL H). do 3 eexists; reflexivity.
  - apply (hidden_reject cfg env).
Qed.
Print Assumptions C94_hidden.

(** A keyword behind one it starts with is hidden. *)
Theorem C94_keyword_hidden : forall cfg env l1 k l2,
  program_every (fits cfg) env -> (forall p, In p l1 -> every (fits cfg) p) ->
  (exists k', In (keyword_of k') l1 /\ prefix (fst k') (fst k)) ->
  forall s ps r s' ps',
    gives (cfg_std cfg) env (POneOf (l1 ++ keyword_of k :: l2)) s ps (Accept r s' ps')
    <-> gives (cfg_std cfg) env (POneOf (l1 ++ l2)) s ps (Accept r s' ps').
Proof.
  intros cfg env l1 k l2 HE FL (k' & I & (w & E)) s ps r s' ps'.
  rewrite (proj1 (C94_hidden cfg env l1 (keyword_of k) l2 HE FL
    (fun s ps T => ex_intro _ (keyword_of k') (conj I (shorter_keyword _ _ k k' w E s ps T))) s ps)).
  split; [intros (_ & G); exact G|]. intros G. split; [apply keyword_ex|exact G].
Qed.
Print Assumptions C94_keyword_hidden.

Example C94_hidden_case :
  eval c11 before 5 (POneOf [PKeyword (text "<") (VInt 1); PKeyword (text "<=") (VInt 2)])
    (text "<=3") start = Accept (VInt 1) (text "=3") (mkpos 1 2 60)
  /\ eval c11 before 5 (POneOf [PKeyword (text "<=") (VInt 2); PKeyword (text "<") (VInt 1)])
    (text "<=3") start = Accept (VInt 2) (text "3") (mkpos 1 3 61).
Proof. split; vm_compute; reflexivity. Qed.

(** ** The longest keyword *)

(** When no keyword is the beginning of a later one, the choice takes the longest
    keyword that fits. *)
Theorem C94_longest_keyword : forall sd env ks, longer_first ks ->
  forall s ps r s' ps',
    gives sd env (POneOf (map keyword_of ks)) s ps (Accept r s' ps')
    <-> exists k, In k ks /\ s = fst k ++ s' /\ walk ps (fst k) ps' /\ r = snd k
          /\ forall k', In k' ks -> prefix (fst k') s -> (length (fst k') <= length (fst k))%nat.
Proof.
  intros sd env ks LF s ps r s' ps'. split.
  - intros G. inversion G; subst.
    match goal with E : each _ _ _ _ _ _, F : first_accept _ _ |- _ =>
      destruct (first_keyword _ _ ks LF _ _ _ _ E F) as (k & s1 & ps1 & I & -> & W & Q & M) end.
    injection Q as -> -> ->. exists k. repeat split; auto. intros k' I' P. apply M; auto.
  - intros (k & I & -> & W & -> & M).
    destruct (each_ex sd env (map keyword_of ks) (fst k ++ s') ps) as (os & E).
    { intros p Hp. apply in_map_iff in Hp as (x & <- & _). apply keyword_ex. }
    destruct (first_keyword_ex sd env ks _ _ _ k E I) as (o & F); [eexists; reflexivity|].
    destruct (first_keyword _ _ ks LF _ _ _ _ E F) as (k1 & s1 & ps1 & I1 & Q & W1 & -> & M1).
    destruct (M1 k I) as (L1 & U); [eexists; reflexivity|].
    assert (k = k1) as <-.
    { apply U. pose proof (M k1 I1 (ex_intro _ s1 Q)). lia. }
    apply app_inv_head in Q as <-. apply walk_iff in W, W1. subst.
    eapply g_one_of; eauto.
Qed.
Print Assumptions C94_longest_keyword.

(** The same for the results of the model. *)
Theorem C94_keywords_evaluated : forall cfg env ks, longer_first ks ->
  program_every (fits cfg) env -> fits_one_of cfg (length ks) ->
  forall s ps r s' ps',
    (exists n, eval cfg env n (POneOf (map keyword_of ks)) s ps = Accept r s' ps')
    <-> exists k, In k ks /\ s = fst k ++ s' /\ walk ps (fst k) ps' /\ r = snd k
          /\ forall k', In k' ks -> prefix (fst k') s -> (length (fst k') <= length (fst k))%nat.
Proof.
  intros cfg env ks LF HE HL s ps r s' ps'.
  rewrite <- (C94_longest_keyword (cfg_std cfg) env ks LF). symmetry.
  apply C64_the_rules_are_exact; auto; [|left; do 3 eexists; reflexivity].
  constructor; [cbn [fits]; rewrite map_length; exact HL|].
  intros c I. cbn [children] in I. apply in_map_iff in I as (k & <- & _).
  constructor; [exact Logic.I|]. intros ? [].
Qed.
Print Assumptions C94_keywords_evaluated.

Example C94_longest_keyword_case :
  longer_first [(text "<=", VInt 2); (text "<", VInt 1); (text "=", VInt 3)]
  /\ ~ longer_first [(text "<", VInt 1); (text "<=", VInt 2)].
Proof.
  split.
  - cbn. repeat split; intros k' H; repeat destruct H as [<-|H]; try destruct H;
      intros (w & E); discriminate E.
  - intros (H & _). apply (H (text "<=", VInt 2)); [left; reflexivity|].
    exists (text "="). reflexivity.
Qed.

Lemma C94_longest_keyword_two : longer_first [(text "<=", VInt 2); (text "<", VInt 1)].
Proof.
  cbn. repeat split; intros k' H; repeat destruct H as [<-|H]; try destruct H;
    intros (w & E); discriminate E.
Qed.

(** ** What is not true *)

(** Alternatives that accept the same text can not change places. *)
Theorem C94_swap_refuted : exists sd env p q,
  ~ agree_but_message sd env (POneOf [p; q]) (POneOf [q; p]).
Proof.
  exists Std11, before, (PKeyword (text "<") (VInt 1)), (PKeyword (text "<=") (VInt 2)).
  intros (A & _).
  destruct (A (text "<=") start (Accept (VInt 1) (text "=") (adv start (text "<")))) as (o & G & S).
  - eapply g_one_of.
    + constructor; [apply (g_keyword Std11 before (text "<") (VInt 1) (text "=") start), walk_adv|].
      constructor; [|constructor].
      apply (g_keyword Std11 before (text "<=") (VInt 2) [] start). apply walk_adv.
    + apply Proofs_Laws.first_accept_cons. left. split; [do 3 eexists; reflexivity|reflexivity].
  - apply sbm_accept in S as ->.
    apply (C94_longest_keyword Std11 before [(text "<=", VInt 2); (text "<", VInt 1)]) in G
      as (k & I & E & _ & R & M); [|apply C94_longest_keyword_two].
    destruct I as [<-|[<-|[]]]; [discriminate R|].
    specialize (M (text "<=", VInt 2) (or_introl eq_refl) (ex_intro _ [] eq_refl)).
    cbn in M. lia.
Qed.
Print Assumptions C94_swap_refuted.

(** A common ending can not be moved out: the choice does not come back to try the
    second alternative. *)
Theorem C94_right_factoring_refuted : exists sd env a b c s,
  (exists r s' ps',
     gives sd env (POneOf [PLastOf [a; c]; PLastOf [b; c]]) s start (Accept r s' ps'))
  /\ ~ exists r s' ps', gives sd env (PLastOf [POneOf [a; b]; c]) s start (Accept r s' ps').
Proof.
  exists Std11, before, (PKeyword (text "x") (VInt 1)), (PKeyword (text "xy") (VInt 2)),
    (key 122), (text "xyz").
  assert (E1 : eval c11 before 6 (POneOf [PLastOf [PKeyword (text "x") (VInt 1); key 122];
      PLastOf [PKeyword (text "xy") (VInt 2); key 122]]) (text "xyz") start
    = Accept (VChar 122) [] (mkpos 1 4 122)) by (vm_compute; reflexivity).
  assert (E2 : eval c11 before 6 (PLastOf [POneOf [PKeyword (text "x") (VInt 1);
      PKeyword (text "xy") (VInt 2)]; key 122]) (text "xyz") start
    = Reject (literal_expected 122) (mkpos 1 2 120)) by (vm_compute; reflexivity).
  split.
  - exists (VChar 122), [], (mkpos 1 4 122).
    refine (proj2 (C64_the_rules_are_exact c11 before _ before_fits _ _ _ _ _) (ex_intro _ 6%nat E1));
      [everywhere|left; do 3 eexists; reflexivity].
  - intros (r & s' & ps' & G).
    assert (G2 : gives (cfg_std c11) before (PLastOf [POneOf [PKeyword (text "x") (VInt 1);
      PKeyword (text "xy") (VInt 2)]; key 122]) (text "xyz") start
      (Reject (literal_expected 122) (mkpos 1 2 120))).
    { refine (proj2 (C64_the_rules_are_exact c11 before _ before_fits _ _ _ _ _) (ex_intro _ 6%nat E2));
      [everywhere|right; do 2 eexists; reflexivity]. }
    assert (F : every (fits c11) (PLastOf [POneOf [PKeyword (text "x") (VInt 1);
      PKeyword (text "xy") (VInt 2)]; key 122])) by everywhere.
    pose proof (C64_at_most_one_result c11 before _ before_fits F _ _ _ _ G G2) as Q.
    discriminate Q.
Qed.
Print Assumptions C94_right_factoring_refuted.

(** Leaving out a hidden alternative can change where an error is reported. *)
Theorem C94_hidden_position_refuted : exists sd env l1 q,
  (forall s ps, takes sd env q s ps -> exists p, In p l1 /\ takes sd env p s ps)
  /\ ~ agree_but_message sd env (POneOf (l1 ++ [q])) (POneOf l1).
Proof.
  exists Std11, before, [key 120], (PLastOf [key 97; PFail unexpected_end_of_input]).
  assert (N : forall s ps, ~ takes Std11 before (PLastOf [key 97; PFail unexpected_end_of_input]) s ps).
  { intros s ps (r & s' & ps' & G). inversion G; subst.
    repeat match goal with H : in_turn _ _ _ _ _ _ _ _ |- _ => inversion H; subst; clear H end.
    match goal with H : gives _ _ (PFail _) _ _ _ |- _ => inversion H end. }
  split; [intros s ps T; destruct (N _ _ T)|]. intros (A & _).
  assert (E1 : eval c11 before 6 (POneOf [key 120; PLastOf [key 97; PFail unexpected_end_of_input]])
      (text "ab") start = Reject unexpected_end_of_input (mkpos 1 2 97)) by (vm_compute; reflexivity).
  assert (E2 : eval c11 before 6 (POneOf [key 120]) (text "ab") start
    = Reject none_of_the_expected_cases_found start) by (vm_compute; reflexivity).
  assert (G1 : gives (cfg_std c11) before
    (POneOf [key 120; PLastOf [key 97; PFail unexpected_end_of_input]]) (text "ab") start
    (Reject unexpected_end_of_input (mkpos 1 2 97))).
  { refine (proj2 (C64_the_rules_are_exact c11 before _ before_fits _ _ _ _ _) (ex_intro _ 6%nat E1));
      [everywhere|right; do 2 eexists; reflexivity]. }
  assert (G2 : gives (cfg_std c11) before (POneOf [key 120]) (text "ab") start
    (Reject none_of_the_expected_cases_found start)).
  { refine (proj2 (C64_the_rules_are_exact c11 before _ before_fits _ _ _ _ _) (ex_intro _ 6%nat E2));
      [everywhere|right; do 2 eexists; reflexivity]. }
  destruct (A _ _ _ G1) as (o & G & S). apply sbm_reject in S as (m & ->).
  assert (F : every (fits c11) (POneOf [key 120])) by everywhere.
  pose proof (C64_at_most_one_result c11 before _ before_fits F _ _ _ _ G G2) as Q.
  discriminate Q.
Qed.
Print Assumptions C94_hidden_position_refuted.
