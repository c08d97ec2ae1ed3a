(** Properties proved about the errors of parsers of expressions with operators of several
    levels: stated with the vocabulary of Spec.v, SpecRules.v, SpecChoice.v,
    SpecPrecedence.v and SpecGrouping.v. *)

From Coq Require Import ZArith List Bool Lia.
From Verif Require Import Base Util Combinators Variadic Parsers Deep Calculator Spec SpecDeep
  SpecRules SpecReplace SpecChoice SpecPrecedence SpecGrouping Proofs_Pos Proofs_Rules Proofs_Layout
  Proofs_Precedence Proofs_Grouping Proofs_Grouping2 Properties_Replace Properties_Rules
  Properties_Deep Properties_Choice Properties_Precedence Properties_Grouping.
Import ListNotations.
Open Scope Z_scope.

Local Definition c11 := default_config Std11.

(** ** C99: errors in expressions are missing operands *)

(** Whatever the levels are and however they group: every error is that of an operand, at
    the beginning or after an operator that follows operands and operators in turn. *)
Theorem C99_error : forall sd env operand ls, at_once sd env (map snd ls) ->
  forall s ps m pe, gives sd env (grouped_folds operand ls) s ps (Reject m pe) ->
    operand_missing sd env operand (map snd ls) s ps m pe.
Proof. intros sd env operand ls. apply mix_reject_sound. Qed.
Print Assumptions C99_error.

(** Every missing operand is an error unless some level is lenient about it. *)
Theorem C99_missing : forall sd env operand ls,
  different_operators sd env (map snd ls) -> decided sd env (map snd ls) ->
  never_void_here sd env operand (map snd ls) -> at_once sd env (map snd ls) ->
  goes_ahead sd env operand -> (forall op f, In (op, f) (map snd ls) -> goes_ahead sd env op) ->
  (forall g op f, In (g, (op, f)) ls -> g <> To_left) ->
  (forall g op f, In (g, (op, f)) ls -> forall a b, exists v, f a b = Some v) ->
  forall s ps m pe,
    gives sd env (grouped_folds operand ls) s ps (Reject m pe)
    <-> operand_missing sd env operand (map snd ls) s ps m pe.
Proof.
  intros sd env operand ls DO DE NV AO GO GL NL T s ps m pe. split.
  - apply C99_error, AO.
  - apply (mix_reject_complete sd env operand ls). unfold fit. auto 10.
Qed.
Print Assumptions C99_missing.

Lemma grouped_strict : forall operand ls,
  grouped_folds operand (map (fun l => (To_left_strictly, l)) ls) = nested_strict_folds operand ls.
Proof. intros operand. induction ls as [|(op & f) ls IH]; cbn; [reflexivity|]. rewrite IH. reflexivity. Qed.
Lemma strict_plain : forall ls : list level, map snd (map (fun l => (To_left_strictly, l)) ls) = ls.
Proof. intros ls. rewrite map_map. apply map_id. Qed.

(** The strict folds of C95, and the results of the model. *)
Theorem C99_strict_folds : forall cfg env operand ls,
  different_operators (cfg_std cfg) env ls -> decided (cfg_std cfg) env ls ->
  never_void_here (cfg_std cfg) env operand ls -> at_once (cfg_std cfg) env ls ->
  goes_ahead (cfg_std cfg) env operand ->
  (forall op f, In (op, f) ls -> goes_ahead (cfg_std cfg) env op) ->
  (forall op f, In (op, f) ls -> forall a b, exists v, f a b = Some v) ->
  program_every (fits cfg) env -> every (fits cfg) (nested_strict_folds operand ls) ->
  forall s ps m pe,
    (exists n, eval cfg env n (nested_strict_folds operand ls) s ps = Reject m pe)
    <-> operand_missing (cfg_std cfg) env operand ls s ps m pe.
Proof.
  intros cfg env operand ls DO DE NV AO GO GL T HE HF s ps m pe.
  rewrite <- (C64_the_rules_are_exact cfg env _ HE HF s ps (Reject m pe)) by (right; do 2 eexists; reflexivity).
  rewrite <- grouped_strict. rewrite C99_missing; rewrite ?strict_plain; auto; [reflexivity| |].
  - intros g op f I. apply in_map_iff in I as (l & E & _). congruence.
  - intros g op f I. apply in_map_iff in I as (l & E & I). injection E as _ ->. exact (T op f I).
Qed.
Print Assumptions C99_strict_folds.

(** ** Reported errors *)

Lemma spaces_accept : forall sd env s ps o, gives sd env (PRepeated PSpace) s ps o ->
  exists sp t, s = sp ++ t /\ Forall space_char sp /\ not_starting_with space_char t
    /\ o = Accept (VSeq (map VChar sp)) t (adv ps sp).
Proof. intros sd env s ps o G. apply spaces_inv in G as (sp & t & -> & F & N & ->). eauto 6. Qed.

(** What is reported for a whole text: a missing operand, or something that is not an
    operator after an operand. *)
Theorem C99_reported : forall cfg env operand ls e me,
  same_results (cfg_std cfg) env e (grouped_folds operand (map grouped_char_level ls)) ->
  (forall l, In l ls -> fst l <> To_left) -> goes_ahead (cfg_std cfg) env operand ->
  program_every (fits cfg) env -> every (fits cfg) (whole e me) ->
  every (fits cfg) (grouped_folds operand (map grouped_char_level ls)) ->
  forall s ln cl m, compiles_to cfg env (whole e me) s (ParsingFailed ln cl m) ->
    exists sp t, s = sp ++ t /\ Forall space_char sp /\ not_starting_with space_char t
      /\ exists pe, line pe = ln /\ col pe = cl
        /\ (operand_missing (cfg_std cfg) env operand (map char_level (map snd ls)) t (adv start sp) m pe
            \/ m = me /\ exists x s1 ps1 l s',
                 gives (cfg_std cfg) env operand t (adv start sp) (Accept x s1 ps1)
                 /\ reads_operations (cfg_std cfg) env operand (map char_level (map snd ls)) s1 ps1 l s' pe
                 /\ s' <> []
                 /\ no_operator_follows (cfg_std cfg) env (map char_level (map snd ls)) s' pe).
Proof.
  intros cfg env operand ls e me SR NL GO HE HF HG s ln cl m C.
  assert (AO : at_once (cfg_std cfg) env (map char_level (map snd ls))
    /\ forall op f, In (op, f) (map char_level (map snd ls)) -> goes_ahead (cfg_std cfg) env op).
  { split.
    - intros op f I s0 ps0. apply in_map_iff in I as (l & E & _). injection E as <- _. split.
      + intros o s' ps' G. apply operators_inv in G as [(c & sp & t & _ & -> & E)|(m' & E)]; [|discriminate E].
        injection E as -> -> ->. apply (adv_lt (c :: sp)). discriminate.
      + intros m' pe G. apply operators_inv in G as [(c & sp & t & _ & -> & E)|(m2 & E)]; [discriminate E|].
        injection E as -> ->. reflexivity.
    - intros op f I. apply in_map_iff in I as (l & E & _). injection E as <- _. apply operators_ahead. }
  rewrite <- grouped_plain in *. destruct AO as (AO & GL).
  unfold compiles_to in C. apply (proj2 (C64_build_parser cfg env _ HE HF s) ln cl m) in C as (pe & G & L1 & L2).
  inversion G; subst; clear G.
  - match goal with X : gives _ _ (PLastOf _) _ _ _ |- _ => inversion X; subst end.
    match goal with X : in_turn _ _ _ _ _ _ _ _ |- _ => apply pair_turn in X as (a & b & sa & pa & A & B & _) end.
    apply spaces_accept in A as (sp & t & -> & F & N & E). injection E as -> -> ->.
    exists sp, t. repeat split; auto. exists pe. repeat split; auto. right. split; [reflexivity|].
    apply SR in B. assert (B' := B). apply C98_read in B as (x & s1 & ps1 & l & X & R & _).
    exists x, s1, ps1, l, (c :: s'). repeat split; auto; [discriminate|].
    intros op f I. apply in_map_iff in I as ((g & op' & f') & E & I). cbn in E. injection E as -> ->.
    eapply (mix_stops _ _ operand (map grouped_char_level ls)); eauto.
    + clear - HE HG. induction ls as [|l ls IH]; [exact Logic.I|]. cbn [map] in HG. apply tail_fits in HG.
      split; [|auto]. intros s ps o1 o2. apply (C64_at_most_one_result cfg env _ HE HG).
    + apply in_map_iff in I as (l0 & E & I). injection E as <- _ _. exact (NL l0 I).
  - match goal with X : gives _ _ (PLastOf _) _ _ _ |- _ => inversion X; subst end.
    match goal with X : breaks_off _ _ _ _ _ _ _ |- _ => inversion X; subst end.
    + match goal with X : gives _ _ (PRepeated PSpace) _ _ _ |- _ =>
        apply spaces_accept in X as (sp & t & _ & _ & _ & E) end. discriminate E.
    + match goal with X : gives _ _ (PRepeated PSpace) _ _ _ |- _ =>
        apply spaces_accept in X as (sp & t & -> & F & N & E) end. injection E as -> -> ->.
      match goal with X : breaks_off _ _ [_] _ _ _ _ |- _ => inversion X; subst end.
      * exists sp, t. repeat split; auto. exists pe. repeat split; auto. left.
        apply C99_error; [exact AO|]. apply SR. assumption.
      * match goal with X : breaks_off _ _ [] _ _ _ _ |- _ => inversion X end.
Qed.
Print Assumptions C99_reported.

(** If the functions are always defined nothing else is needed for an error to be
    reported. *)
Theorem C99_reported_exactly : forall cfg env operand ls e me,
  same_results (cfg_std cfg) env e (grouped_folds operand (map grouped_char_level ls)) ->
  (forall l, In l ls -> fst l <> To_left) -> goes_ahead (cfg_std cfg) env operand ->
  different_characters (map snd ls) ->
  never_void_here (cfg_std cfg) env operand (map char_level (map snd ls)) ->
  (forall g cs f, In (g, (cs, f)) ls -> forall a b, exists v, f a b = Some v) ->
  program_every (fits cfg) env -> every (fits cfg) (whole e me) ->
  every (fits cfg) (grouped_folds operand (map grouped_char_level ls)) ->
  forall s ln cl m, compiles_to cfg env (whole e me) s (ParsingFailed ln cl m)
    <-> exists sp t, s = sp ++ t /\ Forall space_char sp /\ not_starting_with space_char t
      /\ exists pe, line pe = ln /\ col pe = cl
        /\ (operand_missing (cfg_std cfg) env operand (map char_level (map snd ls)) t (adv start sp) m pe
            \/ m = me /\ exists x s1 ps1 l s',
                 gives (cfg_std cfg) env operand t (adv start sp) (Accept x s1 ps1)
                 /\ reads_operations (cfg_std cfg) env operand (map char_level (map snd ls)) s1 ps1 l s' pe
                 /\ s' <> []
                 /\ no_operator_follows (cfg_std cfg) env (map char_level (map snd ls)) s' pe).
Proof.
  intros cfg env operand ls e me SR NL GO D NV T HE HF HG s ln cl m. split.
  - exact (C99_reported cfg env operand ls e me SR NL GO HE HF HG s ln cl m).
  - intros (sp & t & -> & F & N & pe & L1 & L2 & H).
    destruct (char_levels_good (cfg_std cfg) env (map snd ls) D) as (DO & DE & AO & GL).
    assert (TT : forall g op f, In (g, (op, f)) (map grouped_char_level ls) ->
      forall a b, exists v, f a b = Some v).
    { intros g op f I. apply in_map_iff in I as ((g' & cs & f') & E & I). cbn in E.
      injection E as _ _ <-. exact (T g' cs f' I). }
    assert (NT : forall g op f, In (g, (op, f)) (map grouped_char_level ls) -> g <> To_left).
    { intros g op f I. apply in_map_iff in I as (l & E & I). injection E as <- _ _. exact (NL l I). }
    rewrite <- grouped_plain in *.
    unfold compiles_to. apply (proj2 (C64_build_parser cfg env _ HE HF (sp ++ t)) ln cl m).
    exists pe. split; [|split; [exact L1|exact L2]].
    destruct H as [H|(-> & x & s1 & ps1 & l & s' & X & R & NE & S)].
    + apply g_entire_input_fails, g_last_of_fails.
      eapply breaks_off_later; [apply spaces_give; [exact F|exact N]|].
      apply breaks_off_here. apply SR. apply C99_missing; assumption.
    + destruct s' as [|c s']; [destruct NE; reflexivity|].
      destruct (proj2 (C98_one_value (map grouped_char_level ls) x l) TT) as (v & V).
      { intros i J. pose proof (reads_bound _ _ _ _ _ _ _ _ _ R i J) as B. rewrite map_length in B. exact B. }
      eapply g_entire_input_more. apply (g_last_of _ _ _ _ _ v [VSeq (map VChar sp)]).
      eapply in_turn_cons; [apply spaces_give; [exact F|exact N]|].
      eapply in_turn_cons; [|constructor]. apply SR.
      eapply C98_accepted; eauto.
Qed.
Print Assumptions C99_reported_exactly.

(** Then every text has a value or an error, if every operand has. *)
Lemma longest_run : forall sd env operand ls,
  (forall s ps, exists o, gives sd env operand s ps o) ->
  (forall s ps x s' ps', gives sd env operand s ps (Accept x s' ps') -> exists u, s = u ++ s') ->
  decided sd env (map char_level ls) ->
  forall n s ps, (length s <= n)%nat -> exists l s' ps',
    reads_operations sd env operand (map char_level ls) s ps l s' ps'
    /\ (no_operator_follows sd env (map char_level ls) s' ps'
        \/ exists op f o s3 ps3 m pe, In (op, f) (map char_level ls)
             /\ gives sd env op s' ps' (Accept o s3 ps3) /\ gives sd env operand s3 ps3 (Reject m pe)).
Proof.
  intros sd env operand ls TO PO DE. induction n as [n IH] using lt_wf_ind. intros s ps L.
  assert (C : no_operator_follows sd env (map char_level ls) s ps
    \/ exists k op f o s3 ps3, nth_error (map char_level ls) k = Some (op, f)
         /\ gives sd env op s ps (Accept o s3 ps3)).
  { clear - DE. unfold no_operator_follows. induction (map char_level ls) as [|(op & f) l H].
    - left. intros op f [].
    - destruct (DE op f (or_introl eq_refl) s ps) as (o & G).
      destruct (gives_settled _ _ _ _ _ _ G) as [(a & b & c & ->)|(m & pe & ->)].
      + right. exists 0%nat, op, f, a, b, c. auto.
      + destruct H as [H|(k & op' & f' & o & s3 & ps3 & N & G')].
        * intros op' f' J. apply (DE op' f'). right. exact J.
        * left. intros op' f' [E|J]; [injection E as <- <-; eauto|eauto].
        * right. exists (S k), op', f', o, s3, ps3. auto. }
  destruct C as [C|(k & op & f & o & s3 & ps3 & N & G)].
  - exists [], s, ps. split; [constructor|left; exact C].
  - assert (LT : (length s3 < length s)%nat).
    { apply nth_error_In in N. apply in_map_iff in N as (l & E & _). injection E as <- _.
      apply operators_inv in G as [(c & sp & t & _ & -> & E)|(m & E)]; [|discriminate E].
      injection E as -> -> ->. cbn. rewrite app_length. lia. }
    destruct (TO s3 ps3) as (r & H).
    destruct (gives_settled _ _ _ _ _ _ H) as [(x & s4 & ps4 & ->)|(m & pe & ->)].
    + destruct (PO _ _ _ _ _ H) as (u & ->). rewrite app_length in LT.
      destruct (IH (length s4)) with (s := s4) (ps := ps4) as (l & s' & ps' & R & Q); [lia|lia|].
      exists ((k, o, x) :: l), s', ps'. split; [|exact Q]. eapply ro_more; eauto.
    + exists [], s, ps. split; [constructor|]. right. apply nth_error_In in N. eauto 12.
Qed.

Theorem C99_value_or_error : forall cfg env operand ls e me,
  same_results (cfg_std cfg) env e (grouped_folds operand (map grouped_char_level ls)) ->
  (forall l, In l ls -> fst l <> To_left) -> goes_ahead (cfg_std cfg) env operand ->
  different_characters (map snd ls) ->
  never_void_here (cfg_std cfg) env operand (map char_level (map snd ls)) ->
  (forall g cs f, In (g, (cs, f)) ls -> forall a b, exists v, f a b = Some v) ->
  (forall s ps, exists o, gives (cfg_std cfg) env operand s ps o) ->
  (forall s ps x s' ps', gives (cfg_std cfg) env operand s ps (Accept x s' ps') -> exists u, s = u ++ s') ->
  program_every (fits cfg) env -> every (fits cfg) (whole e me) ->
  every (fits cfg) (grouped_folds operand (map grouped_char_level ls)) ->
  forall s, (exists v, compiles_to cfg env (whole e me) s (Built v))
    \/ exists ln cl m, compiles_to cfg env (whole e me) s (ParsingFailed ln cl m).
Proof.
  intros cfg env operand ls e me SR NL GO D NV T TO PO HE HF HG s.
  assert (RE := fun ln cl m => proj2 (C99_reported_exactly cfg env operand ls e me SR NL GO D NV T HE HF HG s ln cl m)).
  assert (SP : exists sp t, s = sp ++ t /\ Forall space_char sp /\ not_starting_with space_char t).
  { clear. induction s as [|c s (sp & t & -> & F & N)].
    - exists [], []. repeat split; auto.
    - assert (S : space_char c \/ ~ space_char c) by (unfold space_char; lia).
      destruct S as [S|S].
      + exists (c :: sp), t. repeat split; auto.
      + exists [], (c :: sp ++ t). repeat split; auto. }
  destruct SP as (sp & t & E & F & N).
  destruct (char_levels_good (cfg_std cfg) env (map snd ls) D) as (DO & DE & AO & GL).
  destruct (TO t (adv start sp)) as (o & G).
  destruct (gives_settled _ _ _ _ _ _ G) as [(x & s1 & ps1 & ->)|(m & pe & ->)].
  - destruct (longest_run _ _ operand (map snd ls) TO PO DE (length s1) s1 ps1 (le_n _))
      as (l & s' & ps' & R & [S|(op & f & o & s3 & ps3 & m & pe & I & A & B)]).
    + destruct s' as [|c s'].
      * left. rewrite <- grouped_plain in *.
        destruct (proj2 (C98_one_value (map grouped_char_level ls) x l)) as (v & V).
        { intros g op f I. apply in_map_iff in I as ((g' & cs & f') & Q & I). cbn in Q.
          injection Q as _ _ <-. exact (T g' cs f' I). }
        { intros i J. pose proof (reads_bound _ _ _ _ _ _ _ _ _ R i J) as B. rewrite map_length in B. exact B. }
        exists v. unfold compiles_to. apply (proj1 (C64_build_parser cfg env _ HE HF s) v).
        exists [], ps'. rewrite E. apply g_entire_input. apply (g_last_of _ _ _ _ _ v [VSeq (map VChar sp)]).
        eapply in_turn_cons; [apply spaces_give; [exact F|exact N]|].
        eapply in_turn_cons; [|constructor]. apply SR. eapply C98_accepted; eauto.
      * right. exists (line ps'), (col ps'), me. apply RE. exists sp, t. repeat split; auto.
        exists ps'. repeat split; auto. right. split; [reflexivity|].
        exists x, s1, ps1, l, (c :: s'). repeat split; auto. discriminate.
    + right. exists (line pe), (col pe), m. apply RE. exists sp, t. repeat split; auto.
      exists pe. repeat split; auto. left. right. exists x, s1, ps1, l, s', ps', op, f, o, s3, ps3. auto 10.
  - right. exists (line pe), (col pe), m. apply RE. exists sp, t. repeat split; auto.
    exists pe. repeat split; auto. left. left. exact G.
Qed.
Print Assumptions C99_value_or_error.

(** The calculators: an operand is missing or the text goes on with something that is not
    an operator. *)
Lemma calculator_strict : forall ls : list (list char * mf2),
  map grouped_char_level (map (fun l => (To_left_strictly, l)) ls)
  = map (fun l => (To_left_strictly, l)) (map char_level ls).
Proof. intros ls. rewrite !map_map. reflexivity. Qed.

Theorem C99_calculators : forall cfg env operand e,
  In (env, operand, e)
    [(no_program, int_token, calculator);
     (calc2_program, calc2_simple_exp, calculator_with_parens);
     (calc3_program, calc3_simple_exp, calculator_with_unary_ops)] ->
  program_every (fits cfg) env -> every (fits cfg) e ->
  forall s ln cl m, compiles_to cfg env e s (ParsingFailed ln cl m) ->
    exists sp t, s = sp ++ t /\ Forall space_char sp /\ not_starting_with space_char t
      /\ exists pe, line pe = ln /\ col pe = cl
        /\ (operand_missing (cfg_std cfg) env operand (map char_level calculator_levels) t (adv start sp) m pe
            \/ m = end_of_input_expected /\ exists x s1 ps1 l s',
                 gives (cfg_std cfg) env operand t (adv start sp) (Accept x s1 ps1)
                 /\ reads_operations (cfg_std cfg) env operand (map char_level calculator_levels) s1 ps1 l s' pe
                 /\ s' <> []
                 /\ no_operator_follows (cfg_std cfg) env (map char_level calculator_levels) s' pe).
Proof.
  intros cfg env operand e I HE HF s ln cl m C.
  assert (FT : every (fits cfg) (nested_strict_folds operand (map char_level calculator_levels))).
  { destruct I as [I|[I|[I|[]]]]; injection I as <- <- <-.
    - apply (every_in _ calc1_expression); [|right; left; reflexivity].
      apply (every_in _ calculator); [exact HF|left; reflexivity].
    - exact (HE 0%nat).
    - exact (HE 0%nat). }
  assert (HO : every (fits cfg) operand).
  { apply (every_in _ (nested_strict_folds operand (map char_level [([42; 47], eval_mult)]))); [|right; left; reflexivity].
    apply (every_in _ (nested_strict_folds operand (map char_level calculator_levels))); [exact FT|right; left; reflexivity]. }
  rewrite <- grouped_strict, <- calculator_strict in FT.
  assert (K : forall r, same_results (cfg_std cfg) env r (nested_strict_folds operand (map char_level calculator_levels)) ->
    e = whole r end_of_input_expected -> goes_ahead (cfg_std cfg) env operand ->
    exists sp t, s = sp ++ t /\ Forall space_char sp /\ not_starting_with space_char t
      /\ exists pe, line pe = ln /\ col pe = cl
        /\ (operand_missing (cfg_std cfg) env operand (map char_level calculator_levels) t (adv start sp) m pe
            \/ m = end_of_input_expected /\ exists x s1 ps1 l s',
                 gives (cfg_std cfg) env operand t (adv start sp) (Accept x s1 ps1)
                 /\ reads_operations (cfg_std cfg) env operand (map char_level calculator_levels) s1 ps1 l s' pe
                 /\ s' <> []
                 /\ no_operator_follows (cfg_std cfg) env (map char_level calculator_levels) s' pe)).
  { intros r SR E GO. rewrite E in HF, C. rewrite <- grouped_strict, <- calculator_strict in SR.
    refine (C99_reported cfg env operand _ r end_of_input_expected SR _ GO HE HF FT s ln cl m C).
    intros l J. apply in_map_iff in J as (l' & <- & _). discriminate. }
  clear FT. destruct I as [I|[I|[I|[]]]]; injection I as <- <- <-.
  - apply (K calc1_plus_exp); [intros ? ? ?; reflexivity|reflexivity|].
    apply C94_goes_ahead; auto; [intros k|]; no_natives.
  - apply (K (PRef 0)); [|reflexivity|apply C94_goes_ahead; auto; [intros k|]; no_natives].
    intros s0 ps0 o. split; intros G; [inversion G; subst; assumption|apply g_ref; exact G].
  - apply (K (PRef 0)); [|reflexivity|apply C94_goes_ahead; auto; [intros k|]; no_natives].
    intros s0 ps0 o. split; intros G; [inversion G; subst; assumption|apply g_ref; exact G].
Qed.
Print Assumptions C99_calculators.

(** ** Examples *)

(** Functions that are always defined: the conditions of C99_missing. *)
Definition counting : mf2 := fun a b => Some (VSeq [a; b]).
Definition counting_levels : list (grouping * (list char * mf2)) :=
  [(To_left_strictly, ([43; 45], counting)); (To_right, ([94], counting))].
Example C99_case_conditions :
  different_characters (map snd counting_levels)
  /\ never_void_here Std11 no_program int_token (map char_level (map snd counting_levels))
  /\ goes_ahead Std11 no_program int_token
  /\ (forall g op f, In (g, (op, f)) (map grouped_char_level counting_levels) -> g <> To_left)
  /\ (forall g op f, In (g, (op, f)) (map grouped_char_level counting_levels) -> forall a b, exists v, f a b = Some v)
  /\ eval c11 no_program 20 (grouped_folds int_token (map grouped_char_level counting_levels)) (text "1+2^3^+4") start
     = Reject digit_expected (mkpos 1 7 94).
Proof.
  split; [|split; [|split; [|split; [|split; [|vm_compute; reflexivity]]]]].
  - cbn. repeat split; intros c l C L; repeat destruct L as [<-|L]; try destruct L;
      cbn; intros X; repeat destruct C as [<-|C]; try destruct C; lia.
  - apply never_void_by; [intros k; solids|solids|].
    intros l [<-|[<-|[]]]; intros a b v _ E; cbn in E; injection E as <-; discriminate.
  - apply (C94_goes_ahead c11); [intros k; everywhere|everywhere|intros k; no_natives|no_natives].
  - intros g op f [I|[I|[]]]; injection I as <- _ _; discriminate.
  - intros g op f [I|[I|[]]]; injection I as _ _ <-; intros a b; eexists; reflexivity.
Qed.

(** The conditions of C99_value_or_error, for an operand of one letter, and reported errors. *)
Example C99_case_reported : let a := PToken (PLitC 97) in
  let e := grouped_folds a (map grouped_char_level counting_levels) in
  (forall l, In l counting_levels -> fst l <> To_left) /\ goes_ahead Std11 no_program a
  /\ different_characters (map snd counting_levels)
  /\ never_void_here Std11 no_program a (map char_level (map snd counting_levels))
  /\ (forall g cs f, In (g, (cs, f)) counting_levels -> forall x y, exists v, f x y = Some v)
  /\ (forall s ps, exists o, gives Std11 no_program a s ps o)
  /\ (forall s ps x s' ps', gives Std11 no_program a s ps (Accept x s' ps') -> exists u, s = u ++ s')
  /\ program_every (fits c11) no_program
  /\ every (fits c11) (whole e end_of_input_expected) /\ every (fits c11) e
  /\ build_parser (eval c11 no_program 30 (whole e end_of_input_expected)) (text " a + a^a^ ")
     = ParsingFailed 1 11 (literal_expected 97)
  /\ build_parser (eval c11 no_program 30 (whole e end_of_input_expected)) (text " a + a^a a")
     = ParsingFailed 1 10 end_of_input_expected
  /\ exists v, build_parser (eval c11 no_program 30 (whole e end_of_input_expected)) (text " a + a^a ") = Built v.
Proof.
  cbv zeta. split; [|split; [|split; [|split; [|split; [|split; [|split; [|split; [|split; [|split; [|split; [|split]]]]]]]]]]].
  - intros l [<-|[<-|[]]]; discriminate.
  - apply (C94_goes_ahead c11); [intros k; everywhere|everywhere|intros k; no_natives|no_natives].
  - exact (proj1 C99_case_conditions).
  - split.
    + intros s ps v s' ps' G. apply token_inv in G as [(sp & t & -> & E)|(_ & m & E)]; [|discriminate E].
      injection E as -> _ _. discriminate.
    + intros op f x b v [I|[I|[]]] _ E; injection I as _ <-; cbn in E; injection E as <-; discriminate.
  - intros g cs f [I|[I|[]]]; injection I as _ _ <-; intros x y; eexists; reflexivity.
  - intros s ps. apply token_ex.
  - intros s ps x s' ps' G. apply token_inv in G as [(sp & t & -> & E)|(_ & m & E)]; [|discriminate E].
    injection E as _ -> _. exists (97 :: sp). reflexivity.
  - intros k. everywhere.
  - everywhere.
  - everywhere.
  - vm_compute. reflexivity.
  - vm_compute. reflexivity.
  - eexists. vm_compute. reflexivity.
Qed.

(** The calculator: a missing operand and something that is not an operator. *)
Example C99_case_calculator :
  build_parser (eval c11 no_program 40 calculator) (text " 1 + 2* ") = ParsingFailed 1 9 digit_expected
  /\ build_parser (eval c11 no_program 40 calculator) (text " 1 + 2 3") = ParsingFailed 1 8 end_of_input_expected.
Proof. split; vm_compute; reflexivity. Qed.

(** ** What is not true *)

(** A missing operand is not reported if the value of what is before it is not defined:
    1/0/1* does not compile at all. *)
Theorem C99_undefined_refuted : exists cfg env operand ls s m pe,
  different_characters ls /\ never_void_here (cfg_std cfg) env operand (map char_level ls)
  /\ goes_ahead (cfg_std cfg) env operand
  /\ operand_missing (cfg_std cfg) env operand (map char_level ls) s start m pe
  /\ forall n o, eval cfg env n (nested_strict_folds operand (map char_level ls)) s start = o ->
       o = Illformed \/ o = OutOfFuel.
Proof.
  destruct calculator_levels_fine as (D & L).
  assert (HE : program_every (fits c11) no_program) by (intros k; everywhere).
  assert (HI : every (fits c11) int_token) by everywhere.
  assert (FT : every (fits c11) (char_operators [42; 47])) by everywhere.
  assert (FN : every (fits c11) (nested_strict_folds int_token (map char_level calculator_levels))) by everywhere.
  assert (GE : forall e s ps o, every (fits c11) e -> eval c11 no_program 9 e s ps = o ->
    (exists v s' ps', o = Accept v s' ps') \/ (exists m pe, o = Reject m pe) ->
    gives Std11 no_program e s ps o).
  { intros e s ps o F E S. apply (C64_the_rules_are_exact c11 no_program e HE F); [exact S|].
    exists 9%nat. exact E. }
  exists c11, no_program, int_token, calculator_levels, (text "1/0/1*"), digit_expected, (mkpos 1 7 42).
  split; [exact D|]. split; [apply never_void_by; auto; [intros k|]; solids|].
  split; [apply C94_goes_ahead; auto; [intros k|]; no_natives|]. split.
  - right. exists (VInt 1), (text "/0/1*"), (mkpos 1 2 49), [(1%nat, VChar 47, VInt 0); (1%nat, VChar 47, VInt 1)],
      (text "*"), (mkpos 1 6 49), (char_operators [42; 47]), eval_mult, (VChar 42), [], (mkpos 1 7 42).
    split; [apply GE; [exact HI|vm_compute; reflexivity|left; do 3 eexists; reflexivity]|].
    split; [|split; [right; left; reflexivity|split]].
    + eapply (ro_more _ _ _ _ _ _ 1%nat (char_operators [42; 47]) eval_mult (VChar 47) (text "0/1*") (mkpos 1 3 47) (VInt 0)
        (text "/1*") (mkpos 1 4 48)); [reflexivity| | |].
      * apply GE; [exact FT|vm_compute; reflexivity|left; do 3 eexists; reflexivity].
      * apply GE; [exact HI|vm_compute; reflexivity|left; do 3 eexists; reflexivity].
      * eapply (ro_more _ _ _ _ _ _ 1%nat (char_operators [42; 47]) eval_mult (VChar 47) (text "1*") (mkpos 1 5 47) (VInt 1)
          (text "*") (mkpos 1 6 49)); [reflexivity| | |apply ro_none].
        -- apply GE; [exact FT|vm_compute; reflexivity|left; do 3 eexists; reflexivity].
        -- apply GE; [exact HI|vm_compute; reflexivity|left; do 3 eexists; reflexivity].
    + apply GE; [exact FT|vm_compute; reflexivity|left; do 3 eexists; reflexivity].
    + apply GE; [exact HI|vm_compute; reflexivity|right; do 2 eexists; reflexivity].
  - intros n o E.
    assert (B : eval c11 no_program 20 (nested_strict_folds int_token (map char_level calculator_levels))
      (text "1/0/1*") start = Illformed) by (vm_compute; reflexivity).
    assert (S : (exists v s' ps', o = Accept v s' ps') \/ (exists m pe, o = Reject m pe) -> False).
    { intros S. assert (G : gives Std11 no_program (nested_strict_folds int_token (map char_level calculator_levels))
        (text "1/0/1*") start o) by (apply (C64_the_rules_are_exact c11 no_program _ HE FN); [exact S|exists n; exact E]).
      destruct (C64_found_eventually c11 no_program _ HE FN _ _ _ G) as (_ & N & Q).
      specialize (Q (20 + N)%nat (Nat.le_add_l _ _)).
      rewrite (C36_larger_bound_same_outcome c11 no_program _ 20 (20 + N)) in Q;
        [|apply Nat.le_add_r|rewrite B; discriminate].
      rewrite B in Q. subst o. rewrite <- Q in S. destruct S as [(a & b & c & S)|(a & b & S)]; discriminate S. }
    destruct o; auto; destruct S; [left|right]; repeat eexists.
Qed.
Print Assumptions C99_undefined_refuted.
