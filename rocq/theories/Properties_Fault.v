(** Properties proved about the places where formulas go wrong: stated with the vocabulary
    of Spec.v, SpecRules.v, SpecPrecedence.v, SpecGrouping.v, SpecFormula.v,
    SpecGroupedFormula.v and SpecFault.v. *)

From Coq Require Import ZArith List Bool Lia.
From Verif Require Import Base Util Combinators Variadic Parsers Deep Calculator Spec SpecDeep SpecCalc
  SpecRules SpecReplace SpecChoice SpecPrecedence SpecGrouping SpecFormula SpecGroupedFormula SpecFault
  Proofs_Pos Proofs_Rules Proofs_Layout Proofs_Parsers2 Proofs_Calc Proofs_Precedence Proofs_Formula Proofs_Formula2
  Proofs_Formula3 Proofs_Grouping Proofs_GroupedFormula Proofs_Fault Proofs_Fault2 Properties_Positions Properties_Replace
  Properties_Rules Properties_Choice Properties_Precedence Properties_Formula Properties_Grouping
  Properties_Missing Properties_GroupedFormula.
Import ListNotations.
Open Scope Z_scope.

Local Definition c11 := default_config Std11.

(** ** C101: errors in formulas are where the beginning of a formula ends *)

Lemma operators_at_once : forall sd env ls, at_once sd env (map char_level ls).
Proof.
  intros sd env ls op f I s0 ps0. apply in_map_iff in I as (l & E & _). injection E as <- _. split.
  - intros o s' ps' G. apply operators_inv in G as [(c & sp & t & _ & -> & E)|(m' & E)]; [|discriminate E].
    injection E as -> -> ->. apply (adv_lt (c :: sp)). discriminate.
  - intros m' pe G. apply operators_inv in G as [(c & sp & t & _ & -> & E)|(m2 & E)]; [discriminate E|].
    injection E as -> ->. reflexivity.
Qed.

(** What is before the position of an error is the beginning of a text of a formula.
    Either an operand is wanted there and none begins, or a bracket is not closed, and
    what is there is something that the parser can leave after a formula. *)
Theorem C101_fault : forall sd env ls signs sign word p operand,
  (exists w v, word w v) -> only_words word sd env p -> gives_up_at_once sd env p ->
  plain_operands signs sign sd env p operand -> reads_grouped sd env operand ls ->
  moves_on sd env operand -> moves_on sd env (PRef 0) ->
  forall after : str -> Prop,
  (forall s ps v s' ps', gives sd env (PRef 0) s ps (Accept v s' ps') -> after s') ->
  forall s ps m pe, gives sd env (PRef 0) s ps (Reject m pe) ->
  exists u r, s = u ++ r /\ walk ps u pe /\ begins_formula ls signs word 0 u
    /\ (operand_wanted ls signs u /\ no_operand sd env p signs r pe
        \/ unclosed ls signs word u r /\ after r).
Proof.
  intros sd env ls signs sign word p operand SO W GU OP R MO MR after AF s ps m pe G.
  assert (F : fault_at sd env ls signs word p after 0 s ps pe).
  { eapply (formula_fault sd env ls signs sign word p operand SO W GU OP) with (n := S (length s)); eauto.
    - clear - R. intros s ps v s' ps' G. apply R, C98_read in G. rewrite grouped_plain in G. exact G.
    - clear - R. intros s ps m pe G. apply R in G. apply C99_error in G; rewrite grouped_plain in *; [exact G|].
      apply operators_at_once. }
  destruct F as (u & r & -> & -> & B & ST). exists u, r. split; [reflexivity|].
  split; [apply walk_iff; reflexivity|]. split; [exact B|exact ST].
Qed.
Print Assumptions C101_fault.

Lemma moves_by : forall cfg env e, program_every (fits cfg) env -> every (fits cfg) e ->
  program_every (natives sound_accept keeps_errors) env -> every (natives sound_accept keeps_errors) e ->
  moves_on (cfg_std cfg) env e.
Proof.
  intros cfg env e HE He HN Hn s ps r s' ps' G. apply (C64_the_rules_are_exact cfg env e HE He) in G as (n & G);
    [|left; do 3 eexists; reflexivity].
  exact (C02_position_follows_consumed_text cfg env n e HN Hn _ _ _ _ _ G).
Qed.

(** What is reported for a whole text. *)
Theorem C101_reported : forall cfg env ls signs sign word p operand me,
  (exists w v, word w v) -> only_words word (cfg_std cfg) env p -> gives_up_at_once (cfg_std cfg) env p ->
  plain_operands signs sign (cfg_std cfg) env p operand -> reads_grouped (cfg_std cfg) env operand ls ->
  moves_on (cfg_std cfg) env operand -> moves_on (cfg_std cfg) env (PRef 0) ->
  forall after : str -> Prop,
  (forall s ps v s' ps', gives (cfg_std cfg) env (PRef 0) s ps (Accept v s' ps') -> after s') ->
  program_every (fits cfg) env -> every (fits cfg) (whole (PRef 0) me) ->
  forall s ln cl m, compiles_to cfg env (whole (PRef 0) me) s (ParsingFailed ln cl m) ->
  exists sp u r pe, s = sp ++ u ++ r /\ Forall space_char sp
    /\ walk start (sp ++ u) pe /\ line pe = ln /\ col pe = cl
    /\ begins_formula ls signs word 0 u
    /\ (operand_wanted ls signs u /\ no_operand (cfg_std cfg) env p signs r pe
        \/ unclosed ls signs word u r /\ after r
        \/ m = me /\ r <> [] /\ after r /\ exists a, grouped_spells ls signs word 0 a u).
Proof.
  intros cfg env ls signs sign word p operand me SO W GU OP R MO MR after AF HE HF s ln cl m C.
  unfold compiles_to in C. apply (proj2 (C64_build_parser cfg env _ HE HF s) ln cl m) in C as (pe & G & L1 & L2).
  inversion G; subst; clear G.
  - match goal with X : gives _ _ (PLastOf _) _ _ _ |- _ => inversion X; subst end.
    match goal with X : in_turn _ _ _ _ _ _ _ _ |- _ => apply pair_turn in X as (a & b & sa & pa & A & B & _) end.
    apply spaces_accept in A as (sp & t & -> & F & N & E). injection E as -> -> ->.
    destruct (MR _ _ _ _ _ B) as (u & -> & WK). apply walk_iff in WK. subst.
    assert (O : only_operands signs sign (cfg_std cfg) env p operand)
      by (destruct OP as [more _ M|q more C _ _ M]; constructor; auto; intros q' I; apply M; exact I).
    destruct (C100_only _ _ ls signs sign word p operand W O R _ _ _ _ _ B) as (f & u' & E & S & _).
    apply app_inv_tail in E. subst u'.
    eexists sp, u, _, _. split; [reflexivity|]. split; [exact F|].
    split; [apply walk_iff; symmetry; apply adv_app|]. split; [reflexivity|]. split; [reflexivity|].
    split; [exists f, []; rewrite app_nil_r; exact S|]. right. right. split; [reflexivity|]. split; [discriminate|].
    split; [exact (AF _ _ _ _ _ B)|eauto].
  - match goal with X : gives _ _ (PLastOf _) _ _ _ |- _ => inversion X; subst end.
    match goal with X : breaks_off _ _ _ _ _ _ _ |- _ => inversion X; subst end.
    + match goal with X : gives _ _ (PRepeated PSpace) _ _ _ |- _ =>
        apply spaces_accept in X as (sp & t & _ & _ & _ & E) end. discriminate E.
    + match goal with X : gives _ _ (PRepeated PSpace) _ _ _ |- _ =>
        apply spaces_accept in X as (sp & t & -> & F & N & E) end. injection E as -> -> ->.
      match goal with X : breaks_off _ _ [_] _ _ _ _ |- _ => inversion X; subst end;
        [|match goal with X : breaks_off _ _ [] _ _ _ _ |- _ => inversion X end].
      match goal with X : gives _ _ (PRef 0) _ _ (Reject _ _) |- _ =>
        destruct (C101_fault _ _ ls signs sign word p operand SO W GU OP R MO MR after AF _ _ _ _ X)
          as (u & r' & -> & WK & B & ST) end.
      apply walk_iff in WK. subst pe. exists sp, u, r', (adv (adv start sp) u). split; [reflexivity|].
      split; [exact F|]. split; [apply walk_iff; symmetry; apply adv_app|]. repeat split; auto. tauto.
Qed.
Print Assumptions C101_reported.

(** ** Numbers *)

Lemma digit_rejects : forall sd env s ps m pe, gives sd env PDigit s ps (Reject m pe) ->
  pe = ps /\ not_starting_with digit_char s.
Proof.
  intros sd env s ps m pe G. inversion G; subst;
  match goal with X : gives _ _ (PChangeErrorMessage _ _) _ _ _ |- _ => inversion X; subst end;
  match goal with X : gives _ _ POneChar _ _ _ |- _ => inversion X; subst end.
  - split; [reflexivity|]. cbn. intros D. apply in_digits in D. cbn in *. congruence.
  - split; [reflexivity|exact Logic.I].
Qed.
Lemma number_rejects : forall sd env s ps m pe, gives sd env int_token s ps (Reject m pe) ->
  pe = ps /\ not_starting_with digit_char s.
Proof.
  intros sd env s ps m pe G. inversion G; subst.
  match goal with X : breaks_off _ _ _ _ _ _ _ |- _ => inversion X; subst end.
  - match goal with X : gives _ _ PInt _ _ _ |- _ => inversion X; subst end.
    match goal with X : gives _ _ PDigitVal _ _ _ |- _ => inversion X; subst end.
    eapply digit_rejects; eauto.
  - match goal with X : breaks_off _ _ [_] _ _ _ _ |- _ => inversion X; subst end.
    + match goal with X : gives _ _ (PRepeated PSpace) _ _ _ |- _ =>
        apply spaces_accept in X as (sp & t & _ & _ & _ & E) end. discriminate E.
    + match goal with X : breaks_off _ _ [] _ _ _ _ |- _ => inversion X end.
Qed.
Lemma some_number : exists w v, number_word w v.
Proof.
  exists [48], (VInt 0). repeat split; [discriminate| |].
  - repeat constructor; unfold digit_char; lia.
  - vm_compute. discriminate.
Qed.

Lemma no_number : forall sd env signs r pe, no_operand sd env int_token signs r pe ->
  not_starting_with (fun c => digit_char c \/ c = 40 \/ In c signs) r.
Proof.
  intros sd env signs [|c r] pe ((m & G) & N); [exact Logic.I|]. cbn.
  apply number_rejects in G as (_ & D). destruct (N c r eq_refl) as (A & B). intros [X|[X|X]]; auto.
Qed.

(** Whichever way additions and multiplications group: the text before the reported
    position begins a formula.  An operand is missing there, a bracket is not closed, or
    something follows a formula. *)
Theorem C101_numbers : forall cfg g1 g2 me,
  program_every (fits cfg) (tutorial_program g1 g2) -> every (fits cfg) number_or_brackets ->
  every (fits cfg) (whole (PRef 0) me) ->
  forall s ln cl m, compiles_to cfg (tutorial_program g1 g2) (whole (PRef 0) me) s (ParsingFailed ln cl m) ->
  exists sp u r pe, s = sp ++ u ++ r /\ Forall space_char sp
    /\ walk start (sp ++ u) pe /\ line pe = ln /\ col pe = cl
    /\ begins_formula (tutorial_table g1 g2) [] number_word 0 u
    /\ (operand_wanted (tutorial_table g1 g2) [] u /\ not_starting_with (fun c => digit_char c \/ c = 40) r
        \/ unclosed (tutorial_table g1 g2) [] number_word u r
        \/ m = me /\ r <> [] /\ exists a, grouped_spells (tutorial_table g1 g2) [] number_word 0 a u).
Proof.
  intros cfg g1 g2 me HE HO HF s ln cl m C.
  assert (FR : every (fits cfg) (PRef 0)) by (apply every_one; [exact Logic.I|intros c []]).
  assert (NE : program_every (natives sound_accept keeps_errors) (tutorial_program g1 g2)).
  { intros k. destruct g1, g2; unfold tutorial_program; cbn; no_natives. }
  destruct (C101_reported cfg (tutorial_program g1 g2) (tutorial_table g1 g2) [] negate_first number_word
    int_token number_or_brackets me some_number) with (after := fun _ : str => True) (s := s) (ln := ln) (cl := cl) (m := m)
    as (sp & u & r & pe & E & F & WK & L1 & L2 & B & ST); auto.
  - apply numbers_only.
  - intros t ps m0 pe G. apply number_rejects in G as (-> & _). reflexivity.
  - apply plain_without_signs; [reflexivity|]. intros q [].
  - intros u ps o. split; intros G; [inversion G; subst; assumption|apply g_ref; exact G].
  - apply moves_by; auto. no_natives.
  - apply moves_by; auto. no_natives.
  - exists sp, u, r, pe. repeat split; auto. destruct ST as [(A & NO)|[(ST & _)|(Q & NE' & _ & ST)]];
      [left|right; left; exact ST|right; right; auto].
    split; [exact A|]. apply no_number in NO. destruct r as [|c r]; [exact Logic.I|]. cbn in *. tauto.
Qed.
Print Assumptions C101_numbers.

(** The parsers of the tutorial with brackets and negation (11_3.hpp, 12.hpp), with
    folds that are lenient and folds that are not. *)
Definition bracket_table (g : grouping) : list (grouping * (list char * mf2)) :=
  [(g, ([43; 45], binary_op)); (g, ([42; 47], binary_op))].
Theorem C101_tutorial : forall cfg g env,
  In (g, env) [(To_left, tut20_program); (To_left_strictly, tut23_program)] ->
  program_every (fits cfg) env -> every (fits cfg) unary_exp3 ->
  forall s ln cl m, compiles_to cfg env (PRef 0) s (ParsingFailed ln cl m) ->
  exists u r pe, s = u ++ r /\ walk start u pe /\ line pe = ln /\ col pe = cl
    /\ begins_formula (bracket_table g) [45] number_word 0 u
    /\ (operand_wanted (bracket_table g) [45] u
          /\ not_starting_with (fun c => digit_char c \/ c = 40 \/ c = 45) r
        \/ unclosed (bracket_table g) [45] number_word u r).
Proof.
  intros cfg g env I HE HO s ln cl m C.
  assert (FR : every (fits cfg) (PRef 0)) by (apply every_one; [exact Logic.I|intros c []]).
  assert (NE : program_every (natives sound_accept keeps_errors) env).
  { intros k. destruct I as [I|[I|[]]]; injection I as _ <-; no_natives. }
  unfold compiles_to in C. apply (proj2 (C64_build_parser cfg env _ HE FR s) ln cl m) in C as (pe & G & L1 & L2).
  destruct (C101_fault (cfg_std cfg) env (bracket_table g) [45] negate_first number_word int_token unary_exp3 some_number)
    with (after := fun _ : str => True) (s := s) (ps := start) (m := m) (pe := pe) as (u & r & E & WK & B & ST); auto.
  - apply numbers_only.
  - intros t ps m0 p0 X. apply number_rejects in X as (-> & _). reflexivity.
  - apply (plain_with_signs [45] negate_first (cfg_std cfg) env int_token minus_token
      [PFail missing_primary_expression]).
    + apply token_only.
    + intros t ps m0 p0 X c t' -> [<-|[]]. apply token_inv in X as [(? & ? & _ & X)|(N & _)]; [discriminate X|].
      exact (N t' eq_refl).
    + intros t ps v t' ps' X. apply token_inv in X as [(sp & w & -> & X)|(_ & ? & X)]; [|discriminate X].
      injection X as _ -> ->. exists (45 :: sp). split; [reflexivity|apply walk_iff; reflexivity].
    + intros q [<-|[]]. split; [intros t ps v t' ps' X; inversion X|].
      intros t ps m0 p0 X. inversion X. reflexivity.
  - destruct I as [I|[I|[]]]; injection I as <- <-; intros t ps o;
      (split; intros X; [inversion X; subst; assumption|apply g_ref; exact X]).
  - apply moves_by; auto. no_natives.
  - apply moves_by; auto. no_natives.
  - exists u, r, pe. repeat split; auto. destruct ST as [(A & NO)|(ST & _)]; [left|right; exact ST].
    split; [exact A|]. apply no_number in NO. destruct r as [|c r]; [exact Logic.I|]. cbn in *. intuition.
Qed.
Print Assumptions C101_tutorial.

(** ** The calculators *)

Lemma each_of : forall sd env l s ps os, each sd env l s ps os -> forall q, In q l ->
  exists o, In o os /\ gives sd env q s ps o.
Proof.
  induction l as [|p l IH]; intros s ps os E q I; inversion E; subst; [destruct I|].
  destruct I as [<-|I]; [eexists; split; [left; reflexivity|assumption]|].
  match goal with X : each _ _ l _ _ _ |- _ => destruct (IH _ _ _ X q I) as (o' & J & G) end.
  exists o'. split; [right; exact J|exact G].
Qed.
Lemma operators_never_reject : forall sd env cs, never_rejects sd env (char_operators cs) cs.
Proof.
  intros sd env cs s ps m pe G c t -> I. inversion G; subst.
  { match goal with X : first_accept _ (Reject _ _) |- _ => destruct X as ((? & ? & ? & X) & _); discriminate X end. }
  match goal with E : each _ _ _ _ _ ?os, X : rejections ?os _ |- _ =>
    destruct (each_of _ _ _ _ _ _ E (PToken (PLitC c))) as (o & J & GO);
    [apply (in_map (fun c => PToken (PLitC c))); exact I|rewrite X in J] end.
  apply in_map_iff in J as ((m1 & p1) & <- & _).
  apply token_inv in GO as [(? & ? & _ & X)|(N & _)]; [discriminate X|exact (N t eq_refl)].
Qed.

(** Folds that are not lenient leave no operator. *)
Theorem C101_no_operator : forall cfg env operand ls,
  reads_grouped (cfg_std cfg) env operand ls -> (forall l, In l ls -> fst l <> To_left) ->
  goes_ahead (cfg_std cfg) env operand -> program_every (fits cfg) env ->
  every (fits cfg) (grouped_folds operand (map grouped_char_level ls)) ->
  forall s ps v s' ps', gives (cfg_std cfg) env (PRef 0) s ps (Accept v s' ps') ->
  forall g cs f, In (g, (cs, f)) ls -> not_starting_with (fun c => In c cs) s'.
Proof.
  intros cfg env operand ls R NL GO HE HG s ps v s' ps' G g cs f I. apply R in G.
  assert (X : exists m pe, gives (cfg_std cfg) env (char_operators cs) s' ps' (Reject m pe)).
  { eapply (mix_stops _ _ operand (map grouped_char_level ls)) with (g := g) (f := f); eauto.
    + clear - HE HG. induction ls as [|l ls IH]; [exact Logic.I|]. cbn [map] in HG. apply tail_fits in HG.
      split; [|auto]. intros s ps o1 o2. apply (C64_at_most_one_result cfg env _ HE HG).
    + rewrite grouped_plain. apply operators_at_once.
    + rewrite grouped_plain. intros op h J. apply in_map_iff in J as (l & E & _). injection E as <- _.
      apply operators_ahead.
    + apply (in_map grouped_char_level) in I. exact I.
    + exact (NL _ I). }
  destruct X as (m & pe & X). destruct s' as [|c t]; [exact Logic.I|].
  exact (operators_never_reject _ _ _ _ _ _ _ X c t eq_refl).
Qed.
Print Assumptions C101_no_operator.

(** The calculators with brackets and with signs: where an error is reported the text
    before begins a formula.  An operand is missing there, or neither an operator nor the
    closing bracket follows a formula in brackets, or something that is no operator follows
    a formula. *)
Definition calculator_table : list (grouping * (list char * mf2)) :=
  map (fun l => (To_left_strictly, l)) calculator_levels.
Definition operator_char (c : char) : Prop := c = 43 \/ c = 45 \/ c = 42 \/ c = 47.
Theorem C101_calculators : forall cfg env signs e,
  In (env, signs, e)
    [(calc2_program, [], calculator_with_parens);
     (calc3_program, [43; 45], calculator_with_unary_ops)] ->
  program_every (fits cfg) env -> every (fits cfg) e ->
  forall s ln cl m, compiles_to cfg env e s (ParsingFailed ln cl m) ->
  exists sp u r pe, s = sp ++ u ++ r /\ Forall space_char sp
    /\ walk start (sp ++ u) pe /\ line pe = ln /\ col pe = cl
    /\ begins_formula calculator_table signs number_word 0 u
    /\ (operand_wanted calculator_table signs u
          /\ not_starting_with (fun c => digit_char c \/ c = 40 \/ In c signs) r
        \/ unclosed calculator_table signs number_word u r /\ not_starting_with operator_char r
        \/ m = end_of_input_expected /\ r <> [] /\ not_starting_with operator_char r
           /\ exists a, grouped_spells calculator_table signs number_word 0 a u).
Proof.
  intros cfg env signs e I HE HF s ln cl m C.
  assert (FR : every (fits cfg) (PRef 0)) by (apply every_one; [exact Logic.I|intros c []]).
  assert (NE : program_every (natives sound_accept keeps_errors) env).
  { intros k. destruct I as [I|[I|[]]]; injection I as <- _ _; no_natives. }
  assert (K : exists operand, plain_operands signs eval_unary_plus (cfg_std cfg) env int_token operand
    /\ reads_grouped (cfg_std cfg) env operand calculator_table /\ moves_on (cfg_std cfg) env operand
    /\ goes_ahead (cfg_std cfg) env operand
    /\ every (fits cfg) (grouped_folds operand (map grouped_char_level calculator_table))
    /\ e = whole (PRef 0) end_of_input_expected).
  { destruct I as [I|[I|[]]]; injection I as <- <- <-.
    - exists calc2_simple_exp.
      assert (FO : every (fits cfg) calc2_simple_exp).
      { apply (every_in _ calc2_prod_exp); [|right; left; reflexivity].
        apply (every_in _ calc2_plus_exp); [exact (HE 0%nat)|right; left; reflexivity]. }
      split; [apply plain_without_signs with (more := []); [reflexivity|intros q []]|].
      split; [intros t ps o; split; intros G; [inversion G; subst; assumption|apply g_ref; exact G]|].
      split; [apply moves_by; auto; no_natives|].
      split; [apply C94_goes_ahead; auto; [intros k|]; no_natives|].
      split; [exact (HE 0%nat)|reflexivity].
    - exists calc3_simple_exp.
      assert (FO : every (fits cfg) calc3_simple_exp).
      { apply (every_in _ calc3_prod_exp); [|right; left; reflexivity].
        apply (every_in _ calc3_plus_exp); [exact (HE 0%nat)|right; left; reflexivity]. }
      split.
      { apply (plain_with_signs [43; 45] eval_unary_plus (cfg_std cfg) calc3_program int_token
          (char_operators [43; 45]) []).
        - apply operators_only.
        - apply operators_never_reject.
        - intros t ps v t' ps' X. apply operators_inv in X as [(c & sp & w & _ & -> & X)|(? & X)]; [|discriminate X].
          injection X as _ -> ->. exists (c :: sp). split; [reflexivity|apply walk_iff; reflexivity].
        - intros q []. }
      split; [intros t ps o; split; intros G; [inversion G; subst; assumption|apply g_ref; exact G]|].
      split; [apply moves_by; auto; no_natives|].
      split; [apply C94_goes_ahead; auto; [intros k|]; no_natives|].
      split; [exact (HE 0%nat)|reflexivity]. }
  destruct K as (operand & OP & R & MO & GO & HG & ->).
  assert (AF : forall s ps v s' ps', gives (cfg_std cfg) env (PRef 0) s ps (Accept v s' ps') ->
    not_starting_with operator_char s').
  { intros t ps v t' ps' G.
    assert (NL : forall l, In l calculator_table -> fst l <> To_left) by (intros l [<-|[<-|[]]]; discriminate).
    pose proof (C101_no_operator cfg env operand calculator_table R NL GO HE HG _ _ _ _ _ G) as X.
    pose proof (X _ _ _ (or_introl eq_refl)) as X1. pose proof (X _ _ _ (or_intror (or_introl eq_refl))) as X2.
    destruct t' as [|c t']; [exact Logic.I|]. cbn in *. unfold operator_char. intuition. }
  destruct (C101_reported cfg env calculator_table signs eval_unary_plus number_word int_token operand
    end_of_input_expected some_number) with (after := not_starting_with operator_char) (s := s) (ln := ln) (cl := cl) (m := m)
    as (sp & u & r & pe & E & F & WK & L1 & L2 & B & ST); auto.
  - apply numbers_only.
  - intros t ps m0 pe G. apply number_rejects in G as (-> & _). reflexivity.
  - apply moves_by; auto. no_natives.
  - exists sp, u, r, pe. repeat split; auto. destruct ST as [(A & NO)|ST]; [left|right; exact ST].
    split; [exact A|exact (no_number _ _ _ _ _ NO)].
Qed.
Print Assumptions C101_calculators.

(** For the calculators the beginning is the longest one: no text of a formula begins with
    the text before the error and the next character, unless this is white space or a digit
    after a digit. *)
Theorem C101_longest : forall cfg env signs e,
  In (env, signs, e)
    [(calc2_program, [], calculator_with_parens);
     (calc3_program, [43; 45], calculator_with_unary_ops)] ->
  program_every (fits cfg) env -> every (fits cfg) e ->
  forall s ln cl m, compiles_to cfg env e s (ParsingFailed ln cl m) ->
  exists sp u r pe, s = sp ++ u ++ r /\ Forall space_char sp
    /\ walk start (sp ++ u) pe /\ line pe = ln /\ col pe = cl
    /\ begins_formula calculator_table signs number_word 0 u
    /\ forall c t, r = c :: t -> ~ space_char c ->
       (digit_char c -> forall v d, u = v ++ [d] -> ~ digit_char d) ->
       ~ begins_formula calculator_table signs number_word 0 (u ++ [c]).
Proof.
  intros cfg env signs e I HE HF s ln cl m C.
  destruct (C101_calculators cfg env signs e I HE HF s ln cl m C)
    as (sp & u & r & pe & E & F & WK & L1 & L2 & B & ST).
  exists sp, u, r, pe. repeat (split; [assumption|]). intros c t -> P D.
  assert (SG : forall c, In c signs -> ~ space_char c /\ ~ digit_char c /\ c <> 40 /\ c <> 41).
  { clear - I. unfold space_char, digit_char. destruct I as [I|[I|[]]]; injection I as _ <- _; intros c J;
      cbn in J; lia. }
  assert (OC : forall c, operator_of calculator_table c <-> operator_char c).
  { clear. unfold operator_char, operator_of, calculator_table, calculator_levels. intros c. split.
    - intros (g & cs & f & J & K). cbn in J. destruct J as [J|[J|[]]]; injection J as _ <- _; cbn in K; lia.
    - intros K. assert (Q : (c = 43 \/ c = 45) \/ (c = 42 \/ c = 47)) by tauto. destruct Q as [Q|Q].
      + exists To_left_strictly, [43; 45], eval_plus. split; [left; reflexivity|cbn; lia].
      + exists To_left_strictly, [42; 47], eval_mult. split; [right; left; reflexivity|cbn; lia]. }
  assert (LO : forall c, operator_of calculator_table c -> ~ space_char c /\ ~ digit_char c /\ c <> 40 /\ c <> 41).
  { intros c0 K. apply OC in K. unfold operator_char, space_char, digit_char in *. lia. }
  assert (WD : forall w v, number_word w v -> w <> [] /\ Forall digit_char w).
  { intros w v (N & W & _). auto. }
  destruct ST as [(O & N)|[((u0 & sp0 & a & w & -> & F0 & S & N) & NO)|(_ & _ & NO & a & S)]].
  - cbn in N. apply not_after_wanted; auto.
  - cbn in NO. rewrite <- OC in NO.
    change (u0 ++ 40 :: sp0 ++ w) with (u0 ++ (40 :: sp0) ++ w) in *. rewrite app_assoc in *.
    eapply (not_after_formula calculator_table signs LO SG number_word WD (u0 ++ 40 :: sp0) a w c); eauto.
    + destruct B as (f & t' & B).
      destruct (spells_steps calculator_table signs number_word WD _ _ _ B) as (q & X & _).
      apply steps_app in X as (q0 & X & _). apply steps_app in X as (q1 & X & _).
      assert (q1 = Wanted).
      { eapply (wanted_state calculator_table signs LO SG); [|exact X]. right. exists u0, 40, sp0. auto. }
      subst q1. exact X.
    + left. intros ->. exact (N t eq_refl).
  - cbn in NO. rewrite <- OC in NO.
    apply (not_after_formula calculator_table signs LO SG number_word WD [] a u c); auto. constructor.
Qed.
Print Assumptions C101_longest.

(** ** Examples *)

(** The conditions: the programs can be compiled. *)
Example C101_case_fits : program_every (fits c11) (tutorial_program To_left To_right)
  /\ every (fits c11) number_or_brackets /\ every (fits c11) (whole (PRef 0) end_of_input_expected)
  /\ program_every (fits c11) tut20_program /\ program_every (fits c11) tut23_program
  /\ every (fits c11) unary_exp3.
Proof. split; [intros k; everywhere|]. split; [everywhere|]. split; [everywhere|].
  split; [intros k; everywhere|]. split; [intros k; everywhere|everywhere]. Qed.

(** A missing operand, a bracket that is not closed and something after a formula. *)
Example C101_case_reported :
  let t := fun s => build_parser (eval c11 (tutorial_program To_left_strictly To_right) 60 (whole (PRef 0) end_of_input_expected)) s in
  t (text " (9-5 -( 8/)") = ParsingFailed 1 12 none_of_the_expected_cases_found
  /\ t (text " 9-(5 2)") = ParsingFailed 1 7 (unpaired 1 4 (literal_expected 41))
  /\ t (text " (9)/ (3) (2)") = ParsingFailed 1 11 end_of_input_expected.
Proof. cbv zeta. repeat split; vm_compute; reflexivity. Qed.
Example C101_case_calculators :
  program_every (fits c11) calc2_program /\ every (fits c11) calculator_with_parens
  /\ program_every (fits c11) calc3_program /\ every (fits c11) calculator_with_unary_ops
  /\ build_parser (eval c11 calc3_program 60 calculator_with_unary_ops) (text " 2*(3-+*1)")
     = ParsingFailed 1 8 none_of_the_expected_cases_found
  /\ build_parser (eval c11 calc2_program 60 calculator_with_parens) (text " 2*(3-1 ")
     = ParsingFailed 1 9 (unpaired 1 4 (literal_expected 41)).
Proof. split; [intros k; everywhere|]. split; [everywhere|]. split; [intros k; everywhere|].
  split; [everywhere|]. split; vm_compute; reflexivity. Qed.
Example C101_case_tutorial :
  build_parser (eval c11 tut23_program 60 (PRef 0)) (text "2*(3--+1)") = ParsingFailed 1 7 none_of_the_expected_cases_found.
Proof. vm_compute. reflexivity. Qed.
