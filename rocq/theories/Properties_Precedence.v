(** Properties proved about parsers of expressions with operators of several
    levels: stated with the vocabulary of Spec.v, SpecRules.v, SpecChoice.v and
    SpecPrecedence.v. *)

From Coq Require Import ZArith List Bool Lia.
From Verif Require Import Base Util Combinators Variadic Parsers Deep Calculator Spec SpecDeep
  SpecRules SpecReplace SpecChoice SpecPrecedence Proofs_Pos Proofs_Rules Proofs_Layout
  Proofs_Precedence Properties_Replace Properties_Rules Properties_Choice.
Import ListNotations.
Open Scope Z_scope.

Local Definition c11 := default_config Std11.

(** ** C95: nested folds apply operators by precedence *)

Lemma nested_is : forall operand ls, nested_folds operand ls = nest operand false ls.
Proof. intros operand. induction ls as [|(op & f) ls IH]; cbn; [reflexivity|]. rewrite IH. reflexivity. Qed.
Lemma nested_strict_is : forall operand ls, nested_strict_folds operand ls = nest operand true ls.
Proof. intros operand. induction ls as [|(op & f) ls IH]; cbn; [reflexivity|]. rewrite IH. reflexivity. Qed.

(** One left fold per level: operands and operators are read as long as they come in
    turn, and the result is that of applying the last operator of those that bind
    least to the values on its left and on its right. *)
Theorem C95_precedence : forall sd env operand ls,
  different_operators sd env ls -> decided sd env ls -> never_void_here sd env operand ls ->
  forall s ps v s' ps',
    gives sd env (nested_folds operand ls) s ps (Accept v s' ps')
    <-> exists x s1 ps1 l,
          gives sd env operand s ps (Accept x s1 ps1)
          /\ reads_operations sd env operand ls s1 ps1 l s' ps'
          /\ nothing_follows sd env operand ls s' ps'
          /\ value_of ls x l v.
Proof.
  intros sd env operand ls DO DE NV s ps v s' ps'. rewrite nested_is.
  assert (FI : fine sd env operand false ls) by (intros X; discriminate X). split.
  - apply (nest_sound sd env operand false ls FI).
  - intros (x & s1 & ps1 & l & X & R & S & V).
    exact (nest_complete sd env operand false ls FI NV DO DE x l v V s ps s1 ps1 s' ps' X R S).
Qed.
Print Assumptions C95_precedence.

(** The fold of a level rejects only what its first operand rejects. *)
Theorem C95_rejected : forall sd env operand ls s ps m pe,
  gives sd env (nested_folds operand ls) s ps (Reject m pe)
  <-> gives sd env operand s ps (Reject m pe).
Proof. intros. rewrite nested_is. apply nest_reject. reflexivity. Qed.
Print Assumptions C95_rejected.

(** With folds that reject incomplete elements an operator without an operand is an
    error, whatever its level. *)
Theorem C95_precedence_strict : forall sd env operand ls,
  different_operators sd env ls -> decided sd env ls -> never_void_here sd env operand ls ->
  at_once sd env ls -> goes_ahead sd env operand ->
  (forall op f, In (op, f) ls -> goes_ahead sd env op) ->
  forall s ps v s' ps',
    gives sd env (nested_strict_folds operand ls) s ps (Accept v s' ps')
    <-> exists x s1 ps1 l,
          gives sd env operand s ps (Accept x s1 ps1)
          /\ reads_operations sd env operand ls s1 ps1 l s' ps'
          /\ no_operator_follows sd env ls s' ps'
          /\ value_of ls x l v.
Proof.
  intros sd env operand ls DO DE NV AO GO GL s ps v s' ps'. rewrite nested_strict_is.
  assert (FI : fine sd env operand true ls) by (intros _; auto). split.
  - apply (nest_sound sd env operand true ls FI).
  - intros (x & s1 & ps1 & l & X & R & S & V).
    exact (nest_complete sd env operand true ls FI NV DO DE x l v V s ps s1 ps1 s' ps' X R S).
Qed.
Print Assumptions C95_precedence_strict.

(** The same for the results of the model. *)
Theorem C95_evaluated : forall cfg env operand ls,
  different_operators (cfg_std cfg) env ls -> decided (cfg_std cfg) env ls ->
  never_void_here (cfg_std cfg) env operand ls -> program_every (fits cfg) env ->
  (every (fits cfg) (nested_folds operand ls) -> forall s ps v s' ps',
    (exists n, eval cfg env n (nested_folds operand ls) s ps = Accept v s' ps')
    <-> exists x s1 ps1 l,
          gives (cfg_std cfg) env operand s ps (Accept x s1 ps1)
          /\ reads_operations (cfg_std cfg) env operand ls s1 ps1 l s' ps'
          /\ nothing_follows (cfg_std cfg) env operand ls s' ps'
          /\ value_of ls x l v)
  /\ (at_once (cfg_std cfg) env ls -> goes_ahead (cfg_std cfg) env operand ->
      (forall op f, In (op, f) ls -> goes_ahead (cfg_std cfg) env op) ->
      every (fits cfg) (nested_strict_folds operand ls) -> forall s ps v s' ps',
    (exists n, eval cfg env n (nested_strict_folds operand ls) s ps = Accept v s' ps')
    <-> exists x s1 ps1 l,
          gives (cfg_std cfg) env operand s ps (Accept x s1 ps1)
          /\ reads_operations (cfg_std cfg) env operand ls s1 ps1 l s' ps'
          /\ no_operator_follows (cfg_std cfg) env ls s' ps'
          /\ value_of ls x l v).
Proof.
  intros cfg env operand ls DO DE NV HE. split.
  - intros HF s ps v s' ps'. rewrite <- C95_precedence; auto.
    symmetry. apply C64_the_rules_are_exact; auto. left. do 3 eexists. reflexivity.
  - intros AO GO GL HF s ps v s' ps'. rewrite <- C95_precedence_strict; auto.
    symmetry. apply C64_the_rules_are_exact; auto. left. do 3 eexists. reflexivity.
Qed.
Print Assumptions C95_evaluated.

(** There is one way to apply the operators, and there is one. *)
Theorem C95_one_value : forall ls x l,
  (forall v w, value_of ls x l v -> value_of ls x l w -> v = w)
  /\ ((forall op f, In (op, f) ls -> forall a b, exists v, f a b = Some v) ->
      (forall i, In i l -> (level_of i < length ls)%nat) -> exists v, value_of ls x l v).
Proof.
  intros ls x l. split.
  - intros v w V W. exact (value_unique ls x l v V w W).
  - intros T B. exact (value_total ls T l x B).
Qed.
Print Assumptions C95_one_value.

(** ** Operators of one character *)

Lemma char_levels_good : forall sd env ls, different_characters ls ->
  different_operators sd env (map char_level ls) /\ decided sd env (map char_level ls)
  /\ at_once sd env (map char_level ls)
  /\ (forall op f, In (op, f) (map char_level ls) -> goes_ahead sd env op).
Proof.
  intros sd env ls D. assert (I : forall op f, In (op, f) (map char_level ls) -> exists cs, op = char_operators cs).
  { intros op f H. apply in_map_iff in H as (l & E & _). injection E as <- _. eauto. }
  split; [|split; [|split]].
  - induction ls as [|l ls IH]; intros j k l1 l2 J N1 N2; [destruct j; discriminate N1|].
    cbn [map] in *. destruct D as (D & D'). destruct k as [|k]; [lia|]. destruct j as [|j].
    + cbn in N1, N2. injection N1 as <-. apply nth_error_In, in_map_iff in N2 as (l' & <- & H).
      apply operators_exclusive. intros c C. exact (D c l' C H).
    + cbn in N1, N2. apply (IH D' (fun op f H => I op f (or_intror H)) j k); auto. lia.
  - intros op f H s ps. destruct (I op f H) as (cs & ->). apply operators_ex.
  - intros op f H s ps. destruct (I op f H) as (cs & ->). split.
    + intros o s' ps' G. apply operators_inv in G as [(c & sp & t & _ & -> & E)|(m & E)]; [|discriminate E].
      injection E as -> -> ->. apply (adv_lt (c :: sp)). discriminate.
    + intros m pe G. apply operators_inv in G as [(c & sp & t & _ & -> & E)|(m' & E)]; [discriminate E|].
      injection E as -> ->. reflexivity.
  - intros op f H. destruct (I op f H) as (cs & ->). apply operators_ahead.
Qed.

Lemma pair_turn : forall sd env p q s ps rs s' ps', in_turn sd env [p; q] s ps rs s' ps' ->
  exists a b s1 ps1, gives sd env p s ps (Accept a s1 ps1) /\ gives sd env q s1 ps1 (Accept b s' ps')
    /\ rs = [a; b].
Proof.
  intros sd env p q s ps rs s' ps' H.
  repeat match goal with X : in_turn _ _ _ _ _ _ _ _ |- _ => inversion X; subst; clear X end. eauto 8.
Qed.

(** The compiled value of a whole text: after white space, operands and operators in
    turn up to the end. *)
Definition whole (e : pexpr) (me : msg) : pexpr := PEntireInput (PLastOf [PRepeated PSpace; e]) me.

Theorem C95_compiles : forall cfg env operand ls e me,
  same_results (cfg_std cfg) env e (nested_strict_folds operand (map char_level ls)) ->
  different_characters ls ->
  never_void_here (cfg_std cfg) env operand (map char_level ls) ->
  goes_ahead (cfg_std cfg) env operand ->
  program_every (fits cfg) env -> every (fits cfg) (whole e me) ->
  forall s v,
    compiles_to cfg env (whole e me) s (Built v)
    <-> exists sp t x s1 ps1 l ps',
          s = sp ++ t /\ Forall space_char sp /\ not_starting_with space_char t
          /\ gives (cfg_std cfg) env operand t (adv start sp) (Accept x s1 ps1)
          /\ reads_operations (cfg_std cfg) env operand (map char_level ls) s1 ps1 l [] ps'
          /\ value_of (map char_level ls) x l v.
Proof.
  intros cfg env operand ls e me SR D NV GO HE HF s v.
  destruct (char_levels_good (cfg_std cfg) env ls D) as (DO & DE & AO & GL).
  unfold compiles_to. rewrite (proj1 (C64_build_parser cfg env _ HE HF s) v). split.
  - intros (rest & pe & G). inversion G; subst.
    match goal with X : gives _ _ (PLastOf _) _ _ _ |- _ => inversion X; subst end.
    match goal with X : in_turn _ _ _ _ _ _ _ _ |- _ => apply pair_turn in X as (a & b & sa & pa & A & B & Q) end.
    change [a; b] with ([a] ++ [b]) in Q. apply app_inj_tail in Q as (_ & ->).
    match goal with X : gives _ _ (PRepeated PSpace) _ _ _ |- _ =>
      apply spaces_inv in X as (sp & t & -> & F & N & E) end.
    injection E as -> -> ->.
    match goal with X : gives _ _ e _ _ _ |- _ =>
      apply SR, (C95_precedence_strict _ _ _ _ DO DE NV AO GO GL) in X as (x & s1 & ps1 & l & X & R & _ & V) end.
    exists sp, t, x, s1, ps1, l, pe. repeat split; auto.
  - intros (sp & t & x & s1 & ps1 & l & ps' & -> & F & N & X & R & V).
    exists [], ps'. apply g_entire_input. apply (g_last_of _ _ _ _ _ v [VSeq (map VChar sp)]).
    eapply in_turn_cons; [apply spaces_give; [exact F|exact N]|].
    eapply in_turn_cons; [|constructor].
    apply SR, (C95_precedence_strict _ _ _ _ DO DE NV AO GO GL).
    exists x, s1, ps1, l. repeat split; auto. intros op f I.
    destruct (DE op f I [] ps') as (o & G).
    apply in_map_iff in I as (lc & E & _). injection E as <- _.
    destruct (operators_inv _ _ _ _ _ _ G) as [(c & sq & u & _ & E & _)|(m & ->)]; [discriminate E|eauto].
Qed.
Print Assumptions C95_compiles.

(** ** The calculators *)

(** The levels of the three calculators (example/calculator/main.cpp:103-117, the
    same in the other two) and of section 12 of the tutorial (12.hpp). *)
Definition calculator_levels : list (list char * mf2) :=
  [([43; 45], eval_plus); ([42; 47], eval_mult)].
Definition tutorial_levels : list (list char * mf2) :=
  [([43; 45], binary_op); ([42; 47], binary_op)].

Lemma arith_solid : forall g, (forall a b v, g a b = Some v -> v <> VVoid) -> solid_op (mpl_arith g).
Proof.
  intros g G a b v _. unfold mpl_arith.
  destruct (as_int a); [|discriminate]. destruct (as_int b); [|discriminate]. apply G.
Qed.
Lemma int_solid : forall n v, int_constant n = Some v -> v <> VVoid.
Proof. intros n v. unfold int_constant. destruct (int_ok n); [|discriminate]. congruence. Qed.
Lemma plus_solid : solid_op mpl_plus. Proof. apply arith_solid. intros. eapply int_solid; eauto. Qed.
Lemma minus_solid : solid_op mpl_minus. Proof. apply arith_solid. intros. eapply int_solid; eauto. Qed.
Lemma times_solid : solid_op mpl_times. Proof. apply arith_solid. intros. eapply int_solid; eauto. Qed.
Lemma divides_solid : solid_op mpl_divides.
Proof.
  apply arith_solid. intros a b v. destruct (b =? 0); [discriminate|]. apply int_solid.
Qed.
Lemma by_front_solid : forall c f g, solid_op f -> solid_op g -> solid_op (eval_by_front c f g).
Proof.
  intros c f g F G a b v A. unfold eval_by_front.
  destruct (front_is_c c b) as [[]|]; [| |discriminate]; (destruct (seq_back b); [|discriminate]);
    [apply F|apply G]; exact A.
Qed.
Lemma binary_solid : solid_op binary_op.
Proof.
  intros a b v A. unfold binary_op. destruct (at_c b 0); [|discriminate].
  destruct (at_c b 1); [|discriminate]. destruct (as_int _); [|discriminate]. unfold eval_binary_op.
  repeat match goal with |- context [if ?x then _ else _] => destruct x end; try discriminate;
    [apply plus_solid|apply minus_solid|apply times_solid|apply divides_solid]; exact A.
Qed.
Lemma eval_plus_solid : solid_op eval_plus.
Proof. apply by_front_solid; [apply plus_solid|apply minus_solid]. Qed.
Lemma eval_mult_solid : solid_op eval_mult.
Proof. apply by_front_solid; [apply times_solid|apply divides_solid]. Qed.
Lemma unary_solid : solid_op eval_unary_plus.
Proof.
  intros a b v A. unfold eval_unary_plus. destruct (as_int b); [|discriminate].
  destruct (_ =? 43); [congruence|]. unfold mpl_negate. destruct (as_int a); [|discriminate]. apply int_solid.
Qed.
Lemma negate_solid : solid_op negate_first.
Proof. intros a b v A. unfold negate_first, mpl_negate. destruct (as_int a); [|discriminate]. apply int_solid. Qed.
Lemma int_token_solid : solid int_token.
Proof.
  apply solid_first. apply solid_foldl1; [discriminate|]. intros a b v _. unfold next_digit.
  destruct (as_int a); [|discriminate]. destruct (as_int b); [|discriminate].
  destruct (_ && _); [|discriminate]. congruence.
Qed.

Ltac solids := repeat (first
  [apply int_token_solid|apply solid_ref|apply solid_fail
  |apply solid_one; let X := fresh in intros ? X; repeat destruct X as [<-|X]; try destruct X
  |apply solid_middle|apply solid_foldr_swp|apply solid_foldl_swp|apply solid_foldl_ri_swp
  |apply unary_solid|apply negate_solid|apply binary_solid|apply eval_plus_solid|apply eval_mult_solid]).

(** Parsers without parts written in C++ by the user go ahead. *)
Ltac no_natives := constructor; [exact Logic.I|];
  let x := fresh in let X := fresh in intros x X; simpl in X;
  repeat destruct X as [<-|X]; try destruct X; try no_natives.

Lemma every_in : forall Q e c, every Q e -> In c (children e) -> every Q c.
Proof. intros Q e c H I. inversion H; subst. auto. Qed.

Definition levels_solid (ls : list (list char * mf2)) : Prop := forall l, In l ls -> solid_op (snd l).

Lemma never_void_by : forall sd env operand ls, (forall k, solid (env k)) -> solid operand ->
  levels_solid ls -> never_void_here sd env operand (map char_level ls).
Proof.
  intros sd env operand ls HE HO HL. split.
  - intros s ps v s' ps' G. exact (results_solid sd env HE _ _ _ _ G HO v s' ps' eq_refl).
  - intros op f a b v I. apply in_map_iff in I as (l & E & I). injection E as _ <-. exact (HL l I a b v).
Qed.

Lemma calculator_levels_fine : different_characters calculator_levels /\ levels_solid calculator_levels.
Proof.
  split.
  - cbn. repeat split; intros c l C L; repeat destruct L as [<-|L]; try destruct L;
      cbn; intros X; repeat destruct C as [<-|C]; try destruct C; lia.
  - intros l L. repeat destruct L as [<-|L]; try destruct L; solids.
Qed.

Theorem C95_calculators : forall cfg env operand e,
  In (env, operand, e)
    [(no_program, int_token, calculator);
     (calc2_program, calc2_simple_exp, calculator_with_parens);
     (calc3_program, calc3_simple_exp, calculator_with_unary_ops)] ->
  program_every (fits cfg) env -> every (fits cfg) e ->
  forall s v,
    compiles_to cfg env e s (Built v)
    <-> exists sp t x s1 ps1 l ps',
          s = sp ++ t /\ Forall space_char sp /\ not_starting_with space_char t
          /\ gives (cfg_std cfg) env operand t (adv start sp) (Accept x s1 ps1)
          /\ reads_operations (cfg_std cfg) env operand (map char_level calculator_levels) s1 ps1 l [] ps'
          /\ value_of (map char_level calculator_levels) x l v.
Proof.
  intros cfg env operand e I HE HF. destruct calculator_levels_fine as (D & L).
  assert (HO : every (fits cfg) operand).
  { destruct I as [I|[I|[I|[]]]]; injection I as <- <- <-.
    - apply (every_in _ calc1_prod_exp); [|right; left; reflexivity].
      apply (every_in _ calc1_plus_exp); [|right; left; reflexivity].
      apply (every_in _ calc1_expression); [|right; left; reflexivity].
      apply (every_in _ calculator); [exact HF|left; reflexivity].
    - apply (every_in _ calc2_prod_exp); [|right; left; reflexivity].
      apply (every_in _ calc2_plus_exp); [exact (HE 0%nat)|right; left; reflexivity].
    - apply (every_in _ calc3_prod_exp); [|right; left; reflexivity].
      apply (every_in _ calc3_plus_exp); [exact (HE 0%nat)|right; left; reflexivity]. }
  destruct I as [I|[I|[I|[]]]]; injection I as <- <- <-.
  - apply (C95_compiles cfg no_program int_token calculator_levels calc1_plus_exp end_of_input_expected); auto.
    + intros s ps o. reflexivity.
    + apply never_void_by; auto; [intros k|]; solids.
    + apply C94_goes_ahead; auto; [intros k|]; no_natives.
  - apply (C95_compiles cfg calc2_program calc2_simple_exp calculator_levels (PRef 0) end_of_input_expected); auto.
    + intros s ps o. split; intros G; [inversion G; subst; assumption|apply g_ref; exact G].
    + apply never_void_by; auto; [intros k|]; solids.
    + apply C94_goes_ahead; auto; [intros k|]; no_natives.
  - apply (C95_compiles cfg calc3_program calc3_simple_exp calculator_levels (PRef 0) end_of_input_expected); auto.
    + intros s ps o. split; intros G; [inversion G; subst; assumption|apply g_ref; exact G].
    + apply never_void_by; auto; [intros k|]; solids.
    + apply C94_goes_ahead; auto; [intros k|]; no_natives.
Qed.
Print Assumptions C95_calculators.

(** The parsers of the tutorial: sections 8.1, 10 and 11.3, and section 12 with errors
    for operators without operands. *)
Lemma tutorial_levels_fine : different_characters tutorial_levels /\ levels_solid tutorial_levels.
Proof.
  split.
  - cbn. repeat split; intros c l C L; repeat destruct L as [<-|L]; try destruct L;
      cbn; intros X; repeat destruct C as [<-|C]; try destruct C; lia.
  - intros l L. repeat destruct L as [<-|L]; try destruct L; solids.
Qed.

Theorem C95_tutorial : forall sd env operand e,
  In (env, operand, e)
    [(no_program, int_token, exp_parser16); (no_program, unary_exp1, exp_parser18);
     (tut20_program, unary_exp3, exp_parser20)] ->
  forall s ps v s' ps',
    gives sd env e s ps (Accept v s' ps')
    <-> exists x s1 ps1 l,
          gives sd env operand s ps (Accept x s1 ps1)
          /\ reads_operations sd env operand (map char_level tutorial_levels) s1 ps1 l s' ps'
          /\ nothing_follows sd env operand (map char_level tutorial_levels) s' ps'
          /\ value_of (map char_level tutorial_levels) x l v.
Proof.
  intros sd env operand e I. destruct tutorial_levels_fine as (D & L).
  destruct (char_levels_good sd env tutorial_levels D) as (DO & DE & _).
  assert (K : solid operand -> (forall k, solid (env k)) ->
    forall s ps v s' ps', gives sd env (nested_folds operand (map char_level tutorial_levels)) s ps (Accept v s' ps')
    <-> exists x s1 ps1 l,
          gives sd env operand s ps (Accept x s1 ps1)
          /\ reads_operations sd env operand (map char_level tutorial_levels) s1 ps1 l s' ps'
          /\ nothing_follows sd env operand (map char_level tutorial_levels) s' ps'
          /\ value_of (map char_level tutorial_levels) x l v).
  { intros SO SE. apply C95_precedence; auto. apply never_void_by; auto. }
  destruct I as [I|[I|[I|[]]]]; injection I as <- <- <-.
  - apply K; [|intros k]; solids.
  - apply K; [|intros k]; solids.
  - intros s ps v s' ps'. rewrite <- K; [|solids|intros k; solids].
    split; intros G; [inversion G; subst; assumption|apply g_ref; exact G].
Qed.
Print Assumptions C95_tutorial.

Theorem C95_tutorial_strict : forall cfg, program_every (fits cfg) tut23_program ->
  forall s ps v s' ps',
    gives (cfg_std cfg) tut23_program exp_parser23 s ps (Accept v s' ps')
    <-> exists x s1 ps1 l,
          gives (cfg_std cfg) tut23_program unary_exp3 s ps (Accept x s1 ps1)
          /\ reads_operations (cfg_std cfg) tut23_program unary_exp3 (map char_level tutorial_levels)
               s1 ps1 l s' ps'
          /\ no_operator_follows (cfg_std cfg) tut23_program (map char_level tutorial_levels) s' ps'
          /\ value_of (map char_level tutorial_levels) x l v.
Proof.
  intros cfg HE. destruct tutorial_levels_fine as (D & L).
  destruct (char_levels_good (cfg_std cfg) tut23_program tutorial_levels D) as (DO & DE & AO & GL).
  intros s ps v s' ps'. rewrite <- C95_precedence_strict; auto.
  - split; intros G; [inversion G; subst; assumption|apply g_ref; exact G].
  - apply never_void_by; auto; [intros k|]; solids.
  - apply C94_goes_ahead; auto; [|intros k|]; [|no_natives|no_natives].
    apply (every_in _ mult_exp7); [|right; left; reflexivity].
    apply (every_in _ plus_exp6); [exact (HE 0%nat)|right; left; reflexivity].
Qed.
Print Assumptions C95_tutorial_strict.

(** ** Examples *)

(** 1+2*3-4: the minus is applied last. *)
Example C95_case_value :
  value_of (map char_level calculator_levels) (VInt 1)
    [(0%nat, VChar 43, VInt 2); (1%nat, VChar 42, VInt 3); (0%nat, VChar 45, VInt 4)] (VInt 3)
  /\ exists n, build_parser (eval c11 no_program n calculator) (text "1 + 2*3 -4") = Built (VInt 3).
Proof.
  split; [|exists 40%nat; vm_compute; reflexivity].
  apply (value_operator _ _ [_; _] 0 (VChar 45) (VInt 4) [] (char_operators [43; 45]) eval_plus (VInt 7) (VInt 4)).
  - intros i _. apply Nat.le_0_l.
  - intros i [].
  - reflexivity.
  - apply (value_operator _ _ [] 0 (VChar 43) (VInt 2) [(1%nat, VChar 42, VInt 3)]
      (char_operators [43; 45]) eval_plus (VInt 1) (VInt 6)).
    + intros i [].
    + intros i [<-|[]]. unfold level_of. cbn. lia.
    + reflexivity.
    + apply value_operand.
    + apply (value_operator _ _ [] 1 (VChar 42) (VInt 3) [] (char_operators [42; 47]) eval_mult (VInt 2) (VInt 3));
        try (intros i []); try reflexivity; apply value_operand.
    + reflexivity.
  - apply value_operand.
  - reflexivity.
Qed.

(** With the strict folds an operator needs an operand; with the others what is before
    it is accepted. *)
Example C95_case_strict :
  eval c11 no_program 40 exp_parser16 (text "1+2*") start = Accept (VInt 3) (text "*") (mkpos 1 4 50)
  /\ eval c11 no_program 40 calc1_plus_exp (text "1+2*") start
     = Reject digit_expected (mkpos 1 5 42).
Proof. split; vm_compute; reflexivity. Qed.

(** ** What is not true *)

(** A character that is an operator of two levels belongs to the one that binds more:
    the other one can be read, but is not. *)
Theorem C95_shared_operator_refuted : exists sd env operand ls s v l x s1 ps1 ps',
  decided sd env ls /\ never_void_here sd env operand ls
  /\ gives sd env operand s start (Accept x s1 ps1)
  /\ reads_operations sd env operand ls s1 ps1 l [] ps'
  /\ nothing_follows sd env operand ls [] ps' /\ value_of ls x l v
  /\ ~ gives sd env (nested_folds operand ls) s start (Accept v [] ps').
Proof.
  exists Std11, no_program, (key 120),
    (map char_level [([45], fun _ _ => Some (VInt 0)); ([45], fun _ _ => Some (VInt 1))]),
    (text "x-x"), (VInt 0), [(0%nat, VChar 45, VChar 120)], (VChar 120), (text "-x"),
    (adv start (text "x")), (adv start (text "x-x")).
  assert (K : forall s ps, gives Std11 no_program (key 120) (120 :: s) ps (Accept (VChar 120) s (adv ps [120]))).
  { intros s ps. apply (g_keyword Std11 no_program [120] (VChar 120) s ps), walk_adv. }
  assert (O : forall s ps, not_starting_with space_char s ->
    gives Std11 no_program (char_operators [45]) (45 :: s) ps (Accept (VChar 45) s (adv ps [45]))).
  { intros s ps NS. eapply g_one_of.
    - constructor; [|constructor]. apply (g_first_of _ _ _ _ _ (VChar 45) [VSeq []]).
      eapply in_turn_cons.
      + eapply g_accept_when; [apply g_change_error_message_ok; constructor; apply walk_adv|reflexivity].
      + eapply in_turn_cons; [apply (spaces_give _ _ [] s); [constructor|exact NS]|constructor].
    - apply Proofs_Laws.first_accept_cons. left. split; [do 3 eexists; reflexivity|reflexivity]. }
  assert (NS : not_starting_with space_char (text "x")).
  { cbn. unfold space_char. lia. }
  split; [|split; [|split; [|split; [|split; [|split]]]]].
  - intros op f I s ps. destruct I as [I|[I|[]]]; injection I as <- _; apply operators_ex.
  - split.
    + intros s ps v s' ps' G. inversion G; subst. discriminate.
    + intros op f a b v [I|[I|[]]]; injection I as _ <-; intros _ E; injection E as <-; discriminate.
  - apply (K (text "-x") start).
  - eapply ro_more; [reflexivity|apply (O (text "x")); exact NS|apply (K [])|apply ro_none].
  - intros op f I. left. destruct I as [I|[I|[]]]; injection I as <- _;
      destruct (operators_ex Std11 no_program [45] [] (adv start (text "x-x"))) as (o & G);
      destruct (operators_inv _ _ _ _ _ _ G) as [(c & sp & t & _ & E & _)|(m & ->)];
      try discriminate E; eauto.
  - apply (value_operator _ _ [] 0 (VChar 45) (VChar 120) [] (char_operators [45])
      (fun _ _ => Some (VInt 0)) (VChar 120) (VChar 120)); try (intros i []); try reflexivity; apply value_operand.
  - intros G.
    assert (F : every (fits c11) (nested_folds (key 120)
      (map char_level [([45], fun _ _ => Some (VInt 0)); ([45], fun _ _ => Some (VInt 1))]))).
    { everywhere. }
    assert (FN : program_every (fits c11) no_program) by (intros k; everywhere).
    assert (E2 : eval c11 no_program 20 (nested_folds (key 120)
      (map char_level [([45], fun _ _ => Some (VInt 0)); ([45], fun _ _ => Some (VInt 1))]))
      (text "x-x") start = Accept (VInt 1) [] (mkpos 1 4 120)) by (vm_compute; reflexivity).
    assert (G2 := proj2 (C64_the_rules_are_exact c11 no_program _ FN F (text "x-x") start _
      (or_introl (ex_intro _ _ (ex_intro _ _ (ex_intro _ _ eq_refl))))) (ex_intro _ 20%nat E2)).
    pose proof (C64_at_most_one_result c11 no_program _ FN F _ _ _ _ G G2) as Q. discriminate Q.
Qed.
Print Assumptions C95_shared_operator_refuted.
