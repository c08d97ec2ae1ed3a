(** Properties proved about parsers of expressions with operators that group to the left
    and to the right: stated with the vocabulary of Spec.v, SpecRules.v, SpecChoice.v,
    SpecPrecedence.v and SpecGrouping.v. *)

From Coq Require Import ZArith List Bool Lia.
From Verif Require Import Base Util Combinators Variadic Parsers Deep Calculator Spec SpecDeep
  SpecRules SpecReplace SpecChoice SpecPrecedence SpecGrouping Proofs_Pos Proofs_Rules Proofs_Layout
  SpecTutorial SpecFormula Proofs_Precedence Proofs_Tutorial Proofs_Formula3 Proofs_Grouping Properties_Replace Properties_Rules Properties_Choice
  Properties_Precedence.
Import ListNotations.
Open Scope Z_scope.

Local Definition c11 := default_config Std11.

(** ** C98: operators can group to the left and to the right *)

(** What is accepted are operands and operators in turn, and the result is their value:
    of the operators that bind least the last one is applied last if they group to the
    left, the first one if they group to the right. *)
Theorem C98_read : forall sd env operand ls s ps v s' ps',
  gives sd env (grouped_folds operand ls) s ps (Accept v s' ps') ->
  exists x s1 ps1 l,
    gives sd env operand s ps (Accept x s1 ps1)
    /\ reads_operations sd env operand (map snd ls) s1 ps1 l s' ps'
    /\ grouped_value ls x l v.
Proof. intros sd env operand ls s ps v s' ps'. apply mix_sound. Qed.
Print Assumptions C98_read.

(** Operands and operators in turn that have a value are accepted up to where no operator
    follows. *)
Theorem C98_accepted : forall sd env operand ls,
  different_operators sd env (map snd ls) -> decided sd env (map snd ls) ->
  never_void_here sd env operand (map snd ls) -> at_once sd env (map snd ls) ->
  forall s ps x s1 ps1 l s' ps' v,
    gives sd env operand s ps (Accept x s1 ps1) ->
    reads_operations sd env operand (map snd ls) s1 ps1 l s' ps' ->
    no_operator_follows sd env (map snd ls) s' ps' ->
    grouped_value ls x l v ->
    gives sd env (grouped_folds operand ls) s ps (Accept v s' ps').
Proof.
  intros sd env operand ls DO DE NV AO s ps x s1 ps1 l s' ps' v X R S V.
  exact (mix_complete sd env operand ls NV DO DE AO x l v V s ps s1 ps1 s' ps' X R S).
Qed.
Print Assumptions C98_accepted.

Lemma tail_fits : forall cfg operand l ls, every (fits cfg) (grouped_folds operand (l :: ls)) ->
  every (fits cfg) (grouped_folds operand ls).
Proof.
  intros cfg operand (g & op & f) ls H. cbn [grouped_folds] in H.
  destruct g; apply (every_in _ _ _ H); right; left; reflexivity.
Qed.

(** If no level is lenient about operators without operands, nothing else is accepted. *)
Theorem C98_precedence : forall cfg env operand ls,
  different_operators (cfg_std cfg) env (map snd ls) -> decided (cfg_std cfg) env (map snd ls) ->
  never_void_here (cfg_std cfg) env operand (map snd ls) -> at_once (cfg_std cfg) env (map snd ls) ->
  goes_ahead (cfg_std cfg) env operand ->
  (forall op f, In (op, f) (map snd ls) -> goes_ahead (cfg_std cfg) env op) ->
  (forall g l, In (g, l) ls -> g <> To_left) ->
  program_every (fits cfg) env -> every (fits cfg) (grouped_folds operand ls) ->
  forall s ps v s' ps',
    (gives (cfg_std cfg) env (grouped_folds operand ls) s ps (Accept v s' ps')
     <-> exists x s1 ps1 l,
           gives (cfg_std cfg) env operand s ps (Accept x s1 ps1)
           /\ reads_operations (cfg_std cfg) env operand (map snd ls) s1 ps1 l s' ps'
           /\ no_operator_follows (cfg_std cfg) env (map snd ls) s' ps'
           /\ grouped_value ls x l v)
    /\ ((exists n, eval cfg env n (grouped_folds operand ls) s ps = Accept v s' ps')
        <-> gives (cfg_std cfg) env (grouped_folds operand ls) s ps (Accept v s' ps')).
Proof.
  intros cfg env operand ls DO DE NV AO GO GL NL HE HF s ps v s' ps'. split.
  - split.
    + intros G. destruct (C98_read _ _ _ _ _ _ _ _ _ G) as (x & s1 & ps1 & l & X & R & V).
      exists x, s1, ps1, l. repeat split; auto. intros op f I.
      apply in_map_iff in I as ((g & op' & f') & E & I). cbn in E. injection E as -> ->.
      eapply (mix_stops _ _ operand ls); eauto. clear - HE HF.
      induction ls as [|l ls IH]; [exact Logic.I|]. apply tail_fits in HF. split; [|auto].
      intros s ps o1 o2. apply (C64_at_most_one_result cfg env _ HE HF).
    + intros (x & s1 & ps1 & l & X & R & S & V). eapply C98_accepted; eauto.
  - symmetry. apply C64_the_rules_are_exact; auto. left. do 3 eexists. reflexivity.
Qed.
Print Assumptions C98_precedence.

(** There is one way to apply the operators, and there is one. *)
Theorem C98_one_value : forall ls x l,
  (forall v w, grouped_value ls x l v -> grouped_value ls x l w -> v = w)
  /\ ((forall g op f, In (g, (op, f)) ls -> forall a b, exists v, f a b = Some v) ->
      (forall i, In i l -> (level_of i < length ls)%nat) -> exists v, grouped_value ls x l v).
Proof.
  intros ls x l. split.
  - intros v w V W. exact (gvalue_unique ls x l v V w W).
  - intros T B. exact (gvalue_total ls T l x B).
Qed.
Print Assumptions C98_one_value.

(** With levels that all group to the left this is the value by precedence of C95. *)
Theorem C98_left : forall ls x l v,
  grouped_value (map (fun l => (To_left, l)) ls) x l v <-> value_of ls x l v.
Proof. exact gvalue_left. Qed.
Print Assumptions C98_left.

(** ** Operators of one character *)

Lemma grouped_plain : forall ls, map snd (map grouped_char_level ls) = map char_level (map snd ls).
Proof. intros ls. rewrite !map_map. reflexivity. Qed.

(** The compiled value of a whole text, however the operators group and whether or not the
    folds are lenient. *)
Theorem C98_compiles : forall cfg env operand ls me,
  different_characters (map snd ls) ->
  never_void_here (cfg_std cfg) env operand (map char_level (map snd ls)) ->
  program_every (fits cfg) env ->
  every (fits cfg) (whole (grouped_folds operand (map grouped_char_level ls)) me) ->
  forall s v,
    compiles_to cfg env (whole (grouped_folds operand (map grouped_char_level ls)) me) s (Built v)
    <-> exists sp t x s1 ps1 l ps',
          s = sp ++ t /\ Forall space_char sp /\ not_starting_with space_char t
          /\ gives (cfg_std cfg) env operand t (adv start sp) (Accept x s1 ps1)
          /\ reads_operations (cfg_std cfg) env operand (map char_level (map snd ls)) s1 ps1 l [] ps'
          /\ grouped_value (map grouped_char_level ls) x l v.
Proof.
  intros cfg env operand ls me D NV HE HF s v.
  destruct (char_levels_good (cfg_std cfg) env (map snd ls) D) as (DO & DE & AO & GL).
  rewrite <- grouped_plain in *.
  unfold compiles_to. rewrite (proj1 (C64_build_parser cfg env _ HE HF s) v). split.
  - intros (rest & pe & G). inversion G; subst.
    match goal with X : gives _ _ (PLastOf _) _ _ _ |- _ => inversion X; subst end.
    match goal with X : in_turn _ _ _ _ _ _ _ _ |- _ => apply pair_turn in X as (a & b & sa & pa & A & B & Q) end.
    change [a; b] with ([a] ++ [b]) in Q. apply app_inj_tail in Q as (_ & ->).
    match goal with X : gives _ _ (PRepeated PSpace) _ _ _ |- _ =>
      apply spaces_inv in X as (sp & t & -> & F & N & E) end.
    injection E as -> -> ->.
    match goal with X : gives _ _ (grouped_folds _ _) _ _ _ |- _ =>
      apply C98_read in X as (x & s1 & ps1 & l & X & R & V) end.
    exists sp, t, x, s1, ps1, l, pe. repeat split; auto.
  - intros (sp & t & x & s1 & ps1 & l & ps' & -> & F & N & X & R & V).
    exists [], ps'. apply g_entire_input. apply (g_last_of _ _ _ _ _ v [VSeq (map VChar sp)]).
    eapply in_turn_cons; [apply spaces_give; [exact F|exact N]|].
    eapply in_turn_cons; [|constructor].
    eapply C98_accepted; eauto. intros op f I.
    destruct (DE op f I [] ps') as (o & G).
    rewrite grouped_plain in I. apply in_map_iff in I as (lc & E & _). injection E as <- _.
    destruct (operators_inv _ _ _ _ _ _ G) as [(c & sq & u & _ & E & _)|(m & ->)]; [discriminate E|eauto].
Qed.
Print Assumptions C98_compiles.

(** ** Section 9 of the tutorial *)

(** The functions of the parser (9.hpp). *)
Definition section9_parser : list (grouping * (list char * mf2)) :=
  [(To_left, ([43; 45], binary_op)); (To_right, ([42; 47], reverse_binary_op))].

Lemma reverse_solid : solid_op reverse_binary_op.
Proof.
  intros a b v A. unfold reverse_binary_op. destruct (at_c b 0); [|discriminate].
  destruct (at_c b 1); [|discriminate]. destruct (as_int _); [|discriminate]. unfold eval_binary_op.
  repeat match goal with |- context [if ?x then _ else _] => destruct x end; try discriminate;
    unfold mpl_plus, mpl_minus, mpl_times, mpl_divides, mpl_arith;
    (destruct (as_int v0); [|discriminate]); (destruct (as_int a); [|discriminate]);
    try apply int_solid. destruct (_ =? 0); [discriminate|apply int_solid].
Qed.

Lemma section9_fine : different_characters (map snd section9_parser) /\ levels_solid (map snd section9_parser).
Proof.
  split.
  - cbn. repeat split; intros c l C L; repeat destruct L as [<-|L]; try destruct L;
      cbn; intros X; repeat destruct C as [<-|C]; try destruct C; lia.
  - intros l [<-|[<-|[]]]; [apply binary_solid|apply reverse_solid].
Qed.

Lemma section9_agree : agree (map grouped_char_level section9_parser) (map grouped_char_level section9_levels)
  /\ agree (map grouped_char_level section9_levels) (map grouped_char_level section9_parser).
Proof.
  split; intros k g op f N; destruct k as [|[|k]]; cbn in N;
    try (injection N as <- <- <-); try (destruct k; discriminate N);
    (do 2 eexists; split; [reflexivity|]); intros c a b C; (split; intros G; [|]); try discriminate G;
    try (destruct (G eq_refl)); exists (calculate c a b); split; try reflexivity;
    try apply (binary_op_calculates c a b C); apply (reverse_binary_op_calculates c a b C).
Qed.

Lemma section9_items : forall sd s ps l s' ps',
  reads_operations sd no_program int_token (map char_level (map snd section9_levels)) s ps l s' ps' ->
  forall i, In i l -> number_item i.
Proof.
  intros sd s ps l s' ps' R. induction R as [|s ps k op f o s1 ps1 x s2 ps2 l s3 ps3 N O X R IH];
    intros i I; [destruct I|]. destruct I as [<-|I]; [|auto].
  destruct (numbers_only sd no_program _ _ _ _ _ X) as (w & sp & _ & (_ & _ & _ & ->) & _).
  exists k. destruct k as [|[|k]]; cbn in N; [| |destruct k; discriminate N]; injection N as <- <-;
    apply operators_inv in O as [(c & sq & t & C & _ & E)|(m & E)]; try discriminate E;
    injection E as -> -> ->; exists c, (decimal w); (split; [reflexivity|]);
    cbn in *; repeat destruct C as [C|C]; auto 6; destruct C.
Qed.

(** The parser of section 9: every text it compiles begins with numbers and operators that
    have the result as their value, and all of them are read if no operator follows. *)
Theorem C98_tutorial : forall cfg, every (fits cfg) exp_parser17 ->
  (forall s v, compiles_to cfg no_program exp_parser17 s (Built v) ->
     exists x s1 ps1 l s' ps',
       gives (cfg_std cfg) no_program int_token s start (Accept x s1 ps1)
       /\ reads_operations (cfg_std cfg) no_program int_token
            (map char_level (map snd section9_levels)) s1 ps1 l s' ps'
       /\ grouped_value (map grouped_char_level section9_levels) x l v)
  /\ (forall s x s1 ps1 l s' ps' v,
       gives (cfg_std cfg) no_program int_token s start (Accept x s1 ps1) ->
       reads_operations (cfg_std cfg) no_program int_token
         (map char_level (map snd section9_levels)) s1 ps1 l s' ps' ->
       (forall c t, s' = c :: t -> ~ In c [43; 45; 42; 47]) ->
       grouped_value (map grouped_char_level section9_levels) x l v ->
       compiles_to cfg no_program exp_parser17 s (Built v)).
Proof.
  intros cfg HF.
  assert (HE : program_every (fits cfg) no_program) by (intros k; everywhere).
  destruct section9_fine as (D & L). destruct section9_agree as (A1 & A2).
  destruct (char_levels_good (cfg_std cfg) no_program (map snd section9_parser) D) as (DO & DE & AO & GL).
  assert (NV : never_void_here (cfg_std cfg) no_program int_token (map char_level (map snd section9_parser))).
  { apply never_void_by; auto; [intros k|]; solids. }
  assert (XI : forall s ps v s' ps', gives (cfg_std cfg) no_program int_token s ps (Accept v s' ps') ->
    exists z, v = VInt z).
  { intros s ps v s' ps' X.
    destruct (numbers_only (cfg_std cfg) no_program _ _ _ _ _ X) as (w & sp & _ & (_ & _ & _ & ->) & _). eauto. }
  change exp_parser17 with (grouped_folds int_token (map grouped_char_level section9_parser)) in *.
  unfold compiles_to. split.
  - intros s v C. apply (proj1 (C64_build_parser cfg no_program _ HE HF s) v) in C as (rest & pe & G).
    apply C98_read in G as (x & s1 & ps1 & l & X & R & V).
    apply (reads_same _ _ _ _ (map char_level (map snd section9_levels))) in R; [|reflexivity].
    destruct (gvalue_agree _ _ A1 _ _ _ V (XI _ _ _ _ _ X) (section9_items _ _ _ _ _ _ R)) as (V' & _).
    eauto 10.
  - intros s x s1 ps1 l s' ps' v X R S V.
    destruct (gvalue_agree _ _ A2 _ _ _ V (XI _ _ _ _ _ X) (section9_items _ _ _ _ _ _ R)) as (V' & _).
    apply (reads_same _ _ _ _ (map char_level (map snd section9_parser))) in R; [|reflexivity].
    apply (proj1 (C64_build_parser cfg no_program _ HE HF s) v). exists s', ps'.
    rewrite <- grouped_plain in *. eapply C98_accepted; eauto. intros op f I.
    destruct (DE op f I s' ps') as (o & G).
    assert (O : exists cs, op = char_operators cs /\ forall c, In c cs -> In c [43; 45; 42; 47]).
    { destruct I as [I|[I|[]]]; injection I as <- _; eexists; (split; [reflexivity|]);
        intros c C; cbn in *; repeat destruct C as [C|C]; auto 6; destruct C. }
    destruct O as (cs & -> & O).
    destruct (operators_inv _ _ _ _ _ _ G) as [(c & sq & u & I' & E & _)|(m & ->)]; [|eauto].
    destruct (S c _ E (O c I')).
Qed.
Print Assumptions C98_tutorial.

(** ** Examples *)

(** 9-4-8/4/2: the second minus is applied last, and the second division before the first. *)
Example C98_case_value :
  grouped_value (map grouped_char_level section9_levels) (VInt 9)
    [(0%nat, VChar 45, VInt 4); (0%nat, VChar 45, VInt 8); (1%nat, VChar 47, VInt 4); (1%nat, VChar 47, VInt 2)]
    (VInt 1)
  /\ build_parser (eval c11 no_program 40 exp_parser17) (text "9-4 - 8/4/2") = Built (VInt 1)
  /\ build_parser (eval c11 no_program 40 exp_parser16) (text "9-4 - 8/4/2") = Built (VInt 4).
Proof.
  split; [|split; vm_compute; reflexivity].
  apply (gv_left _ _ [_] 0 (VChar 45) (VInt 8) [_; _] To_left (char_operators [43; 45]) numbers_left (VInt 5) (VInt 4)).
  - reflexivity.
  - discriminate.
  - intros i _. apply Nat.le_0_l.
  - intros i [<-|[<-|[]]]; unfold level_of; cbn; lia.
  - apply (gv_left _ _ [] 0 (VChar 45) (VInt 4) [] To_left (char_operators [43; 45]) numbers_left (VInt 9) (VInt 4));
      try (intros i []); try reflexivity; try discriminate; apply gv_operand.
  - apply (gv_right _ _ [] 1 (VChar 47) (VInt 4) [_] (char_operators [42; 47]) numbers_right (VInt 8) (VInt 2)).
    + reflexivity.
    + intros i [].
    + intros i [<-|[]]. unfold level_of. cbn. lia.
    + apply gv_operand.
    + apply (gv_right _ _ [] 1 (VChar 47) (VInt 2) [] (char_operators [42; 47]) numbers_right (VInt 4) (VInt 2));
        try (intros i []); try reflexivity; apply gv_operand.
    + reflexivity.
  - reflexivity.
Qed.

(** A tower of three levels with a fold to the right in the middle and strict folds
    around it: its conditions hold, and it compiles whole texts. *)
Definition three_levels : list (grouping * (list char * mf2)) :=
  [(To_left_strictly, ([43; 45], binary_op)); (To_right, ([42], reverse_binary_op));
   (To_left_strictly, ([47], binary_op))].
Example C98_case_three :
  different_characters (map snd three_levels)
  /\ never_void_here Std11 no_program int_token (map char_level (map snd three_levels))
  /\ (forall g l, In (g, l) (map grouped_char_level three_levels) -> g <> To_left)
  /\ goes_ahead Std11 no_program int_token
  /\ every (fits c11) (whole (grouped_folds int_token (map grouped_char_level three_levels)) end_of_input_expected)
  /\ build_parser (eval c11 no_program 40
       (whole (grouped_folds int_token (map grouped_char_level three_levels)) end_of_input_expected))
       (text " 2*9/3/3*5 - 1") = Built (VInt 9)
  /\ build_parser (eval c11 no_program 40
       (whole (grouped_folds int_token (map grouped_char_level three_levels)) end_of_input_expected))
       (text "2*9*-1") = ParsingFailed 1 5 digit_expected.
Proof.
  split; [|split; [|split; [|split; [|split; [|split; vm_compute; reflexivity]]]]].
  - cbn. repeat split; intros c l C L; repeat destruct L as [<-|L]; try destruct L;
      cbn; intros X; repeat destruct C as [<-|C]; try destruct C; lia.
  - apply never_void_by; [intros k; solids|solids|].
    intros l [<-|[<-|[<-|[]]]]; [apply binary_solid|apply reverse_solid|apply binary_solid].
  - intros g l [I|[I|[I|[]]]]; injection I as <- _; discriminate.
  - apply (C94_goes_ahead c11); [intros k; everywhere|everywhere|intros k; no_natives|no_natives].
  - everywhere.
Qed.

(** ** What is not true *)

(** A fold to the right rejects an operator without an operand, and a lenient fold around
    it then also gives up what is before that operator: 1+2* is read up to 1, not up to
    1+2 as by folds to the left (C95). *)
Theorem C98_lenient_refuted : exists sd env operand ls s x s1 ps1 l s' ps' v,
  different_operators sd env (map snd ls) /\ decided sd env (map snd ls)
  /\ never_void_here sd env operand (map snd ls) /\ at_once sd env (map snd ls)
  /\ gives sd env operand s start (Accept x s1 ps1)
  /\ reads_operations sd env operand (map snd ls) s1 ps1 l s' ps'
  /\ nothing_follows sd env operand (map snd ls) s' ps'
  /\ grouped_value ls x l v
  /\ ~ gives sd env (grouped_folds operand ls) s start (Accept v s' ps')
  /\ gives sd env (grouped_folds operand ls) s start (Accept x s1 ps1).
Proof.
  destruct section9_fine as (D & L).
  destruct (char_levels_good Std11 no_program (map snd section9_parser) D) as (DO & DE & AO & GL).
  assert (NV : never_void_here Std11 no_program int_token (map char_level (map snd section9_parser))).
  { apply never_void_by; auto; [intros k|]; solids. }
  rewrite <- grouped_plain in *.
  assert (HE : program_every (fits c11) no_program) by (intros k; everywhere).
  assert (HI : every (fits c11) int_token) by everywhere.
  assert (HF : every (fits c11) exp_parser17) by everywhere.
  assert (GI : forall s ps v s' ps', eval c11 no_program 9 int_token s ps = Accept v s' ps' ->
    gives Std11 no_program int_token s ps (Accept v s' ps')).
  { intros s ps v s' ps' E. apply (C64_the_rules_are_exact c11 no_program int_token HE HI).
    - left. do 3 eexists. reflexivity.
    - exists 9%nat. exact E. }
  assert (GE : forall e s ps o, every (fits c11) e -> eval c11 no_program 9 e s ps = o ->
    (exists v s' ps', o = Accept v s' ps') \/ (exists m pe, o = Reject m pe) ->
    gives Std11 no_program e s ps o).
  { intros e s ps o F E S. apply (C64_the_rules_are_exact c11 no_program e HE F); [exact S|].
    exists 9%nat. exact E. }
  assert (FP : every (fits c11) (char_operators [43; 45])) by everywhere.
  assert (FT : every (fits c11) (char_operators [42; 47])) by everywhere.
  exists Std11, no_program, int_token, (map grouped_char_level section9_parser), (text "1+2*"), (VInt 1),
    (text "+2*"), (mkpos 1 2 49), [(0%nat, VChar 43, VInt 2)], (text "*"), (mkpos 1 4 50), (VInt 3).
  repeat (split; [assumption|]).
  split; [apply GI; vm_compute; reflexivity|].
  split.
  { eapply (ro_more _ _ _ _ _ _ 0%nat _ binary_op (VChar 43) (text "2*") (mkpos 1 3 43)); [reflexivity| | |apply ro_none].
    - apply (GE (char_operators [43; 45])); [exact FP|vm_compute; reflexivity|left; do 3 eexists; reflexivity].
    - apply GI. vm_compute. reflexivity. }
  split.
  { intros op f [I|[I|[]]]; injection I as <- _.
    - left. do 2 eexists. apply (GE (char_operators [43; 45])); [exact FP|vm_compute; reflexivity|].
      right. do 2 eexists. reflexivity.
    - right. exists (VChar 42), [], (mkpos 1 5 42), digit_expected, (mkpos 1 5 42). split.
      + apply (GE (char_operators [42; 47])); [exact FT|vm_compute; reflexivity|left; do 3 eexists; reflexivity].
      + apply GE; [exact HI|vm_compute; reflexivity|right; do 2 eexists; reflexivity]. }
  split.
  { apply (gv_left _ _ [] 0 (VChar 43) (VInt 2) [] To_left (char_operators [43; 45]) binary_op (VInt 1) (VInt 2));
      try (intros i []); try reflexivity; try discriminate; apply gv_operand. }
  change (grouped_folds int_token (map grouped_char_level section9_parser)) with exp_parser17.
  assert (G : gives Std11 no_program exp_parser17 (text "1+2*") start (Accept (VInt 1) (text "+2*") (mkpos 1 2 49))).
  { apply GE; [exact HF|vm_compute; reflexivity|left; do 3 eexists; reflexivity]. }
  split; [|exact G]. intros G2.
  pose proof (C64_at_most_one_result c11 no_program _ HE HF _ _ _ _ G G2) as Q. discriminate Q.
Qed.
Print Assumptions C98_lenient_refuted.
