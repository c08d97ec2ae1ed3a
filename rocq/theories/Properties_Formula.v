(** Properties proved about formulas written with the necessary brackets: stated with
    the vocabulary of Spec.v, SpecRules.v, SpecPrecedence.v and SpecFormula.v. *)

From Coq Require Import ZArith List Bool Lia.
From Verif Require Import Base Util Combinators Variadic Parsers Deep Calculator Spec SpecDeep SpecCalc
  SpecRules SpecReplace SpecChoice SpecPrecedence SpecFormula Proofs_Pos Proofs_Rules Proofs_Layout
  Proofs_Parsers2 Proofs_Calc Proofs_Precedence Proofs_Formula Proofs_Formula2 Proofs_Formula3 Properties_Replace Properties_Rules
  Properties_Choice Properties_Precedence.
Import ListNotations.
Open Scope Z_scope.

Local Definition c11 := default_config Std11.

(** ** C97: formulas written with the necessary brackets have their value *)

(** The named parser 0 is the nest of folds, of one kind or the other. *)
Definition reads_formulas (sd : std) (env : program) (operand : pexpr) (ls : list (list char * mf2)) : Prop :=
  same_results sd env (PRef 0) (nested_folds operand (map char_level ls))
  \/ (same_results sd env (PRef 0) (nested_strict_folds operand (map char_level ls))
      /\ goes_ahead sd env operand).

(** Every text of a formula, with any brackets and any white space, is accepted, and the
    result is the value of the formula. *)
Theorem C97_accepted : forall sd env ls signs sign word p operand,
  proper ls signs word -> different_characters ls ->
  reads_words ls word sd env p -> operand_parser signs sign sd env p operand ->
  never_void_here sd env operand (map char_level ls) -> reads_formulas sd env operand ls ->
  forall a s v, spells ls signs word 0 a s -> worth ls signs sign word a v ->
  forall s' ps, (s' = [] \/ exists t, s' = 41 :: t) ->
  exists ps', gives sd env (PRef 0) (s ++ s') ps (Accept v s' ps').
Proof.
  intros sd env ls signs sign word p operand P D W O NV R a s v H V s' ps S.
  destruct (char_levels_good sd env ls D) as (DO & DE & AO & GL).
  eapply (formula_accepted sd env ls signs sign word P p W operand O); eauto.
  clear - R NV DO DE AO GL. intros s ps x s1 ps1 l s' ps' v G RO N V. destruct R as [R|(R & GO)]; apply R.
  - apply (C95_precedence sd env operand _ DO DE NV). exists x, s1, ps1, l.
    split; [exact G|]. split; [exact RO|]. split; [|exact V]. intros op f I. left. exact (N op f I).
  - apply (C95_precedence_strict sd env operand _ DO DE NV AO GO GL). exists x, s1, ps1, l. auto.
Qed.
Print Assumptions C97_accepted.

(** It compiles to this value, also with white space before it. *)
Theorem C97_compiles : forall cfg env ls signs sign word p operand me,
  proper ls signs word -> different_characters ls ->
  reads_words ls word (cfg_std cfg) env p -> operand_parser signs sign (cfg_std cfg) env p operand ->
  never_void_here (cfg_std cfg) env operand (map char_level ls) ->
  reads_formulas (cfg_std cfg) env operand ls ->
  program_every (fits cfg) env -> every (fits cfg) (whole (PRef 0) me) ->
  forall a s v, spells ls signs word 0 a s -> worth ls signs sign word a v ->
  forall sp, Forall space_char sp -> compiles_to cfg env (whole (PRef 0) me) (sp ++ s) (Built v).
Proof.
  intros cfg env ls signs sign word p operand me P D W O NV R HE HF a s v H V sp F.
  unfold compiles_to. apply (proj1 (C64_build_parser cfg env _ HE HF (sp ++ s)) v).
  destruct (C97_accepted _ _ _ _ _ _ _ _ P D W O NV R a s v H V [] (adv start sp)) as (q & G); [auto|].
  rewrite app_nil_r in G. exists [], q. apply g_entire_input.
  apply (g_last_of _ _ _ _ _ v [VSeq (map VChar sp)]).
  eapply in_turn_cons; [apply spaces_give; [exact F|]|eapply in_turn_cons; [exact G|constructor]].
  pose proof (proj2 (spells_starts ls signs word P _ _ _ H) []) as N. rewrite app_nil_r in N. exact N.
Qed.
Print Assumptions C97_compiles.

(** Nothing else is accepted: what is accepted is a text of a formula, and the result is
    its value. *)
Theorem C97_only : forall sd env ls signs sign word p operand,
  different_characters ls -> only_words word sd env p -> only_operands signs sign sd env p operand ->
  never_void_here sd env operand (map char_level ls) -> reads_formulas sd env operand ls ->
  forall s ps v s' ps', gives sd env (PRef 0) s ps (Accept v s' ps') ->
  exists a u, s = u ++ s' /\ spells ls signs word 0 a u /\ worth ls signs sign word a v.
Proof.
  intros sd env ls signs sign word p operand D W O NV R s ps v s' ps' G.
  destruct (char_levels_good sd env ls D) as (DO & DE & AO & GL).
  eapply (only_formulas sd env ls signs sign word p W operand O); [|exact G].
  clear - R NV DO DE AO GL. intros s ps v s' ps' G. destruct R as [R|(R & GO)]; apply R in G.
  - apply (C95_precedence sd env operand _ DO DE NV) in G as (x & s1 & ps1 & l & X & RO & _ & V).
    exists x, s1, ps1, l. auto.
  - apply (C95_precedence_strict sd env operand _ DO DE NV AO GO GL) in G
      as (x & s1 & ps1 & l & X & RO & _ & V).
    exists x, s1, ps1, l. auto.
Qed.
Print Assumptions C97_only.

(** ** Texts *)

(** A formula is written by [written] with the necessary brackets; no text of it is
    shorter. *)
Theorem C97_written : forall ls signs word a,
  (well_formed ls signs (fun w => exists v, word w v) a ->
   forall k, spells ls signs word k a (written ls k a))
  /\ (different_characters ls -> forall k s, spells ls signs word k a s ->
      (length (written ls k a) <= length s)%nat).
Proof.
  intros ls signs word a. split.
  - intros H k. apply written_spells. exact H.
  - intros D k s H. eapply written_shortest; eauto.
Qed.
Print Assumptions C97_written.

(** The words that are sequences of digits. *)
Definition digits (w : str) (v : value) : Prop := w <> [] /\ Forall digit_char w.

(** Characters of a table that can be told from digits, white space and brackets. *)
Definition plain_table (ls : list (list char * mf2)) (signs : list char) : Prop :=
  different_characters ls
  /\ (forall cs f c, In (cs, f) ls -> In c cs -> ~ space_char c /\ ~ digit_char c /\ c <> 41)
  /\ (forall c, In c signs -> ~ space_char c /\ ~ digit_char c /\ c <> 40).

Lemma free_characters : forall ls, different_characters ls -> different_characters (free ls).
Proof.
  induction ls as [|l ls IH]; intros D; [exact Logic.I|]. destruct D as (D & D'). split; [|auto].
  intros c l' I J. unfold free in J. apply in_map_iff in J as (m & <- & J). exact (D c m I J).
Qed.

Lemma digits_free : forall w, Forall digit_char w -> w <> [] ->
  exists c t, w = c :: t /\ ~ space_char c /\ c <> 40 /\ digit_char c.
Proof.
  intros [|c t] F N; [destruct (N eq_refl)|]. inversion F; subst. exists c, t.
  unfold space_char, digit_char in *. repeat split; lia.
Qed.

Lemma every_one : forall (Q : pexpr -> Prop) e, Q e -> (forall c, In c (children e) -> every Q c) -> every Q e.
Proof. intros. constructor; assumption. Qed.

(** A text is a text of one formula. *)
Theorem C97_one_formula : forall ls signs, plain_table ls signs ->
  forall a b s, spells ls signs digits 0 a s -> spells ls signs digits 0 b s -> a = b.
Proof.
  intros ls signs (D & LO & LS) a b s A B.
  set (operand := PFoldrStartWithParser (char_operators signs)
    (word_or_brackets (PToken (PRepeated1 PDigit)) []) free_sign).
  set (env := (fun _ => nested_folds operand (map char_level (free ls))) : program).
  assert (FO : forall cs f c, In (cs, f) (free ls) -> In c cs -> ~ space_char c /\ ~ digit_char c /\ c <> 41).
  { intros cs f c I J. unfold free in I. apply in_map_iff in I as ((ds & g) & E & I).
    injection E as <- <-. exact (LO ds g c I J). }
  assert (P : proper (free ls) signs digits_word).
  { split; [|split].
    - intros w v (N & F & _). destruct (digits_free w F N) as (c & t & -> & N1 & N2 & N3).
      exists c, t. repeat split; auto. intros I. exact (proj1 (proj2 (LS c I)) N3).
    - intros cs f c I J. destruct (FO cs f c I J) as (? & ? & ?). auto.
    - intros c I. destruct (LS c I) as (? & ? & ?). auto. }
  assert (W : reads_words (free ls) digits_word Std11 env (PToken (PRepeated1 PDigit))).
  { apply digits_read; intros cs f c I J; destruct (FO cs f c I J) as (? & ? & ?); assumption. }
  assert (O : operand_parser signs free_sign Std11 env (PToken (PRepeated1 PDigit)) operand).
  { apply with_signs; [apply operators_characters|intros q []]. }
  assert (S1 : solid operand).
  { apply solid_foldr_swp.
    - apply solid_one. intros q [<-|[<-|[]]].
      + apply solid_first, solid_foldl1; [discriminate|]. intros x y v _ E.
        unfold back_inserter, push_back in E.
        repeat match type of E with context [match ?z with _ => _ end] => destruct z; try discriminate E end;
          injection E as <-; discriminate.
      + apply solid_middle, solid_ref.
    - intros x y v _ E. injection E as <-. discriminate. }
  assert (SF : levels_solid (free ls)).
  { intros l I. unfold free in I. apply in_map_iff in I as (m & <- & _). cbn [snd].
    intros x y v _ E. unfold free_op in E. destruct y; try discriminate E.
    repeat match type of E with context [match ?z with _ => _ end] => destruct z; try discriminate E end.
    injection E as <-. discriminate. }
  assert (NV : never_void_here Std11 env operand (map char_level (free ls))).
  { apply never_void_by; auto. intros k. unfold env. revert SF. generalize (free ls).
    induction l as [|l ls' IH]; intros SF; [exact S1|]. cbn [map nested_folds char_level].
    apply solid_foldl_swp; [apply IH; intros m I; apply SF; right; exact I|apply SF; left; reflexivity]. }
  assert (R : reads_formulas Std11 env operand (free ls)).
  { left. intros t ps o. split; intros G; [inversion G; subst; assumption|apply g_ref; exact G]. }
  assert (NO : fits_sequence c11 2) by (intros X; discriminate X).
  assert (FT : forall c, every (fits c11) (PToken (PLitC c))).
  { intros c. repeat (apply every_one; [first [exact Logic.I|intros X; discriminate X]|];
      let x := fresh in let X := fresh in intros x X; simpl in X;
      repeat destruct X as [<-|X]; try destruct X). }
  assert (FC : forall cs, every (fits c11) (char_operators cs)).
  { intros cs. apply every_one; [intros X; discriminate X|]. cbn [children]. intros q I.
    apply in_map_iff in I as (c & <- & _). apply FT. }
  assert (FOp : every (fits c11) operand).
  { repeat (apply every_one; [first [exact Logic.I|intros X; discriminate X]|];
      let x := fresh in let X := fresh in intros x X; cbn in X;
      repeat destruct X as [<-|X]; try destruct X; try apply FC; try apply FT). }
  assert (FE : program_every (fits c11) env).
  { intros k. unfold env. generalize (free ls). induction l as [|l ls' IH]; [exact FOp|].
    cbn [map nested_folds char_level]. apply every_one; [exact Logic.I|]. cbn [children].
    intros q [<-|[<-|[]]]; [|exact IH]. apply every_one.
    - split; [intros X; discriminate X|discriminate].
    - cbn [children]. intros q [<-|[<-|[]]]; [apply FC|exact IH]. }
  assert (K : forall x, spells ls signs digits 0 x s ->
    exists q, gives Std11 env (PRef 0) s start (Accept (as_value x) [] q)).
  { intros x X.
    destruct (C97_accepted Std11 env (free ls) signs free_sign digits_word _ operand P
      (free_characters ls D) W O NV R x s (as_value x)) with (s' := @nil char) (ps := start) as (q & G); auto.
    - apply (spells_free ls signs digits digits_word); [|exact X].
      intros w v (N & F). exists (VSeq (map VChar w)). repeat split; auto.
    - apply (worth_free ls signs digits 0 x s X). intros w v (N & F). repeat split; auto.
    - rewrite app_nil_r in G. eauto. }
  destruct (K a A) as (q1 & G1). destruct (K b B) as (q2 & G2).
  assert (FR : every (fits c11) (PRef 0)) by (apply every_one; [exact Logic.I|intros c []]).
  pose proof (C64_at_most_one_result c11 env (PRef 0) FE FR s start _ _ G1 G2) as E.
  injection E as E _. apply as_value_inj. exact E.
Qed.
Print Assumptions C97_one_formula.

(** Different formulas are written differently. *)
Theorem C97_written_once : forall ls signs, plain_table ls signs ->
  forall a b, well_formed ls signs (fun w => w <> [] /\ Forall digit_char w) a ->
  well_formed ls signs (fun w => w <> [] /\ Forall digit_char w) b ->
  written ls 0 a = written ls 0 b -> a = b.
Proof.
  intros ls signs P a b A B E.
  assert (K : forall x, well_formed ls signs (fun w => w <> [] /\ Forall digit_char w) x ->
    well_formed ls signs (fun w => exists v, digits w v) x).
  { induction x as [w|c x IHx y IHy|c x IHx]; cbn; intros H.
    - exists VVoid. exact H.
    - destruct H as (C & X & Y). auto.
    - destruct H as (C & X). auto. }
  apply (C97_one_formula ls signs P a b (written ls 0 a)); [|rewrite E];
    apply (proj1 (C97_written ls signs digits _)), K; assumption.
Qed.
Print Assumptions C97_written_once.

(** ** The calculators *)

Lemma constant_of : forall z, is_int z -> int_constant z = Some (VInt z).
Proof. exact int_constant_some. Qed.

(** Functions of a table that compute with numbers. *)
Definition computes (f : mf2) (c : char) (op : Z -> Z -> Z -> Prop) : Prop :=
  forall x y z, op x y z -> is_int z -> f (VInt x) (VSeq [VChar c; VInt y]) = Some (VInt z).

Lemma calculator_computes :
  (computes eval_plus 43 (fun x y z => z = x + y) /\ computes eval_plus 45 (fun x y z => z = x - y)
   /\ computes eval_mult 42 (fun x y z => z = x * y)
   /\ computes eval_mult 47 (fun x y z => y <> 0 /\ quotient x y z))
  /\ computes binary_op 43 (fun x y z => z = x + y) /\ computes binary_op 45 (fun x y z => z = x - y)
  /\ computes binary_op 42 (fun x y z => z = x * y)
  /\ computes binary_op 47 (fun x y z => y <> 0 /\ quotient x y z).
Proof.
  repeat split; intros x y z H I.
  1,5: subst z; exact (constant_of _ I).
  1,4: subst z; exact (constant_of _ I).
  1,3: subst z; exact (constant_of _ I).
  all: destruct H as (N & Q); apply quotient_iff in Q as (_ & ->);
    apply Z.eqb_neq in N; unfold eval_mult, eval_by_front, binary_op, eval_binary_op, mpl_divides, mpl_arith;
    cbn [front_is_c seq_front seq_back as_int last at_c nth_error Z.eqb Pos.eqb]; cbn; rewrite N; exact (constant_of _ I).
Qed.

Definition numbers_table (f1 f2 : mf2) : list (list char * mf2) := [([43; 45], f1); ([42; 47], f2)].

Lemma arithmetic_worth : forall f1 f2 signs sign,
  computes f1 43 (fun x y z => z = x + y) -> computes f1 45 (fun x y z => z = x - y) ->
  computes f2 42 (fun x y z => z = x * y) -> computes f2 47 (fun x y z => y <> 0 /\ quotient x y z) ->
  (In 43 signs -> forall x, is_int x -> sign (VInt x) (VChar 43) = Some (VInt x)) ->
  (In 45 signs -> forall x, is_int (- x) -> sign (VInt x) (VChar 45) = Some (VInt (- x))) ->
  forall k a s, spells (numbers_table f1 f2) signs number_word k a s ->
  forall z, arithmetic a z -> is_int z /\ worth (numbers_table f1 f2) signs sign number_word a (VInt z).
Proof.
  intros f1 f2 signs sign C1 C2 C3 C4 S1 S2 k a s H.
  induction H as [k w v sp Hw F|k j cs f c a b s1 sp s2 N I K H1 IH1 F H2 IH2
    |k c a sp s I F H IH|k a sp1 s sp2 F1 H IH F2]; intros z A.
  - inversion A; subst. split; [assumption|]. constructor. repeat split; auto.
    match goal with X : is_int _ |- _ => unfold is_int in X; unfold int_max; lia end.
  - inversion A; subst;
      match goal with X : arithmetic a ?x, Y : arithmetic b ?y |- _ =>
        destruct (IH1 x X) as (_ & W1); destruct (IH2 y Y) as (_ & W2) end; (split; [assumption|]).
    + apply (worth_op _ _ _ _ [43; 45] f1) with (x := VInt x) (y := VInt y); cbn; auto.
    + apply (worth_op _ _ _ _ [43; 45] f1) with (x := VInt x) (y := VInt y); cbn; auto.
    + apply (worth_op _ _ _ _ [42; 47] f2) with (x := VInt x) (y := VInt y); cbn; auto.
    + apply (worth_op _ _ _ _ [42; 47] f2) with (x := VInt x) (y := VInt y); cbn; auto.
  - inversion A; subst.
    + destruct (IH z) as (Z1 & W1); [assumption|]. split; [exact Z1|].
      eapply worth_sign; [exact I|exact W1|]. auto.
    + destruct (IH x) as (Z1 & W1); [assumption|]. split; [assumption|].
      eapply worth_sign; [exact I|exact W1|]. auto.
  - auto.
Qed.

Lemma numbers_proper : forall f1 f2 signs, (forall c, In c signs -> c = 43 \/ c = 45) ->
  proper (numbers_table f1 f2) signs number_word /\ different_characters (numbers_table f1 f2)
  /\ forall sd env, reads_words (numbers_table f1 f2) number_word sd env int_token.
Proof.
  intros f1 f2 signs S.
  assert (T : forall cs f c, In (cs, f) (numbers_table f1 f2) -> In c cs ->
    c = 43 \/ c = 45 \/ c = 42 \/ c = 47).
  { intros cs f c [I|[I|[]]] J; injection I as <- <-; repeat destruct J as [<-|J]; auto; destruct J. }
  split; [split; [|split]|split].
  - intros w v (N & F & _). destruct (digits_free w F N) as (c & t & -> & N1 & N2 & N3).
    exists c, t. repeat split; auto. intros I. apply S in I. unfold digit_char in N3. lia.
  - intros cs f c I J. specialize (T cs f c I J). unfold space_char. lia.
  - intros c I. apply S in I. unfold space_char. lia.
  - cbn. repeat split; intros c l C L; repeat destruct L as [<-|L]; try destruct L;
      cbn; intros X; repeat destruct C as [<-|C]; try destruct C; lia.
  - intros sd env. apply numbers_read; intros cs f c I J; specialize (T cs f c I J);
      unfold space_char, digit_char; lia.
Qed.

Lemma unary_signs : forall sd env, reads_characters sd env (POneOf [plus_token; minus_token]) [43; 45].
Proof. intros sd env. exact (operators_characters sd env [43; 45]). Qed.

(** Every formula of numbers, written with the necessary brackets and with as much white
    space and as many other brackets as one likes, compiles to its number. *)
Theorem C97_calculators : forall cfg env signs e,
  In (env, signs, e)
    [(calc2_program, [], calculator_with_parens);
     (calc3_program, [43; 45], calculator_with_unary_ops)] ->
  program_every (fits cfg) env -> every (fits cfg) e ->
  forall a s z, spells calculator_levels signs number_word 0 a s -> arithmetic a z ->
  forall sp, Forall space_char sp -> compiles_to cfg env e (sp ++ s) (Built (VInt z)).
Proof.
  intros cfg env signs e I HE HF a s z H A sp F.
  destruct calculator_computes as ((K1 & K2 & K3 & K4) & _).
  destruct calculator_levels_fine as (_ & LS).
  destruct I as [I|[I|[]]]; injection I as <- <- <-.
  - destruct (numbers_proper eval_plus eval_mult []) as (P & D & W); [intros c []|].
    apply (C97_compiles cfg calc2_program calculator_levels [] eval_unary_plus number_word int_token
      calc2_simple_exp end_of_input_expected P D (W _ _)) with (a := a); auto.
    + apply (without_signs [] eval_unary_plus (cfg_std cfg) calc2_program int_token []); [reflexivity|intros q []].
    + apply never_void_by; auto; [intros k|]; solids.
    + right. split.
      * intros t ps o. split; intros G; [inversion G; subst; assumption|apply g_ref; exact G].
      * apply C94_goes_ahead; auto; [|intros k|]; [|no_natives|no_natives].
        apply (every_in _ calc2_prod_exp); [|right; left; reflexivity].
        apply (every_in _ calc2_plus_exp); [exact (HE 0%nat)|right; left; reflexivity].
    + refine (proj2 (arithmetic_worth eval_plus eval_mult [] eval_unary_plus K1 K2 K3 K4 _ _ 0 a s H z A));
        intros [].
  - destruct (numbers_proper eval_plus eval_mult [43; 45]) as (P & D & W).
    { intros c [<-|[<-|[]]]; auto. }
    apply (C97_compiles cfg calc3_program calculator_levels [43; 45] eval_unary_plus number_word int_token
      calc3_simple_exp end_of_input_expected P D (W _ _)) with (a := a); auto.
    + apply (with_signs [43; 45] eval_unary_plus (cfg_std cfg) calc3_program int_token _ []);
        [apply unary_signs|intros q []].
    + apply never_void_by; auto; [intros k|]; solids.
    + right. split.
      * intros t ps o. split; intros G; [inversion G; subst; assumption|apply g_ref; exact G].
      * apply C94_goes_ahead; auto; [|intros k|]; [|no_natives|no_natives].
        apply (every_in _ calc3_prod_exp); [|right; left; reflexivity].
        apply (every_in _ calc3_plus_exp); [exact (HE 0%nat)|right; left; reflexivity].
    + refine (proj2 (arithmetic_worth eval_plus eval_mult [43; 45] eval_unary_plus K1 K2 K3 K4 _ _ 0 a s H z A)).
      * intros _ x _. reflexivity.
      * intros _ x X. exact (constant_of _ X).
Qed.
Print Assumptions C97_calculators.

(** ** Nothing else compiles *)

Definition computes_only (f : mf2) (c : char) (op : Z -> Z -> Z -> Prop) : Prop :=
  forall x y v, f (VInt x) (VSeq [VChar c; VInt y]) = Some v -> exists z, v = VInt z /\ op x y z /\ is_int z.

Lemma calculator_computes_only :
  computes_only eval_plus 43 (fun x y z => z = x + y) /\ computes_only eval_plus 45 (fun x y z => z = x - y)
  /\ computes_only eval_mult 42 (fun x y z => z = x * y)
  /\ computes_only eval_mult 47 (fun x y z => y <> 0 /\ quotient x y z).
Proof.
  assert (D : forall x y v, (if y =? 0 then None else int_constant (Z.quot x y)) = Some v ->
    exists z, v = VInt z /\ (y <> 0 /\ quotient x y z) /\ is_int z).
  { intros x y v H. destruct (Z.eqb_spec y 0) as [E|E]; [discriminate H|].
    apply int_constant_inv in H as (I & ->). exists (Z.quot x y). repeat split; auto; try apply I.
    apply quotient_iff. auto. }
  split; [|split; [|split]]; intros x y v H.
  1: change (int_constant (x + y) = Some v) in H.
  2: change (int_constant (x - y) = Some v) in H.
  3: change (int_constant (x * y) = Some v) in H.
  4: exact (D x y v H).
  all: apply int_constant_inv in H as (I & ->); eexists; repeat split; auto; apply I.
Qed.

Lemma worth_arithmetic : forall signs sign,
  (forall c, In c signs -> c = 43 \/ c = 45) ->
  (forall x v, sign (VInt x) (VChar 43) = Some v -> v = VInt x) ->
  (forall x v, sign (VInt x) (VChar 45) = Some v -> v = VInt (- x) /\ is_int (- x)) ->
  forall a v, worth calculator_levels signs sign number_word a v -> exists z, v = VInt z /\ arithmetic a z.
Proof.
  intros signs sign S S1 S2 a v H. destruct calculator_computes_only as (K1 & K2 & K3 & K4).
  induction H as [w v (N & D & L & ->)|cs f c a b x y v I J A IA B IB E|c a x v I A IA E].
  - exists (decimal w). split; [reflexivity|]. constructor; auto.
    pose proof (decimal_acc_ge w 0 (Z.le_refl 0) D). unfold decimal, is_int, int_max in *. lia.
  - destruct IA as (z1 & -> & A1). destruct IB as (z2 & -> & B1).
    destruct I as [I|[I|[]]]; injection I as <- <-; destruct J as [<-|[<-|[]]].
    + destruct (K1 _ _ _ E) as (z & -> & -> & Z1). eexists. split; [reflexivity|]. constructor; auto.
    + destruct (K2 _ _ _ E) as (z & -> & -> & Z1). eexists. split; [reflexivity|]. constructor; auto.
    + destruct (K3 _ _ _ E) as (z & -> & -> & Z1). eexists. split; [reflexivity|]. constructor; auto.
    + destruct (K4 _ _ _ E) as (z & -> & (N & Q) & Z1). eexists. split; [reflexivity|].
      eapply arith_divided; eauto.
  - destruct IA as (z1 & -> & A1). destruct (S c I) as [-> | ->].
    + apply S1 in E as ->. exists z1. split; [reflexivity|]. constructor. exact A1.
    + apply S2 in E as (-> & Z1). exists (- z1). split; [reflexivity|]. constructor; assumption.
Qed.

Lemma whole_inv : forall sd env e me s v rest pe, gives sd env (whole e me) s start (Accept v rest pe) ->
  exists sp t q, s = sp ++ t /\ Forall space_char sp /\ gives sd env e t (adv start sp) (Accept v [] q).
Proof.
  intros sd env e me s v rest pe G. inversion G; subst.
  match goal with X : gives _ _ (PLastOf _) _ _ _ |- _ => inversion X; subst end.
  match goal with X : in_turn _ _ _ _ _ _ _ _ |- _ => apply pair_turn in X as (a & b & sa & pa & A & B & Q) end.
  change [a; b] with ([a] ++ [b]) in Q. apply app_inj_tail in Q as (_ & ->).
  match goal with X : gives _ _ (PRepeated PSpace) _ _ _ |- _ =>
    apply spaces_inv in X as (sp & t & -> & F & N & E) end.
  injection E as -> -> ->. exists sp, t, pe. auto.
Qed.

(** The calculators compile exactly the texts of formulas with a number, to this number. *)
Theorem C97_calculators_exactly : forall cfg env signs e,
  In (env, signs, e)
    [(calc2_program, [], calculator_with_parens);
     (calc3_program, [43; 45], calculator_with_unary_ops)] ->
  program_every (fits cfg) env -> every (fits cfg) e ->
  forall s v,
    compiles_to cfg env e s (Built v)
    <-> exists sp a u z, s = sp ++ u /\ Forall space_char sp
          /\ spells calculator_levels signs number_word 0 a u /\ arithmetic a z /\ v = VInt z.
Proof.
  intros cfg env signs e I HE HF s v. split.
  2: { intros (sp & a & u & z & -> & F & SP & A & ->).
       exact (C97_calculators cfg env signs e I HE HF a u z SP A sp F). }
  intros C. apply (proj1 (C64_build_parser cfg env e HE HF s) v) in C as (rest & pe & G).
  destruct calculator_levels_fine as (D & LS).
  assert (K : exists sp a u, s = sp ++ u /\ Forall space_char sp
    /\ spells calculator_levels signs number_word 0 a u
    /\ worth calculator_levels signs eval_unary_plus number_word a v).
  { destruct I as [I|[I|[]]]; injection I as <- <- <-; apply whole_inv in G as (sp & t & q & -> & F & G).
    - destruct (fun O NV R => C97_only (cfg_std cfg) calc2_program calculator_levels [] eval_unary_plus
        number_word int_token calc2_simple_exp D (numbers_only _ _) O NV R t _ v [] q G)
        as (a & u & -> & SP & WO).
      + apply (only_without_signs [] eval_unary_plus (cfg_std cfg) calc2_program int_token []). intros q' [].
      + apply never_void_by; auto; [intros k|]; solids.
      + right. split.
        * intros t' ps o. split; intros X; [inversion X; subst; assumption|apply g_ref; exact X].
        * apply C94_goes_ahead; auto; [|intros k|]; [|no_natives|no_natives].
          apply (every_in _ calc2_prod_exp); [|right; left; reflexivity].
          apply (every_in _ calc2_plus_exp); [exact (HE 0%nat)|right; left; reflexivity].
      + exists sp, a, u. rewrite app_nil_r. auto.
    - destruct (fun O NV R => C97_only (cfg_std cfg) calc3_program calculator_levels [43; 45] eval_unary_plus
        number_word int_token calc3_simple_exp D (numbers_only _ _) O NV R t _ v [] q G)
        as (a & u & -> & SP & WO).
      + apply (only_with_signs [43; 45] eval_unary_plus (cfg_std cfg) calc3_program int_token _ []);
          [exact (operators_only _ _ [43; 45])|intros q' []].
      + apply never_void_by; auto; [intros k|]; solids.
      + right. split.
        * intros t' ps o. split; intros X; [inversion X; subst; assumption|apply g_ref; exact X].
        * apply C94_goes_ahead; auto; [|intros k|]; [|no_natives|no_natives].
          apply (every_in _ calc3_prod_exp); [|right; left; reflexivity].
          apply (every_in _ calc3_plus_exp); [exact (HE 0%nat)|right; left; reflexivity].
      + exists sp, a, u. rewrite app_nil_r. auto. }
  destruct K as (sp & a & u & -> & F & SP & WO).
  assert (SG : forall c, In c signs -> c = 43 \/ c = 45).
  { destruct I as [I|[I|[]]]; injection I as <- <- <-; [intros c []|intros c [<-|[<-|[]]]; auto]. }
  destruct (fun X Y => worth_arithmetic signs eval_unary_plus SG X Y a v WO) as (z & -> & A).
  - intros x w E. unfold eval_unary_plus in E. cbn in E. congruence.
  - intros x w E. change (int_constant (- x) = Some w) in E. apply int_constant_inv in E as (X & ->). auto.
  - exists sp, a, u, z. auto.
Qed.
Print Assumptions C97_calculators_exactly.

(** ** The tutorial *)

(** The parsers of the tutorial with brackets and minus signs (11_3.hpp and 12.hpp). *)
Theorem C97_tutorial : forall cfg env e,
  In (env, e) [(tut20_program, exp_parser20); (tut23_program, exp_parser23)] ->
  program_every (fits cfg) env ->
  forall a s z, spells tutorial_levels [45] number_word 0 a s -> arithmetic a z ->
  exists n, build_parser (eval cfg env n e) s = Built (VInt z).
Proof.
  intros cfg env e I HE a s z H A.
  destruct calculator_computes as (_ & K1 & K2 & K3 & K4).
  destruct tutorial_levels_fine as (_ & LS).
  destruct (numbers_proper binary_op binary_op [45]) as (P & D & W); [intros c [<-|[]]; auto|].
  assert (V : worth tutorial_levels [45] negate_first number_word a (VInt z)).
  { refine (proj2 (arithmetic_worth binary_op binary_op [45] negate_first K1 K2 K3 K4 _ _ 0 a s H z A)).
    - intros [X|[]]. discriminate X.
    - intros _ x X. exact (constant_of _ X). }
  assert (O : operand_parser [45] negate_first (cfg_std cfg) env int_token unary_exp3).
  { apply (with_signs [45] negate_first (cfg_std cfg) env int_token minus_token [PFail missing_primary_expression]).
    - apply token_characters.
    - intros q [<-|[]] t ps. eexists. constructor. }
  assert (FR : every (fits cfg) (PRef 0)) by (apply every_one; [exact Logic.I|intros c []]).
  assert (R : reads_formulas (cfg_std cfg) env unary_exp3 tutorial_levels
    /\ never_void_here (cfg_std cfg) env unary_exp3 (map char_level tutorial_levels) /\ e = PRef 0).
  { destruct I as [I|[I|[]]]; injection I as <- <-; (split; [|split; [|reflexivity]]).
    - left. intros t ps o. split; intros G; [inversion G; subst; assumption|apply g_ref; exact G].
    - apply never_void_by; auto; [intros k|]; solids.
    - right. split.
      + intros t ps o. split; intros G; [inversion G; subst; assumption|apply g_ref; exact G].
      + apply C94_goes_ahead; auto; [|intros k|]; [|no_natives|no_natives].
        apply (every_in _ mult_exp7); [|right; left; reflexivity].
        apply (every_in _ plus_exp6); [exact (HE 0%nat)|right; left; reflexivity].
    - apply never_void_by; auto; [intros k|]; solids. }
  destruct R as (R & NV & ->).
  apply (proj1 (C64_build_parser cfg env (PRef 0) HE FR s) (VInt z)).
  destruct (C97_accepted _ _ _ _ _ _ _ _ P D (W _ _) O NV R a s (VInt z) H V [] start) as (q & G); [auto|].
  rewrite app_nil_r in G. eauto.
Qed.
Print Assumptions C97_tutorial.

(** ** Examples *)

Lemma all_digits : forall w, forallb (fun c => (48 <=? c) && (c <=? 57)) w = true -> Forall digit_char w.
Proof.
  intros w H. apply Forall_forall. intros c I. rewrite forallb_forall in H. specialize (H c I).
  unfold digit_char. lia.
Qed.
Lemma small_number : forall w z, w <> [] -> forallb (fun c => (48 <=? c) && (c <=? 57)) w = true ->
  decimal w = z -> is_int z -> arithmetic (FWord w) z.
Proof. intros w z A B <- C. constructor; auto. apply all_digits. exact B. Qed.

(** 10-(2-3)*-4: written with the necessary brackets, and with others. *)
Definition example_formula : formula :=
  FOp 45 (FWord (text "10")) (FOp 42 (FOp 45 (FWord (text "2")) (FWord (text "3")))
    (FSign 45 (FWord (text "4")))).
Example C97_case_written :
  written calculator_levels 0 example_formula = text "10-(2-3)*-4"
  /\ well_formed calculator_levels [43; 45] (fun w => exists v, number_word w v) example_formula
  /\ arithmetic example_formula 6.
Proof.
  split; [vm_compute; reflexivity|]. split.
  - cbn. assert (N : forall w, w <> [] -> Forall digit_char w -> decimal w <= int_max ->
      exists v, number_word w v) by (intros; eexists; repeat split; eauto).
    repeat split; try (left; reflexivity); try (right; left; reflexivity).
    + exists [43; 45], eval_plus. cbn. auto.
    + apply N; [discriminate|apply all_digits; reflexivity|vm_compute; discriminate].
    + exists [42; 47], eval_mult. cbn. auto.
    + exists [43; 45], eval_plus. cbn. auto.
    + apply N; [discriminate|apply all_digits; reflexivity|vm_compute; discriminate].
    + apply N; [discriminate|apply all_digits; reflexivity|vm_compute; discriminate].
    + apply N; [discriminate|apply all_digits; reflexivity|vm_compute; discriminate].
  - assert (N := small_number).
    change 6 with (10 - (2 - 3) * - (4)). unfold example_formula.
    repeat first [apply arith_minus|apply arith_times|apply arith_sign_minus|apply N];
      try (vm_compute; split; [discriminate|reflexivity]); try discriminate; vm_compute; reflexivity.
Qed.

(** The theorem at work: the text with the necessary brackets compiles to 6, and so does
    one with more brackets and white space. *)
Example C97_case_compiles :
  (exists n, build_parser (eval c11 calc3_program n calculator_with_unary_ops) (text "10-(2-3)*-4")
     = Built (VInt 6))
  /\ exists n, build_parser (eval c11 calc3_program n calculator_with_unary_ops)
       (text " ( 10 ) - ( (2-3 )* -(4 ) )") = Built (VInt 6).
Proof. split; exists 60%nat; vm_compute; reflexivity. Qed.

Example C97_case_calculator :
  compiles_to c11 calc3_program calculator_with_unary_ops (written calculator_levels 0 example_formula)
    (Built (VInt 6)).
Proof.
  destruct C97_case_written as (_ & WF & A).
  apply (C97_calculators c11 calc3_program [43; 45] calculator_with_unary_ops (or_intror (or_introl eq_refl)))
    with (a := example_formula) (sp := []); auto.
  - intros k. repeat (apply every_one; [first [exact Logic.I|intros X; discriminate X
      |split; [intros X; discriminate X|discriminate]]|];
      let x := fresh in let X := fresh in intros x X; simpl in X;
      repeat destruct X as [<-|X]; try destruct X).
  - repeat (apply every_one; [first [exact Logic.I|intros X; discriminate X
      |split; [intros X; discriminate X|discriminate]]|];
      let x := fresh in let X := fresh in intros x X; simpl in X;
      repeat destruct X as [<-|X]; try destruct X).
  - apply (proj1 (C97_written calculator_levels [43; 45] number_word example_formula) WF 0%nat).
Qed.

(** The table of the calculators is one the theorem about texts is about. *)
Example C97_case_table : plain_table calculator_levels [43; 45].
Proof.
  split; [apply calculator_levels_fine|]. split.
  - intros cs f c [I|[I|[]]] J; injection I as <- <-;
      repeat destruct J as [<-|J]; try destruct J; unfold space_char, digit_char; lia.
  - intros c [<-|[<-|[]]]; unfold space_char, digit_char; lia.
Qed.

(** ** What is not true *)

(** The operand on the right needs brackets when its operator is of the same level: 1-2-3
    is not 1-(2-3). *)
Theorem C97_right_operand_refuted : exists a b z,
  arithmetic (FOp 45 a b) z
  /\ ~ compiles_to c11 calc2_program calculator_with_parens
        (written calculator_levels 0 a ++ 45 :: written calculator_levels 0 b) (Built (VInt z)).
Proof.
  exists (FWord (text "1")), (FOp 45 (FWord (text "2")) (FWord (text "3"))), (1 - (2 - 3)). split.
  - assert (N := small_number).
    repeat first [apply arith_minus|apply N];
      try (vm_compute; split; [discriminate|reflexivity]); try discriminate; vm_compute; reflexivity.
  - intros (n & E).
    assert (X : exists n, build_parser (eval c11 calc2_program n calculator_with_parens)
      (written calculator_levels 0 (FWord (text "1"))
       ++ 45 :: written calculator_levels 0 (FOp 45 (FWord (text "2")) (FWord (text "3")))) = Built (VInt (-4)))
      by (exists 40%nat; vm_compute; reflexivity).
    destruct X as (n' & E').
    assert (HE : program_every (fits c11) calc2_program).
    { intros k. repeat (apply every_one; [first [exact Logic.I|intros X; discriminate X
      |split; [intros X; discriminate X|discriminate]]|];
      let x := fresh in let X := fresh in intros x X; simpl in X;
      repeat destruct X as [<-|X]; try destruct X). }
    assert (HF : every (fits c11) calculator_with_parens).
    { repeat (apply every_one; [first [exact Logic.I|intros X; discriminate X
      |split; [intros X; discriminate X|discriminate]]|];
      let x := fresh in let X := fresh in intros x X; simpl in X;
      repeat destruct X as [<-|X]; try destruct X). }
    destruct (proj1 (proj1 (C64_build_parser c11 calc2_program calculator_with_parens HE HF _) _) (ex_intro _ n E))
      as (r1 & p1 & G1).
    destruct (proj1 (proj1 (C64_build_parser c11 calc2_program calculator_with_parens HE HF _) _) (ex_intro _ n' E'))
      as (r2 & p2 & G2).
    pose proof (C64_at_most_one_result _ _ _ HE HF _ _ _ _ G1 G2) as Q. discriminate Q.
Qed.
Print Assumptions C97_right_operand_refuted.
