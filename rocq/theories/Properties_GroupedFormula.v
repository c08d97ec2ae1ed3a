(** Properties proved about formulas with operators that group to the left and to the
    right: stated with the vocabulary of Spec.v, SpecRules.v, SpecPrecedence.v,
    SpecGrouping.v, SpecFormula.v and SpecGroupedFormula.v. *)

From Coq Require Import ZArith List Bool Lia.
From Verif Require Import Base Util Combinators Variadic Parsers Deep Calculator Spec SpecDeep SpecCalc
  SpecRules SpecReplace SpecChoice SpecPrecedence SpecGrouping SpecFormula SpecGroupedFormula Proofs_Pos
  Proofs_Rules Proofs_Layout Proofs_Parsers2 Proofs_Calc Proofs_Precedence Proofs_Formula Proofs_Formula2
  Proofs_Formula3 Proofs_Grouping Proofs_GroupedFormula Proofs_GroupedFormula2 Properties_Replace
  Properties_Rules Properties_Choice Properties_Precedence Properties_Formula Properties_Grouping.
Import ListNotations.
Open Scope Z_scope.

Local Definition c11 := default_config Std11.

(** ** C100: formulas with operators that group to the left and to the right *)

(** The named parser 0 is the nest of folds. *)
Definition reads_grouped (sd : std) (env : program) (operand : pexpr)
  (ls : list (grouping * (list char * mf2))) : Prop :=
  same_results sd env (PRef 0) (grouped_folds operand (map grouped_char_level ls)).

(** Every text of a formula, with any brackets and any white space, is accepted, and the
    result is the value of the formula. *)
Theorem C100_accepted : forall sd env ls signs sign word p operand,
  proper (map snd ls) signs word -> different_characters (map snd ls) ->
  reads_words (map snd ls) word sd env p -> operand_parser signs sign sd env p operand ->
  never_void_here sd env operand (map char_level (map snd ls)) -> reads_grouped sd env operand ls ->
  forall a s v, grouped_spells ls signs word 0 a s -> grouped_worth ls signs sign word a v ->
  forall s' ps, (s' = [] \/ exists t, s' = 41 :: t) ->
  exists ps', gives sd env (PRef 0) (s ++ s') ps (Accept v s' ps').
Proof.
  intros sd env ls signs sign word p operand P D W O NV R a s v H V s' ps S.
  destruct (char_levels_good sd env (map snd ls) D) as (DO & DE & AO & GL).
  eapply (gformula_accepted sd env ls signs sign word p operand P W O); eauto.
  clear - R NV DO DE AO. intros s ps x s1 ps1 l s' ps' v G RO N V. apply R.
  rewrite <- grouped_plain in *. eapply C98_accepted; eauto.
Qed.
Print Assumptions C100_accepted.

(** It compiles to this value, also with white space before it. *)
Theorem C100_compiles : forall cfg env ls signs sign word p operand me,
  proper (map snd ls) signs word -> different_characters (map snd ls) ->
  reads_words (map snd ls) word (cfg_std cfg) env p -> operand_parser signs sign (cfg_std cfg) env p operand ->
  never_void_here (cfg_std cfg) env operand (map char_level (map snd ls)) ->
  reads_grouped (cfg_std cfg) env operand ls ->
  program_every (fits cfg) env -> every (fits cfg) (whole (PRef 0) me) ->
  forall a s v, grouped_spells ls signs word 0 a s -> grouped_worth ls signs sign word a v ->
  forall sp, Forall space_char sp -> compiles_to cfg env (whole (PRef 0) me) (sp ++ s) (Built v).
Proof.
  intros cfg env ls signs sign word p operand me P D W O NV R HE HF a s v H V sp F.
  unfold compiles_to. apply (proj1 (C64_build_parser cfg env _ HE HF (sp ++ s)) v).
  destruct (C100_accepted _ _ _ _ _ _ _ _ P D W O NV R a s v H V [] (adv start sp)) as (q & G); [auto|].
  rewrite app_nil_r in G. exists [], q. apply g_entire_input.
  apply (g_last_of _ _ _ _ _ v [VSeq (map VChar sp)]).
  eapply in_turn_cons; [apply spaces_give; [exact F|]|eapply in_turn_cons; [exact G|constructor]].
  pose proof (proj2 (gspells_starts ls signs word P _ _ _ H) []) as N. rewrite app_nil_r in N. exact N.
Qed.
Print Assumptions C100_compiles.

(** Nothing else is accepted: what is accepted is a text of a formula, and the result is
    its value. *)
Theorem C100_only : forall sd env ls signs sign word p operand,
  only_words word sd env p -> only_operands signs sign sd env p operand ->
  reads_grouped sd env operand ls ->
  forall s ps v s' ps', gives sd env (PRef 0) s ps (Accept v s' ps') ->
  exists a u, s = u ++ s' /\ grouped_spells ls signs word 0 a u /\ grouped_worth ls signs sign word a v.
Proof.
  intros sd env ls signs sign word p operand W O R s ps v s' ps' G.
  eapply (gonly_formulas sd env ls signs sign word p operand W O); [|exact G].
  clear - R. intros s ps v s' ps' G. apply R, C98_read in G. rewrite grouped_plain in G. exact G.
Qed.
Print Assumptions C100_only.

(** ** Texts *)

(** A formula is written by [grouped_written] with the necessary brackets; no text of it
    is shorter. *)
Theorem C100_written : forall ls signs word a,
  (well_formed (map snd ls) signs (fun w => exists v, word w v) a ->
   forall k, grouped_spells ls signs word k a (grouped_written ls k a))
  /\ (different_characters (map snd ls) -> forall k s, grouped_spells ls signs word k a s ->
      (length (grouped_written ls k a) <= length s)%nat).
Proof.
  intros ls signs word a. split.
  - intros H k. apply gwritten_spells. exact H.
  - intros D k s H. eapply gwritten_shortest; eauto.
Qed.
Print Assumptions C100_written.

Lemma gfree_characters : forall ls, different_characters (map snd ls) -> different_characters (map snd (gfree ls)).
Proof.
  induction ls as [|l ls IH]; intros D; [exact Logic.I|]. destruct D as (D & D'). split; [|apply IH; exact D'].
  intros c l' I J. unfold gfree in J. rewrite map_map in J. apply in_map_iff in J as (m & <- & J).
  cbn [snd fst] in *. apply (D c (snd m) I). apply in_map. exact J.
Qed.

(** A text is a text of one formula. *)
Theorem C100_one_formula : forall ls signs, plain_table (map snd ls) signs ->
  forall a b s, grouped_spells ls signs digits 0 a s -> grouped_spells ls signs digits 0 b s -> a = b.
Proof.
  intros ls signs (D & LO & LS) a b s A B.
  set (operand := PFoldrStartWithParser (char_operators signs)
    (word_or_brackets (PToken (PRepeated1 PDigit)) []) free_sign).
  set (env := (fun _ => grouped_folds operand (map grouped_char_level (gfree ls))) : program).
  assert (FO : forall cs f c, In (cs, f) (map snd (gfree ls)) -> In c cs -> ~ space_char c /\ ~ digit_char c /\ c <> 41).
  { intros cs f c I J. unfold gfree in I. rewrite map_map in I. apply in_map_iff in I as ((g & ds & h) & E & I).
    cbn in E. injection E as <- <-. apply (LO ds h c); [|exact J]. apply (in_map snd) in I. exact I. }
  assert (P : proper (map snd (gfree ls)) signs digits_word).
  { split; [|split].
    - intros w v (N & F & _). destruct (digits_free w F N) as (c & t & -> & N1 & N2 & N3).
      exists c, t. repeat split; auto. intros I. exact (proj1 (proj2 (LS c I)) N3).
    - intros cs f c I J. destruct (FO cs f c I J) as (? & ? & ?). auto.
    - intros c I. destruct (LS c I) as (? & ? & ?). auto. }
  assert (W : reads_words (map snd (gfree ls)) digits_word Std11 env (PToken (PRepeated1 PDigit))).
  { apply digits_read; intros cs f c I J; destruct (FO cs f c I J) as (? & ? & ?); assumption. }
  assert (O : operand_parser signs free_sign Std11 env (PToken (PRepeated1 PDigit)) operand).
  { apply with_signs; [apply operators_characters|intros q []]. }
  assert (S1 : solid operand).
  { apply solid_foldr_swp.
    - apply solid_one. intros q [<-|[<-|[]]].
      + apply solid_first, solid_foldl1; [discriminate|]. intros x y v _ E.
        unfold back_inserter, push_back in E.
        repeat match type of E with context [match ?z with _ => _ end] => destruct z; try discriminate E end;
          injection E as <-; discriminate.
      + apply solid_middle, solid_ref.
    - intros x y v _ E. injection E as <-. discriminate. }
  assert (SF : levels_solid (map snd (gfree ls))).
  { intros l I. unfold gfree in I. rewrite map_map in I. apply in_map_iff in I as (m & <- & _). cbn [snd].
    intros x y v _ E. destruct (fst m); unfold free_op, free_right in E; destruct y; try discriminate E;
    repeat match type of E with context [match ?z with _ => _ end] => destruct z; try discriminate E end;
    injection E as <-; discriminate. }
  assert (NV : never_void_here Std11 env operand (map char_level (map snd (gfree ls)))).
  { apply never_void_by; auto. intros k. unfold env. revert SF. generalize (gfree ls).
    induction l as [|(g & l) ls' IH]; intros SF; [exact S1|].
    assert (S2 : solid (grouped_folds operand (map grouped_char_level ls')))
      by (apply IH; intros m I; apply SF; right; exact I).
    assert (S3 := SF l (or_introl eq_refl)).
    destruct g; [apply solid_foldl_swp|apply solid_foldl_ri_swp|apply solid_foldr_swp]; assumption. }
  assert (R : reads_grouped Std11 env operand (gfree ls)).
  { intros t ps o. split; intros G; [inversion G; subst; assumption|apply g_ref; exact G]. }
  assert (NO : fits_sequence c11 2) by (intros X; discriminate X).
  assert (FT : forall c, every (fits c11) (PToken (PLitC c))).
  { intros c. repeat (apply every_one; [first [exact Logic.I|intros X; discriminate X]|];
      let x := fresh in let X := fresh in intros x X; simpl in X;
      repeat destruct X as [<-|X]; try destruct X). }
  assert (FC : forall cs, every (fits c11) (char_operators cs)).
  { intros cs. apply every_one; [intros X; discriminate X|]. cbn [children]. intros q I.
    apply in_map_iff in I as (c & <- & _). apply FT. }
  assert (FOp : every (fits c11) operand).
  { repeat (apply every_one; [first [exact Logic.I|intros X; discriminate X]|];
      let x := fresh in let X := fresh in intros x X; cbn in X;
      repeat destruct X as [<-|X]; try destruct X; try apply FC; try apply FT). }
  assert (FE : program_every (fits c11) env).
  { intros k. unfold env. generalize (gfree ls). induction l as [|(g & l) ls' IH]; [exact FOp|].
    assert (FS : forall l', (forall q, In q l' -> every (fits c11) q) -> l' <> [] ->
      every (fits c11) (PSequence l')).
    { intros l' H NE. apply every_one; [split; [intros X; discriminate X|exact NE]|exact H]. }
    destruct g; cbn [map grouped_folds grouped_char_level char_level fst snd];
      (apply every_one; [exact Logic.I|]); cbn [children];
      (intros q [<-|[<-|[]]]; [|exact IH]); (apply FS; [|discriminate]);
      intros q [<-|[<-|[]]]; try exact IH; apply FC. }
  assert (K : forall x, grouped_spells ls signs digits 0 x s ->
    exists q, gives Std11 env (PRef 0) s start (Accept (as_value x) [] q)).
  { intros x X.
    destruct (C100_accepted Std11 env (gfree ls) signs free_sign digits_word _ operand P
      (gfree_characters ls D) W O NV R x s (as_value x)) with (s' := @nil char) (ps := start) as (q & G); auto.
    - apply (gspells_free ls signs digits digits_word); [|exact X].
      intros w v (N & F). exists (VSeq (map VChar w)). repeat split; auto.
    - apply (gworth_free ls signs digits 0 x s X). intros w v (N & F). repeat split; auto.
    - rewrite app_nil_r in G. eauto. }
  destruct (K a A) as (q1 & G1). destruct (K b B) as (q2 & G2).
  assert (FR : every (fits c11) (PRef 0)) by (apply every_one; [exact Logic.I|intros c []]).
  pose proof (C64_at_most_one_result c11 env (PRef 0) FE FR s start _ _ G1 G2) as E.
  injection E as E _. apply as_value_inj. exact E.
Qed.
Print Assumptions C100_one_formula.

(** Different formulas are written differently. *)
Theorem C100_written_once : forall ls signs, plain_table (map snd ls) signs ->
  forall a b, well_formed (map snd ls) signs (fun w => w <> [] /\ Forall digit_char w) a ->
  well_formed (map snd ls) signs (fun w => w <> [] /\ Forall digit_char w) b ->
  grouped_written ls 0 a = grouped_written ls 0 b -> a = b.
Proof.
  intros ls signs P a b A B E.
  assert (K : forall x, well_formed (map snd ls) signs (fun w => w <> [] /\ Forall digit_char w) x ->
    well_formed (map snd ls) signs (fun w => exists v, digits w v) x).
  { induction x as [w|c x IHx y IHy|c x IHx]; cbn; intros H.
    - exists VVoid. exact H.
    - destruct H as (C & X & Y). auto.
    - destruct H as (C & X). auto. }
  apply (C100_one_formula ls signs P a b (grouped_written ls 0 a)); [|rewrite E];
    apply (proj1 (C100_written ls signs digits _)), K; assumption.
Qed.
Print Assumptions C100_written_once.

(** With levels that all group to the left these are the texts and values of C97. *)
Theorem C100_left : forall ls signs sign word,
  (forall k a s, grouped_spells (map (fun l => (To_left, l)) ls) signs word k a s <-> spells ls signs word k a s)
  /\ forall a v, grouped_worth (map (fun l => (To_left, l)) ls) signs sign word a v
       <-> worth ls signs sign word a v.
Proof.
  intros ls signs sign word. split.
  - intros k a s. split; intros H.
    + induction H as [k w v sp Hw F|k j g cs f c a b s1 sp s2 N I K H1 IH1 F H2 IH2
        |k c a sp s I F H IH|k a sp1 s sp2 F1 H IH F2].
      * eapply spells_word; eauto.
      * rewrite nth_error_map in N. destruct (nth_error ls j) as [l|] eqn:NL; [|discriminate N].
        injection N as <- ->. eapply spells_op; eauto.
      * rewrite map_length in IH. apply spells_sign; auto.
      * apply spells_brackets; auto.
    + induction H as [k w v sp Hw F|k j cs f c a b s1 sp s2 N I K H1 IH1 F H2 IH2
        |k c a sp s I F H IH|k a sp1 s sp2 F1 H IH F2].
      * eapply gs_word; eauto.
      * eapply (gs_op _ _ _ k j To_left); eauto.
        apply (map_nth_error (fun l => (To_left, l))) in N. exact N.
      * apply gs_sign; auto. rewrite map_length. exact IH.
      * apply gs_brackets; auto.
  - intros a v. split; intros H.
    + induction H as [w v Hw|g cs f c a b x y v I Q J A IA B IB E|cs f c a b x y v I J A IA B IB E
        |c a x v I A IA E].
      * constructor. exact Hw.
      * apply in_map_iff in I as (l & X & I). injection X as <- ->. eapply worth_op; eauto.
      * apply in_map_iff in I as (l & X & I). discriminate X.
      * eapply worth_sign; eauto.
    + induction H as [w v Hw|cs f c a b x y v I J A IA B IB E|c a x v I A IA E].
      * constructor. exact Hw.
      * eapply (gw_left _ _ _ _ To_left cs f); eauto; [|discriminate].
        apply in_map_iff. exists (cs, f). auto.
      * eapply gw_sign; eauto.
Qed.
Print Assumptions C100_left.

(** ** Numbers *)

(** The functions of the tutorial (8_1.hpp, 9.hpp) for a level that groups in a given
    way, and a parser of expressions with brackets in which additions group in one way
    and multiplications in another one. *)
Definition tutorial_function (g : grouping) : mf2 :=
  match g with To_right => reverse_binary_op | _ => binary_op end.
Definition tutorial_table (g1 g2 : grouping) : list (grouping * (list char * mf2)) :=
  [(g1, ([43; 45], tutorial_function g1)); (g2, ([42; 47], tutorial_function g2))].
Definition number_or_brackets : pexpr := word_or_brackets int_token [].
Definition tutorial_program (g1 g2 : grouping) : program :=
  fun _ => grouped_folds number_or_brackets (map grouped_char_level (tutorial_table g1 g2)).

Lemma tutorial_snd : forall g1 g2, map snd (tutorial_table g1 g2)
  = numbers_table (tutorial_function g1) (tutorial_function g2).
Proof. reflexivity. Qed.

Lemma reversed : forall x c y, reverse_binary_op (VInt y) (VSeq [VInt x; VChar c])
  = binary_op (VInt x) (VSeq [VChar c; VInt y]).
Proof. reflexivity. Qed.

Lemma tutorial_computes_only :
  computes_only binary_op 43 (fun x y z => z = x + y) /\ computes_only binary_op 45 (fun x y z => z = x - y)
  /\ computes_only binary_op 42 (fun x y z => z = x * y)
  /\ computes_only binary_op 47 (fun x y z => y <> 0 /\ quotient x y z).
Proof.
  assert (D : forall x y v, (if y =? 0 then None else int_constant (Z.quot x y)) = Some v ->
    exists z, v = VInt z /\ (y <> 0 /\ quotient x y z) /\ is_int z).
  { intros x y v H. destruct (Z.eqb_spec y 0) as [E|E]; [discriminate H|].
    apply int_constant_inv in H as (I & ->). exists (Z.quot x y). repeat split; auto; try apply I.
    apply quotient_iff. auto. }
  split; [|split; [|split]]; intros x y v H.
  1: change (int_constant (x + y) = Some v) in H.
  2: change (int_constant (x - y) = Some v) in H.
  3: change (int_constant (x * y) = Some v) in H.
  4: exact (D x y v H).
  all: apply int_constant_inv in H as (I & ->); eexists; repeat split; auto; apply I.
Qed.

(** Applying the function of a level to numbers, whichever way it groups. *)
Lemma tutorial_worth_op : forall g1 g2 k g cs f c a b x y v,
  nth_error (tutorial_table g1 g2) k = Some (g, (cs, f)) -> In c cs ->
  grouped_worth (tutorial_table g1 g2) [] negate_first number_word a (VInt x) ->
  grouped_worth (tutorial_table g1 g2) [] negate_first number_word b (VInt y) ->
  binary_op (VInt x) (VSeq [VChar c; VInt y]) = Some v ->
  grouped_worth (tutorial_table g1 g2) [] negate_first number_word (FOp c a b) v.
Proof.
  intros g1 g2 k g cs f c a b x y v N I A B E.
  assert (F : f = tutorial_function g).
  { destruct k as [|[|k]]; cbn in N; [| |destruct k; discriminate N]; injection N as <- <- <-; reflexivity. }
  apply nth_error_In in N. subst f. destruct g.
  - eapply (gw_left _ _ _ _ To_left); eauto. discriminate.
  - eapply (gw_left _ _ _ _ To_left_strictly); eauto. discriminate.
  - eapply gw_right; eauto.
Qed.

Lemma tutorial_arithmetic : forall g1 g2 k a s,
  grouped_spells (tutorial_table g1 g2) [] number_word k a s ->
  forall z, arithmetic a z ->
  is_int z /\ grouped_worth (tutorial_table g1 g2) [] negate_first number_word a (VInt z).
Proof.
  intros g1 g2 k a s H. destruct calculator_computes as (_ & K1 & K2 & K3 & K4).
  induction H as [k w v sp Hw F|k j g cs f c a b s1 sp s2 N I K H1 IH1 F H2 IH2
    |k c a sp s I F H IH|k a sp1 s sp2 F1 H IH F2]; intros z A.
  - inversion A; subst. split; [assumption|]. constructor. repeat split; auto.
    match goal with X : is_int _ |- _ => unfold is_int in X; unfold int_max; lia end.
  - inversion A; subst;
      match goal with X : arithmetic a ?x, Y : arithmetic b ?y |- _ =>
        destruct (IH1 x X) as (_ & W1); destruct (IH2 y Y) as (_ & W2) end; (split; [assumption|]);
      eapply tutorial_worth_op; eauto.
  - destruct I.
  - auto.
Qed.

Lemma arithmetic_tutorial : forall g1 g2 a v,
  grouped_worth (tutorial_table g1 g2) [] negate_first number_word a v ->
  exists z, v = VInt z /\ arithmetic a z.
Proof.
  intros g1 g2 a v H. destruct tutorial_computes_only as (K1 & K2 & K3 & K4).
  assert (OP : forall c a b z1 z2 v, c = 43 \/ c = 45 \/ c = 42 \/ c = 47 ->
    arithmetic a z1 -> arithmetic b z2 -> binary_op (VInt z1) (VSeq [VChar c; VInt z2]) = Some v ->
    exists z, v = VInt z /\ arithmetic (FOp c a b) z).
  { clear - K1 K2 K3 K4. intros c a b z1 z2 v C A1 B1 E. destruct C as [->|[->|[->| ->]]].
    + destruct (K1 _ _ _ E) as (z & -> & -> & Z1). eexists. split; [reflexivity|]. constructor; auto.
    + destruct (K2 _ _ _ E) as (z & -> & -> & Z1). eexists. split; [reflexivity|]. constructor; auto.
    + destruct (K3 _ _ _ E) as (z & -> & -> & Z1). eexists. split; [reflexivity|]. constructor; auto.
    + destruct (K4 _ _ _ E) as (z & -> & (N & Q) & Z1). eexists. split; [reflexivity|].
      eapply arith_divided; eauto. }
  assert (T : forall g cs f c, In (g, (cs, f)) (tutorial_table g1 g2) -> In c cs ->
    f = tutorial_function g /\ (c = 43 \/ c = 45 \/ c = 42 \/ c = 47)).
  { clear. intros g cs f c [I|[I|[]]] J; injection I as <- <- <-; (split; [reflexivity|]);
      repeat destruct J as [<-|J]; auto; destruct J. }
  induction H as [w v (N & D & L & ->)|g cs f c a b x y v I Q J A IA B IB E|cs f c a b x y v I J A IA B IB E
    |c a x v I A IA E].
  - exists (decimal w). split; [reflexivity|]. constructor; auto.
    pose proof (decimal_acc_ge w 0 (Z.le_refl 0) D). unfold decimal, is_int, int_max in *. lia.
  - destruct IA as (z1 & -> & A1). destruct IB as (z2 & -> & B1). destruct (T _ _ _ _ I J) as (-> & C).
    destruct g; [exact (OP _ _ _ _ _ _ C A1 B1 E)|exact (OP _ _ _ _ _ _ C A1 B1 E)|destruct (Q eq_refl)].
  - destruct IA as (z1 & -> & A1). destruct IB as (z2 & -> & B1). destruct (T _ _ _ _ I J) as (-> & C).
    exact (OP _ _ _ _ _ _ C A1 B1 E).
  - destruct I.
Qed.

(** Whichever way additions and multiplications group: exactly the texts of formulas with
    a number compile, to this number. *)
Theorem C100_numbers : forall cfg g1 g2 me,
  program_every (fits cfg) (tutorial_program g1 g2) -> every (fits cfg) (whole (PRef 0) me) ->
  forall t v, compiles_to cfg (tutorial_program g1 g2) (whole (PRef 0) me) t (Built v)
    <-> exists sp s a z, t = sp ++ s /\ Forall space_char sp
          /\ grouped_spells (tutorial_table g1 g2) [] number_word 0 a s
          /\ arithmetic a z /\ v = VInt z.
Proof.
  intros cfg g1 g2 me HE HF t v.
  destruct (numbers_proper (tutorial_function g1) (tutorial_function g2) []) as (P & D & W).
  { intros c []. }
  rewrite <- tutorial_snd in *.
  assert (R : reads_grouped (cfg_std cfg) (tutorial_program g1 g2) number_or_brackets (tutorial_table g1 g2)).
  { intros u ps o. split; intros G; [inversion G; subst; assumption|apply g_ref; exact G]. }
  split.
  - intros C. apply (proj1 (C64_build_parser cfg _ _ HE HF t) v) in C as (rest & pe & G).
    apply whole_inv in G as (sp & s & q & -> & F & G).
    apply (C100_only _ _ (tutorial_table g1 g2) [] negate_first number_word int_token number_or_brackets) in G
      as (a & u & -> & SP & WO).
    + apply arithmetic_tutorial in WO as (z & -> & A). rewrite app_nil_r. exists sp, u, a, z. auto.
    + apply numbers_only.
    + apply only_without_signs. intros q' [].
    + exact R.
  - intros (sp & s & a & z & -> & F & SP & A & ->).
    apply (C100_compiles cfg (tutorial_program g1 g2) (tutorial_table g1 g2) [] negate_first number_word int_token
      number_or_brackets me P D (W _ _)) with (a := a); auto.
    + apply without_signs; [reflexivity|intros q []].
    + apply never_void_by.
      * intros k. destruct g1, g2; unfold tutorial_program; cbn; solids; apply reverse_solid.
      * solids.
      * intros l [<-|[<-|[]]]; [destruct g1|destruct g2]; cbn; first [apply binary_solid|apply reverse_solid].
    + exact (proj2 (tutorial_arithmetic g1 g2 0 a s SP z A)).
Qed.
Print Assumptions C100_numbers.

(** ** Examples *)

(** The conditions: the program can be compiled. *)
Example C100_case_fits : program_every (fits c11) (tutorial_program To_left To_right)
  /\ every (fits c11) (whole (PRef 0) end_of_input_expected).
Proof. split; [intros k; everywhere|everywhere]. Qed.

(** Brackets are needed on the right of a subtraction that groups to the left and on the
    left of a division that groups to the right. *)
Example C100_case_written :
  let n := fun c => FWord [c] in
  grouped_written (tutorial_table To_left To_right) 0
    (FOp 45 (FOp 45 (n 57) (n 53)) (FOp 47 (FOp 47 (n 56) (n 52)) (FOp 47 (n 50) (n 49))))
  = text "9-5-(8/4)/2/1"
  /\ grouped_written (tutorial_table To_right To_left) 0
    (FOp 45 (FOp 45 (n 57) (n 53)) (FOp 47 (FOp 47 (n 56) (n 52)) (FOp 47 (n 50) (n 49))))
  = text "(9-5)-8/4/(2/1)"
  /\ build_parser (eval c11 (tutorial_program To_left To_right) 60 (whole (PRef 0) end_of_input_expected))
       (text " 9-5 -( 8/4)/2/1") = Built (VInt 3)
  /\ build_parser (eval c11 (tutorial_program To_right To_left) 60 (whole (PRef 0) end_of_input_expected))
       (text "(9-5)-8/4/(2/1)") = Built (VInt 3)
  /\ build_parser (eval c11 (tutorial_program To_left To_right) 60 (whole (PRef 0) end_of_input_expected))
       (text "8/4/2/1") = Built (VInt 4).
Proof. repeat split; vm_compute; reflexivity. Qed.
