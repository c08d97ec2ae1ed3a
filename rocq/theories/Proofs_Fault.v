(** Proofs about where formulas go wrong. *)

From Coq Require Import ZArith List Bool Lia.
From Verif Require Import Base Util Deep Spec SpecRules SpecChoice SpecPrecedence SpecGrouping
  SpecFormula SpecGroupedFormula SpecFault Proofs_Pos Proofs_Laws Proofs_Rules Proofs_Layout Proofs_Choice
  Proofs_Precedence Proofs_Formula Proofs_Formula2 Proofs_Formula3 Proofs_Grouping Proofs_Grouping2
  Proofs_GroupedFormula Properties_Precedence.
Import ListNotations.
Open Scope Z_scope.

Section Texts.
Variable ls : list (grouping * (list char * mf2)).
Variable signs : list char.
Variable word : str -> value -> Prop.
Notation spells := (grouped_spells ls signs word).
Notation N := (length ls).

(** The text of operators and operands in turn. *)
Inductive run_text : list operation -> str -> Prop :=
| rt_none : run_text [] []
| rt_more k g cs f c o y sp b w l u : nth_error ls k = Some (g, (cs, f)) -> In c cs ->
    Forall space_char sp -> spells N b w -> run_text l u ->
    run_text ((k, o, y) :: l) (c :: sp ++ w ++ u).

Lemma run_text_app : forall l1 l2 u, run_text (l1 ++ l2) u <->
  exists u1 u2, u = u1 ++ u2 /\ run_text l1 u1 /\ run_text l2 u2.
Proof.
  induction l1 as [|i l1 IH]; intros l2 u; cbn [app]; split.
  - intros R. exists [], u. repeat split; [constructor|exact R].
  - intros (u1 & u2 & -> & R1 & R2). inversion R1; subst. exact R2.
  - intros R. inversion R; subst. match goal with X : run_text (l1 ++ l2) _ |- _ =>
      apply IH in X as (u1 & u2 & -> & R1 & R2) end.
    eexists. exists u2. split; [|split; [econstructor; eauto|exact R2]].
    cbn [app]. rewrite <- !app_assoc. reflexivity.
  - intros (u1 & u2 & -> & R1 & R2). inversion R1; subst. cbn [app]. rewrite <- !app_assoc.
    econstructor; eauto. apply IH. eauto.
Qed.

Definition pairing : mf2 := fun a b => Some (VSeq [a; b]).
Definition paired : list grouped_level :=
  map (fun l => (fst l, (char_operators (fst (snd l)), pairing))) ls.

Lemma run_formula : forall x l v, grouped_value paired x l v -> forall a0 w u k,
  spells N a0 w -> run_text l u -> (forall i, In i l -> (k <= level_of i)%nat) ->
  exists a, spells k a (w ++ u).
Proof.
  assert (SAME : forall j g op f g' cs f', nth_error paired j = Some (g, (op, f)) ->
    nth_error ls j = Some (g', (cs, f')) -> g' = g).
  { intros j g op f g' cs f' A B. unfold paired in A. rewrite nth_error_map, B in A.
    injection A as <- _ _. reflexivity. }
  intros x l v V. induction V as [x|x l1 j o y l2 g op f a b v NN Q H1 H2 A IA B IB F
    |x l1 j o y l2 op f a b v NN H1 H2 A IA B IB F]; intros a0 w u k SP R K.
  - inversion R; subst. rewrite app_nil_r. exists a0. apply gspells_any. exact SP.
  - apply run_text_app in R as (u1 & u2 & -> & R1 & R2). inversion R2; subst.
    match goal with X : nth_error ls j = Some (?g', _) |- _ => assert (E := SAME _ _ _ _ _ _ _ NN X) end.
    destruct (IA a0 w u1 j SP R1 H1) as (fa & SA).
    match goal with X : spells N ?bb ?wb, Y : run_text l2 ?ub |- context [?wb ++ ?ub] =>
      destruct (IB bb wb ub (S j) X Y H2) as (fb & SB) end.
    exists (FOp c fa fb). rewrite app_assoc. eapply gs_op; eauto.
    + apply (K (j, o, y)). apply in_app_iff. right. left. reflexivity.
    + subst. destruct g; [exact SA|exact SA|destruct (Q eq_refl)].
    + subst. destruct g; [exact SB|exact SB|destruct (Q eq_refl)].
  - apply run_text_app in R as (u1 & u2 & -> & R1 & R2). inversion R2; subst.
    match goal with X : nth_error ls j = Some (?g', _) |- _ => assert (E := SAME _ _ _ _ _ _ _ NN X) end.
    destruct (IA a0 w u1 (S j) SP R1 H1) as (fa & SA).
    match goal with X : spells N ?bb ?wb, Y : run_text l2 ?ub |- context [?wb ++ ?ub] =>
      destruct (IB bb wb ub j X Y H2) as (fb & SB) end.
    exists (FOp c fa fb). rewrite app_assoc. subst. eapply gs_op; eauto.
    apply (K (j, o, y)). apply in_app_iff. right. left. reflexivity.
Qed.

Lemma run_levels : forall l u, run_text l u -> forall i, In i l -> (level_of i < N)%nat.
Proof.
  intros l u R. induction R; intros i I; [destruct I|]. destruct I as [<-|I]; [|auto].
  unfold level_of. cbn. apply nth_error_Some. congruence.
Qed.

Lemma run_is_formula : forall l u a0 w, spells N a0 w -> run_text l u -> exists a, spells 0 a (w ++ u).
Proof.
  intros l u a0 w S R. destruct (gvalue_total paired) with (l := l) (x := VVoid) as (v & V).
  - intros g op f I a b. unfold paired in I. apply in_map_iff in I as (m & E & _).
    injection E as _ _ <-. eexists. reflexivity.
  - intros i I. unfold paired. rewrite map_length. exact (run_levels l u R i I).
  - eapply run_formula; eauto. intros i _. apply Nat.le_0_l.
Qed.

(** Beginnings. *)
Notation begins := (begins_formula ls signs word).

Lemma begins_run : forall l u a0 w k g cs f c sp u', spells N a0 w -> run_text l u ->
  nth_error ls k = Some (g, (cs, f)) -> In c cs -> Forall space_char sp -> begins N u' ->
  begins 0%nat (w ++ u ++ c :: sp ++ u').
Proof.
  intros l u a0 w k g cs f c sp u' S R NN I F (b & t & B).
  destruct (run_is_formula (l ++ [(k, VVoid, VVoid)]) (u ++ c :: sp ++ (u' ++ t) ++ []) a0 w S) as (a & A).
  - apply run_text_app. do 2 eexists. split; [reflexivity|]. split; [exact R|].
    econstructor; eauto. constructor.
  - exists a, t. repeat (rewrite <- app_assoc in *; cbn [app] in * ). rewrite app_nil_r in A. exact A.
Qed.
Lemma begins_operand : forall k u, begins N u -> begins k u.
Proof. intros k u (a & t & S). exists a, t. apply gspells_any. exact S. Qed.
Lemma begins_sign : forall c sp u, In c signs -> Forall space_char sp -> begins N u -> begins N (c :: sp ++ u).
Proof.
  intros c sp u I F (a & t & S). exists (FSign c a), t. cbn [app]. rewrite <- app_assoc. apply gs_sign; auto.
Qed.
Lemma begins_bracket : forall sp u, Forall space_char sp -> begins 0 u -> begins N (40 :: sp ++ u).
Proof.
  intros sp u F (a & t & S). exists a, (t ++ [41]). cbn [app].
  replace ((sp ++ u) ++ t ++ [41]) with (sp ++ (u ++ t) ++ 41 :: []) by (rewrite <- !app_assoc; reflexivity).
  apply gs_brackets; auto.
Qed.
Lemma begins_nothing : (exists w v, word w v) -> forall k, begins k [].
Proof.
  intros (w & v & H) k. exists (FWord w), (w ++ []). cbn [app]. eapply gs_word; [exact H|constructor].
Qed.
End Texts.

Section Fault.
Variable sd : std.
Variable env : program.
Notation gives := (gives sd env).
Variable ls : list (grouping * (list char * mf2)).
Variable signs : list char.
Variable sign : mf2.
Variable word : str -> value -> Prop.
Variable p : pexpr.
Variable operand : pexpr.
Notation levels := (map char_level (map snd ls)).
Notation glevels := (map grouped_char_level ls).
Notation reads := (reads_operations sd env operand levels).
Notation begins := (begins_formula ls signs word).
Hypothesis SOME : exists w v, word w v.
Hypothesis W : only_words word sd env p.
Hypothesis GU : gives_up_at_once sd env p.
Hypothesis OP : plain_operands signs sign sd env p operand.
Hypothesis OUT : forall s ps v s' ps', gives (PRef 0) s ps (Accept v s' ps') ->
  exists x s1 ps1 l, gives operand s ps (Accept x s1 ps1) /\ reads s1 ps1 l s' ps'
    /\ grouped_value glevels x l v.
Hypothesis FAIL : forall s ps m pe, gives (PRef 0) s ps (Reject m pe) ->
  operand_missing sd env operand levels s ps m pe.
Hypothesis MO : moves_on sd env operand.
Hypothesis MR : moves_on sd env (PRef 0).
Variable after : str -> Prop.
Hypothesis AFTER : forall s ps v s' ps', gives (PRef 0) s ps (Accept v s' ps') -> after s'.

Lemma plain_only : only_operands signs sign sd env p operand.
Proof.
  destruct OP as [more _ M|q more C _ _ M]; constructor; auto; intros q' I; apply M; exact I.
Qed.

Lemma operand_text : forall s ps x s1 ps1, gives operand s ps (Accept x s1 ps1) ->
  exists a u, s = u ++ s1 /\ ps1 = adv ps u /\ grouped_spells ls signs word (length ls) a u.
Proof.
  intros s ps x s1 ps1 G. destruct (MO _ _ _ _ _ G) as (u & -> & M). apply walk_iff in M.
  destruct (goperand_formula sd env ls signs sign word p operand W plain_only OUT _ _ _ _ _ _ (Nat.lt_succ_diag_r _) G)
    as (a & u' & E & S & _).
  apply app_inv_tail in E. subst u'. exists a, u. auto.
Qed.

Lemma reads_text : forall s ps l s' ps', reads s ps l s' ps' ->
  exists u, s = u ++ s' /\ ps' = adv ps u /\ run_text ls signs word l u.
Proof.
  intros s ps l s' ps' R. induction R as [s ps|s ps k op f o s1 ps1 x s2 ps2 l s3 ps3 N G X R IH].
  - exists []. repeat split. constructor.
  - destruct IH as (u & -> & -> & RT).
    destruct (operand_text _ _ _ _ _ X) as (b & w & -> & -> & S).
    rewrite map_map, nth_error_map in N. destruct (nth_error ls k) as [(g & cs & h)|] eqn:NL; [|discriminate N].
    injection N as <- <-. destruct (operators_only sd env _ _ _ _ _ _ G) as (c & sp & I & E & F & ->).
    destruct (operators_inv _ _ _ _ _ _ G) as [(c' & sp' & t & _ & E' & Q)|(m & Q)]; [|discriminate Q].
    injection Q as <- <- ->. subst s. injection E' as E'. apply app_inv_tail in E'. subst sp'.
    exists (c :: sp ++ w ++ u). split; [|split].
    + cbn [app]. rewrite <- !app_assoc. reflexivity.
    + change (c :: sp ++ w ++ u) with ((c :: sp) ++ w ++ u). rewrite !adv_app. reflexivity.
    + econstructor; eauto.
Qed.

Definition stuck (u r : str) (pe : pos) : Prop :=
  (operand_wanted ls signs u /\ no_operand sd env p signs r pe) \/ (unclosed ls signs word u r /\ after r).
Definition opening (c : char) : Prop := c = 40 \/ In c signs \/ exists g cs f, In (g, (cs, f)) ls /\ In c cs.
Definition fault_at (k : nat) (s : str) (ps pe : pos) : Prop :=
  exists u r, s = u ++ r /\ pe = adv ps u /\ begins k u /\ stuck u r pe.

Lemma stuck_after : forall x c sp u r pe, opening c -> Forall space_char sp -> stuck u r pe ->
  stuck (x ++ c :: sp ++ u) r pe.
Proof.
  intros x c sp u r pe O F [([->|(u0 & d & sd' & -> & FD & OD)] & NO)|((u0 & sp0 & a & w & -> & F0 & S & N) & AF)].
  - left. split; [|exact NO]. right. exists x, c, sp. rewrite app_nil_r. auto.
  - left. split; [|exact NO]. right. exists (x ++ c :: sp ++ u0), d, sd'.
    repeat (rewrite <- app_assoc; cbn [app]). auto.
  - right. split; [|exact AF]. exists (x ++ c :: sp ++ u0), sp0, a, w. repeat (rewrite <- app_assoc; cbn [app]). auto.
Qed.

Lemma fault_here : forall k s ps, no_operand sd env p signs s ps -> fault_at k s ps ps.
Proof.
  intros k s ps N. exists [], s. repeat split; [apply begins_nothing; exact SOME|].
  left. split; [left; reflexivity|exact N].
Qed.

Section Step.
Variable n : nat.
Hypothesis IH : forall s ps m pe, (length s < n)%nat -> gives (PRef 0) s ps (Reject m pe) -> fault_at 0 s ps pe.

Lemma bracket_fault : forall s ps m pe, (length s < S n)%nat ->
  gives (PMiddleOf (PToken (PLitC 40)) (PRef 0) (PToken (PLitC 41))) s ps (Reject m pe) ->
  (pe = ps /\ forall t, s <> 40 :: t) \/ (pos_lt ps pe /\ fault_at (length ls) s ps pe).
Proof.
  intros s ps m pe L GQ. inversion GQ; subst.
  - match goal with X : breaks_off _ _ [_; _] _ _ _ _ |- _ => inversion X; subst end.
    + match goal with X : gives (PToken _) _ _ (Reject _ _) |- _ =>
        apply token_inv in X as [(? & ? & _ & X)|(N & ? & X)]; [discriminate X|injection X as _ ->] end.
      left. auto.
    + match goal with X : gives (PToken _) _ _ (Accept _ _ _) |- _ =>
        destruct (token_only sd env _ _ _ _ _ _ X) as (c & sp & [<-|[]] & E & F & _);
        apply token_inv in X as [(sp' & t & E' & X)|(_ & ? & X)]; [|discriminate X] end.
      match goal with X : Accept _ _ _ = Accept _ _ _ |- _ => injection X as _ -> -> end.
      rewrite E in E'. injection E' as E'. apply app_inv_tail in E'. subst sp'. subst s.
      match goal with X : breaks_off _ _ [_] _ _ _ _ |- _ => inversion X; subst end;
        [|match goal with X : breaks_off _ _ [] _ _ _ _ |- _ => inversion X end].
      match goal with X : gives (PRef 0) ?t _ (Reject _ _) |- _ =>
        destruct (IH t _ _ _ ltac:(cbn in L; rewrite app_length in L; lia) X) as (u & r' & -> & -> & B & ST) end.
      rewrite <- adv_app in *. right. split; [apply (adv_lt (40 :: sp ++ u)); discriminate|].
      exists (40 :: sp ++ u), r'. split; [cbn [app]; rewrite <- app_assoc; reflexivity|].
      split; [reflexivity|]. split; [apply begins_bracket; assumption|].
      apply (stuck_after [] 40 sp u); auto. left. reflexivity.
  - match goal with X : in_turn _ _ [_; _] _ _ _ _ _ |- _ => apply pair_turn in X as (x1 & x2 & sa & pa & A & B & _) end.
    destruct (token_only sd env _ _ _ _ _ _ A) as (c & sp & [<-|[]] & E & F & _).
    apply token_inv in A as [(sp' & t & E' & X)|(_ & ? & X)]; [|discriminate X].
    injection X as _ -> ->. rewrite E in E'. injection E' as E'. apply app_inv_tail in E'. subst sp'. subst s.
    destruct (MR _ _ _ _ _ B) as (u & -> & WK). apply walk_iff in WK. subst.
    destruct (gonly_formulas sd env ls signs sign word p operand W plain_only OUT _ _ _ _ _ B) as (a & u' & E & S & _).
    apply app_inv_tail in E. subst u'.
    match goal with X : gives (PToken _) _ _ (Reject _ _) |- _ =>
      apply token_inv in X as [(? & ? & _ & X)|(N & ? & X)]; [discriminate X|injection X as _ ->] end.
    rewrite <- adv_app in *. right. split; [apply (adv_lt (40 :: sp ++ u)); discriminate|].
    eexists (40 :: sp ++ u), _. split; [cbn [app]; rewrite <- app_assoc; reflexivity|].
    split; [reflexivity|]. split.
    + apply begins_bracket; [exact F|]. exists a, []. rewrite app_nil_r. exact S.
    + right. split; [exists [], sp, a, u; auto|exact (AFTER _ _ _ _ _ B)].
Qed.

Lemma primary_fault : forall more,
  (forall q, In q more -> accepts_nothing sd env q /\ gives_up_at_once sd env q) ->
  forall s ps m pe, (length s < S n)%nat -> (forall c t, s = c :: t -> ~ In c signs) ->
  gives (word_or_brackets p more) s ps (Reject m pe) -> fault_at (length ls) s ps pe.
Proof.
  intros more M s ps m pe L NS G. inversion G; subst.
  { match goal with X : first_accept _ (Reject _ _) |- _ => destruct X as ((? & ? & ? & X) & _); discriminate X end. }
  assert (HE : exists m0 m2 pe2, gives p s ps (Reject m0 ps)
    /\ gives (PMiddleOf (PToken (PLitC 40)) (PRef 0) (PToken (PLitC 41))) s ps (Reject m2 pe2)
    /\ In (m2, pe2) es).
  { match goal with X : rejections ?os ?es, E : each _ _ _ _ _ ?os |- _ =>
      rewrite X in E; inversion E; subst end.
    destruct es as [|(m0 & p0) [|(m2 & p2) es]]; try discriminate.
    + match goal with X : each _ _ (PMiddleOf _ _ _ :: _) _ _ _ |- _ => inversion X; subst end. discriminate.
    + match goal with X : each _ _ (PMiddleOf _ _ _ :: _) _ _ _ |- _ => inversion X; subst end.
      cbn [map] in *. repeat match goal with X : _ :: _ = _ :: _ |- _ => injection X as ? ?; subst end.
      exists m0, m2, p2. match goal with X : gives p _ _ (Reject _ _) |- _ => pose proof (GU _ _ _ _ X); subst end.
      split; [assumption|]. split; [assumption|]. right. left. reflexivity. }
  destruct HE as (m0 & m2 & pe2 & G0 & G2 & I2).
  assert (HERE : (forall t, s <> 40 :: t) -> fault_at (length ls) s ps ps).
  { intros N. apply fault_here. split; [eauto|]. intros c t ->. split; [intros ->; exact (N t eq_refl)|].
    exact (NS c t eq_refl). }
  match goal with X : choice_error _ _ _ _ |- _ => apply choice_position in X as (_ & LE & Q) end.
  specialize (LE _ I2). cbn [snd] in LE.
  assert (AT : pe = ps -> fault_at (length ls) s ps pe).
  { intros ->. destruct (bracket_fault _ _ _ _ L G2) as [(_ & N)|(LT & _)]; [exact (HERE N)|].
    exfalso. unfold pos_le, pos_lt in *. destruct LE as [LE| ->]; lia. }
  destruct Q as [Q|((m1 & pe1) & I & Q)]; [exact (AT Q)|].
  cbn in Q. subst pe1.
  match goal with X : rejections ?os ?es, E : each _ _ _ _ _ ?os |- _ =>
    assert (J : In (Reject m1 pe) os) by (rewrite X; apply in_map_iff; exists (m1, pe); auto);
    destruct (each_member sd env _ _ _ _ _ E J) as (q & K & GQ) end.
  destruct K as [<-|[<-|K]].
  - apply AT. exact (GU _ _ _ _ GQ).
  - destruct (bracket_fault _ _ _ _ L GQ) as [(-> & N)|(_ & X)]; [exact (HERE N)|exact X].
  - apply AT. exact (proj2 (M q K) _ _ _ _ GQ).
Qed.

Lemma operand_fault : forall s ps m pe, (length s < S n)%nat -> gives operand s ps (Reject m pe) ->
  fault_at (length ls) s ps pe.
Proof.
  intros s ps m pe L G. pose proof primary_fault as PF.
  destruct OP as [more SI M|q more C NR MQ M].
  { apply (PF more M s ps m pe L); [|exact G]. rewrite SI. intros c t _ []. }
  inversion G; subst.
  match goal with X : many _ _ q _ _ _ _ _, Z : gives q _ _ (Reject _ _),
    Y : gives (word_or_brackets _ _) _ _ (Reject _ _) |- _ => revert X Y; apply NR in Z; revert Z end.
  clear - PF C MQ M L. match goal with |- _ -> many _ _ _ _ _ ?r ?t ?pt -> _ -> _ =>
    generalize t, pt; generalize r end.
  intros qs. revert s ps L. induction qs as [|r0 qs IHr]; intros s ps L t pt NS MA G.
  - inversion MA; subst. exact (PF more M _ _ _ _ L NS G).
  - inversion MA; subst.
    match goal with X : gives q _ _ _ |- _ => destruct (MQ _ _ _ _ _ X) as (u0 & E0 & WK); apply walk_iff in WK;
      apply C in X as (c & sp & I & -> & F & ->) end.
    rewrite app_comm_cons in E0. apply app_inv_tail in E0. subst u0.
    match goal with X : many _ _ q ?s2 _ qs _ _ |- _ =>
      destruct (IHr s2 _ ltac:(cbn in L; rewrite app_length in L; lia) _ _ NS X G) as (u & r & -> & -> & B & ST) end.
    exists (c :: sp ++ u), r. split; [cbn [app]; rewrite <- app_assoc; reflexivity|].
    subst. rewrite <- adv_app in *. split; [reflexivity|]. split; [apply begins_sign; assumption|].
    apply (stuck_after [] c sp u); auto. right. left. assumption.
Qed.
End Step.

Lemma formula_fault : forall n s ps m pe, (length s < n)%nat -> gives (PRef 0) s ps (Reject m pe) ->
  fault_at 0 s ps pe.
Proof.
  induction n as [|n IH]; intros s ps m pe L G; [lia|].
  apply FAIL in G as [G|(x & s1 & ps1 & l & s2 & ps2 & op & f & o & s3 & ps3 & X & R & I & O & G)].
  - destruct (operand_fault n IH s ps m pe L G) as (u & r & E & Q & B & ST). exists u, r.
    split; [exact E|]. split; [exact Q|]. split; [apply begins_operand; exact B|exact ST].
  - destruct (operand_text _ _ _ _ _ X) as (a0 & w & -> & -> & S).
    destruct (reads_text _ _ _ _ _ R) as (u & -> & -> & RT).
    rewrite map_map in I. apply in_map_iff in I as ((g & cs & h) & E & I). injection E as <- <-.
    apply In_nth_error in I as (k & NL).
    destruct (operators_only sd env _ _ _ _ _ _ O) as (c & sp & J & E & F & ->).
    destruct (operators_inv _ _ _ _ _ _ O) as [(c' & sp' & t & _ & E' & Q)|(m' & Q)]; [|discriminate Q].
    injection Q as <- <- ->. subst s2. injection E' as E'. apply app_inv_tail in E'. subst sp'.
    rewrite !app_length in L. cbn [length] in L. rewrite app_length in L.
    destruct (operand_fault n IH s3 _ m pe ltac:(lia) G) as (u' & r & -> & -> & B & ST).
    exists (w ++ u ++ c :: sp ++ u'), r. split; [|split; [|split]].
    + rewrite <- !app_assoc. cbn [app]. rewrite <- !app_assoc. reflexivity.
    + change (c :: sp ++ u') with ((c :: sp) ++ u'). rewrite !adv_app. reflexivity.
    + eapply begins_run; eauto.
    + rewrite app_assoc. apply stuck_after; auto. right. right. apply nth_error_In in NL. eauto 6.
Qed.
End Fault.
