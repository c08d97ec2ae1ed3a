(** The model of the library and the rules of SpecRules.v agree. *)

From Coq Require Import ZArith List Bool Lia Arith.
From Verif Require Import Base Util Combinators Variadic Parsers Deep Spec SpecDeep
  SpecRules Proofs_Pos Proofs_Fold Proofs_Variadic Proofs_Parsers Proofs_Parsers2
  Proofs_Deep Proofs_Final3.
Import ListNotations.
Open Scope Z_scope.

Definition settled (o : outcome) : Prop := is_accept o \/ is_reject o.
Lemma settled_accept : forall r s ps, settled (Accept r s ps).
Proof. left. do 3 eexists; reflexivity. Qed.
Lemma settled_reject : forall m ps, settled (Reject m ps).
Proof. right. do 2 eexists; reflexivity. Qed.
#[local] Hint Resolve settled_accept settled_reject : core.

Lemma settled_cases : forall o, settled o ->
  (exists r s ps, o = Accept r s ps) \/ (exists m ps, o = Reject m ps).
Proof. intros o [H|H]; auto. Qed.

Lemma gives_settled : forall sd env e s ps o, gives sd env e s ps o -> settled o.
Proof.
  induction 1; auto.
  destruct H0 as (A & _). left; auto.
Qed.

Scheme gives_mind := Minimality for gives Sort Prop
  with many_mind := Minimality for many Sort Prop
  with in_turn_mind := Minimality for in_turn Sort Prop
  with breaks_off_mind := Minimality for breaks_off Sort Prop
  with each_mind := Minimality for each Sort Prop.
Combined Scheme rules_mind from gives_mind, many_mind, in_turn_mind, breaks_off_mind, each_mind.

(** ** Facts about single combinators *)

Lemma iterate_impl_cases : forall n k p acc s ps,
  (forall v s' ps', iterate_impl n k p (VSeq acc) s ps = Accept v s' ps' ->
     exists rs, v = VSeq (acc ++ rs) /\ runs p s ps rs s' ps' /\ Z.of_nat (length rs) = k)
  /\ (forall m pe, iterate_impl n k p (VSeq acc) s ps = Reject m pe ->
     exists rs s1 ps1, runs p s ps rs s1 ps1 /\ p s1 ps1 = Reject m pe
       /\ (k < 0 \/ Z.of_nat (length rs) < k)).
Proof.
  induction n as [|n IH]; intros k p acc s ps; cbn [iterate_impl]; [split; discriminate|].
  destruct (k =? 0) eqn:K.
  - unfold return_. split; [|discriminate]. intros v s' ps' E. injection E as <- <- <-.
    exists []. rewrite app_nil_r. splits; auto; [constructor|cbn; lia].
  - destruct (p s ps) as [r s1 ps1|m1 p1| |] eqn:E; try (split; discriminate).
    + cbn. destruct (IH (k - 1) p (acc ++ [r]) s1 ps1) as (A & B). split.
      * intros v s' ps' X. apply A in X as (rs & -> & R & L). exists (r :: rs).
        rewrite <- app_assoc. splits; auto; [econstructor; eauto|cbn [length]; lia].
      * intros m pe X. apply B in X as (rs & s2 & ps2 & R & Y & L).
        exists (r :: rs), s2, ps2. splits; auto; [econstructor; eauto|cbn [length]; lia].
    + split; [discriminate|]. intros m pe X. injection X as <- <-.
      exists [], s, ps. splits; auto; [constructor|cbn [length]; lia].
Qed.

Lemma iterate_accept_back : forall n p s ps rs s' ps', runs p s ps rs s' ps' ->
  (length rs < n)%nat ->
  iterate_c n p (Z.of_nat (length rs)) s ps = Accept (VSeq rs) s' ps'.
Proof. intros. apply iterate_c_accept; auto. eauto. Qed.

Lemma iterate_reject_back : forall n p k s ps rs s' ps' m pe, runs p s ps rs s' ps' ->
  (length rs < n)%nat -> (Z.to_nat k < n)%nat -> (k < 0 \/ Z.of_nat (length rs) < k) ->
  p s' ps' = Reject m pe -> iterate_c n p k s ps = Reject m pe.
Proof.
  intros n p k s ps rs s' ps' m pe R L L2 K E. destruct (Z_lt_ge_dec k 0).
  - apply (iterate_negative n k p s ps); auto. exists rs, s', ps'. auto.
  - replace k with (Z.of_nat (Z.to_nat k)) by lia. apply iterate_c_reject; auto.
    exists rs, s', ps'. splits; auto. lia.
Qed.

Lemma fafce_accept : forall p s ps r s' ps',
  fail_at_first_char_expected p s ps = Accept r s' ps' <->
  r = VVoid_ /\ s' = s /\ ps' = ps /\ exists m, p s ps = Reject m ps.
Proof.
  intros p s ps r s' ps'. unfold fail_at_first_char_expected.
  destruct (p s ps) as [a b c|m pe| |].
  - split; [discriminate|]. intros (_ & _ & _ & m & E). discriminate.
  - destruct (pos_equal_to ps pe) eqn:Q.
    + apply pos_equal_to_iff in Q as <-. split.
      * intros E. injection E as <- <- <-. splits; eauto.
      * intros (-> & -> & -> & _). reflexivity.
    + split; [discriminate|]. intros (_ & _ & _ & m' & E). injection E as <- ->.
      assert (X : pos_equal_to ps ps = true) by (apply pos_equal_to_iff; auto). congruence.
  - split; [discriminate|]. intros (_ & _ & _ & m & E). discriminate.
  - split; [discriminate|]. intros (_ & _ & _ & m & E). discriminate.
Qed.

Lemma fafce_reject : forall p s ps m pe,
  fail_at_first_char_expected p s ps = Reject m pe <->
  (p s ps = Reject m pe /\ pe <> ps)
  \/ (m = expected_to_fail /\ pe = ps /\ exists r s' ps', p s ps = Accept r s' ps').
Proof.
  intros p s ps m pe. unfold fail_at_first_char_expected.
  destruct (p s ps) as [a b c|m1 p1| |].
  - split.
    + intros E. injection E as <- <-. right. splits; eauto.
    + intros [(E & _)|(-> & -> & _)]; [discriminate|reflexivity].
  - destruct (pos_equal_to ps p1) eqn:Q.
    + apply pos_equal_to_iff in Q as <-. split; [discriminate|].
      intros [(E & N)|(_ & _ & a & b & c & E)]; [|discriminate].
      injection E as <- <-. congruence.
    + split.
      * intros E. injection E as <- <-. left. split; auto. intros ->.
        assert (X : pos_equal_to ps ps = true) by (apply pos_equal_to_iff; auto). congruence.
      * intros [(E & N)|(_ & _ & a & b & c & E)]; [auto|discriminate].
  - split; [discriminate|]. intros [(E & _)|(_ & _ & a & b & c & E)]; discriminate.
  - split; [discriminate|]. intros [(E & _)|(_ & _ & a & b & c & E)]; discriminate.
Qed.

Section FoldrRi.
Variable cfg : config.
Hypothesis F2 : fits_sequence cfg 2.

Lemma ri_start : forall p st s ps,
  first_of cfg [return_ st; fail_at_first_char_expected p] s ps =
  match fail_at_first_char_expected p s ps with
  | Accept _ s2 ps2 => Accept st s2 ps2
  | o => o
  end.
Proof. intros. rewrite first_of_2 by exact F2. reflexivity. Qed.

Lemma foldr_ri_accept : forall n p st f s ps v s' ps',
  foldr_reject_incomplete cfg n p st f s ps = Accept v s' ps' <->
  exists rs m, (length rs < n)%nat /\ runs p s ps rs s' ps'
    /\ p s' ps' = Reject m ps' /\ rfold f rs st = Some v.
Proof.
  intros n p st f s ps v s' ps'. unfold foldr_reject_incomplete.
  rewrite foldr_swp_accept. split.
  - intros (rs & s1 & ps1 & m & pe & v0 & L & R & E & Q & V).
    rewrite ri_start in Q.
    destruct (fail_at_first_char_expected p s1 ps1) eqn:X; try discriminate.
    injection Q as <- -> ->. apply fafce_accept in X as (_ & -> & -> & m' & X).
    exists rs, m'. splits; auto.
  - intros (rs & m & L & R & E & V). exists rs, s', ps', m, ps', st. splits; auto.
    rewrite ri_start.
    assert (X : fail_at_first_char_expected p s' ps' = Accept VVoid_ s' ps').
    { apply fafce_accept. splits; eauto. }
    rewrite X. reflexivity.
Qed.

Lemma foldr_ri_reject : forall n p st f s ps m pe,
  foldr_reject_incomplete cfg n p st f s ps = Reject m pe <->
  exists rs s1 ps1, (length rs < n)%nat /\ runs p s ps rs s1 ps1
    /\ p s1 ps1 = Reject m pe /\ pe <> ps1.
Proof.
  intros n p st f s ps m pe. unfold foldr_reject_incomplete.
  rewrite foldr_swp_reject. split.
  - intros (rs & s1 & ps1 & m0 & pe0 & L & R & E & Q).
    rewrite ri_start in Q.
    destruct (fail_at_first_char_expected p s1 ps1) eqn:X; try discriminate.
    injection Q as -> ->. apply fafce_reject in X as [(X & N)|(_ & _ & a & b & c & X)].
    + exists rs, s1, ps1. splits; auto.
    + congruence.
  - intros (rs & s1 & ps1 & L & R & E & N). exists rs, s1, ps1, m, pe. splits; auto.
    rewrite ri_start.
    assert (X : fail_at_first_char_expected p s1 ps1 = Reject m pe).
    { apply fafce_reject. left; auto. }
    rewrite X. reflexivity.
Qed.
End FoldrRi.

(** Restricting a fold to at least one element. *)
Definition guard (p q : pfun) : pfun := fun s ps =>
  match p s ps with Accept _ _ _ => q s ps | o => o end.

Lemma guard_accept : forall p q s ps v s' ps', guard p q s ps = Accept v s' ps' <->
  (exists r s1 ps1, p s ps = Accept r s1 ps1) /\ q s ps = Accept v s' ps'.
Proof.
  intros. unfold guard. destruct (p s ps).
  - split; [|tauto]. intros H; split; eauto.
  - split; [discriminate|]. intros ((a & b & c & E) & _). discriminate.
  - split; [discriminate|]. intros ((a & b & c & E) & _). discriminate.
  - split; [discriminate|]. intros ((a & b & c & E) & _). discriminate.
Qed.

Lemma guard_reject : forall p q s ps m pe, guard p q s ps = Reject m pe <->
  p s ps = Reject m pe
  \/ (exists r s1 ps1, p s ps = Accept r s1 ps1) /\ q s ps = Reject m pe.
Proof.
  intros. unfold guard. destruct (p s ps).
  - split; [|intros [E|(_ & E)]; [discriminate|auto]]. intros H; right; split; eauto.
  - split; [auto|]. intros [E|((a & b & c & E) & _)]; [auto|discriminate].
  - split; [discriminate|]. intros [E|((a & b & c & E) & _)]; discriminate.
  - split; [discriminate|]. intros [E|((a & b & c & E) & _)]; discriminate.
Qed.

Lemma one_of_c_cases : forall cfg cs s ps, fits_one_of_c cfg (length cs) ->
  (exists c s', s = c :: s' /\ In c cs
     /\ one_of_c cfg cs s ps = Accept (VChar c) s' (next_pos c ps))
  \/ (not_starting_with (fun c => In c cs) s
     /\ one_of_c cfg cs s ps = Reject (one_of_c_error (cfg_std cfg) cs s) ps).
Proof.
  intros cfg cs s ps F. unfold one_of_c, one_of_c_error, fits_one_of_c in *.
  assert (G : forall m1 m2 p, char_class_parser (fun d => In d cs) m1 m2 p ->
    (exists c s', s = c :: s' /\ In c cs /\ p s ps = Accept (VChar c) s' (next_pos c ps))
    \/ (not_starting_with (fun c => In c cs) s
        /\ p s ps = Reject (match s with [] => m1 | _ => m2 end) ps)).
  { intros m1 m2 p (A & B & C). destruct s as [|c s].
    - right. split; [exact Logic.I|apply C].
    - destruct (in_dec Z.eq_dec c cs) as [I|I].
      + left. exists c, s. splits; auto. apply A; auto. apply walk1. reflexivity.
      + right. split; [exact I|]. apply B; auto. }
  destruct (cfg_std cfg).
  - specialize (F eq_refl). unfold one_of_c_98, one_of_98.
    assert (L1 : Nat.ltb (length cs) (limit_one_of cfg) = true) by (apply Nat.ltb_lt; auto).
    assert (L2 : Nat.leb (length (map lit_c cs)) (limit_one_of cfg) = true).
    { apply Nat.leb_le. rewrite map_length. lia. }
    rewrite L1, L2. destruct (G _ _ _ (one_of_98_lits_class cs)) as [H|(H & E)]; [left; exact H|].
    right. split; auto. rewrite E. destruct s; reflexivity.
  - apply G, one_of_c_11_class.
  - apply G, one_of_c_14_class.
Qed.

Lemma one_char_except_cases : forall cfg cs s ps, fits_one_char_except cfg (length cs) ->
  (exists c s', s = c :: s' /\ ~ In c cs
     /\ one_char_except_c cfg cs s ps = Accept (VChar c) s' (next_pos c ps))
  \/ (exists c s', s = c :: s' /\ In c cs
     /\ one_char_except_c cfg cs s ps = Reject unexpected_character ps)
  \/ (s = [] /\ one_char_except_c cfg cs s ps = Reject unexpected_end_of_input ps).
Proof.
  intros cfg cs s ps F. destruct (one_char_except_c_class cfg cs F) as (A & B & C).
  destruct s as [|c s]; [right; right; auto|].
  destruct (in_dec Z.eq_dec c cs) as [I|I].
  - right; left. exists c, s. splits; auto.
  - left. exists c, s. splits; auto. apply A; auto. apply walk1; reflexivity.
Qed.

(** One level of [eval]. *)
Definition step (cfg : config) (env : program) (n : nat) (ev : pexpr -> pfun)
  (e : pexpr) : pfun :=
    match e with
    | PNative p => p
    | PRef k =>
        match n with
        | O => fun _ _ => OutOfFuel
        | S n' => fun s ps => eval cfg env n' (env k) s ps
        end
    | PReturn v => return_ v
    | PFail m => fail m
    | POneChar => one_char
    | PEmpty r => empty r
    | PAcceptWhen p pr m => accept_when (ev p) pr m
    | PChangeErrorMessage p m => change_error_message (ev p) m
    | PTransform p f => transform (ev p) f
    | PTransformError p f => transform_error (ev p) f
    | PTransformErrorMessage p f => transform_error_message (ev p) f
    | PAlways p v => always (ev p) v
    | PLookAhead p => look_ahead (ev p)
    | POptional p d => optional (ev p) d
    | PExcept p v m => except (ev p) v m
    | PIf p t f => if_ (ev p) t f
    | PFailAtFirstCharExpected p => fail_at_first_char_expected (ev p)
    | PKeyword kw r => keyword kw r
    | PFoldl p st f => foldl n (ev p) st f
    | PFoldl1 p st f => foldl1 n (ev p) st f
    | PFoldlRejectIncomplete p st f => foldl_reject_incomplete n (ev p) st f
    | PFoldlRejectIncomplete1 p st f => foldl_reject_incomplete1 n (ev p) st f
    | PFoldlStartWithParser p sp f => foldl_start_with_parser n (ev p) (ev sp) f
    | PFoldlRejectIncompleteStartWithParser p sp f =>
        foldl_reject_incomplete_start_with_parser n (ev p) (ev sp) f
    | PFoldrStartWithParser p sp f => foldr_start_with_parser n (ev p) (ev sp) f
    | PFoldr p st f => foldr n (ev p) st f
    | PFoldr1 p st f => foldr1 n (ev p) st f
    | PFoldrRejectIncomplete p st f => foldr_reject_incomplete cfg n (ev p) st f
    | PFoldrRejectIncomplete1 p st f => foldr_reject_incomplete1 cfg n (ev p) st f
    | PIterate p k => iterate_c n (ev p) k
    | POneOf l => one_of cfg (map ev l)
    | PSequence l => sequence cfg (map ev l)
    | PSequenceApply t l => sequence_apply cfg t (map ev l)
    | PNthOf k l => nth_of_c cfg k (map ev l)
    | PFirstOf l => first_of cfg (map ev l)
    | PLastOf l => last_of cfg (map ev l)
    | POneOfC cs => one_of_c cfg cs
    | POneCharExceptC cs => one_char_except_c cfg cs
    | PMiddleOf p1 p2 p3 => middle_of cfg (ev p1) (ev p2) (ev p3)
    | PEntireInput p m => entire_input cfg (ev p) m
    end.

Lemma eval_unfold : forall cfg env n e,
  eval cfg env n e = step cfg env n (eval cfg env n) e.
Proof. intros cfg env [|n] []; reflexivity. Qed.

(** ** From the model to the rules *)

Section Model_to_rules.
Variable cfg : config.
Variable env : program.
Hypothesis HE : program_every (fits cfg) env.
Notation G := (gives (cfg_std cfg) env).
Notation ev := (eval cfg env).

Definition covered (n : nat) (p : pexpr) : Prop :=
  forall s ps o, settled o -> ev n p s ps = o -> G p s ps o.

Lemma runs_many : forall n p rs s ps s' ps', covered n p ->
  runs (ev n p) s ps rs s' ps' -> many (cfg_std cfg) env p s ps rs s' ps'.
Proof.
  intros n p rs s ps s' ps' C R. induction R; [constructor|].
  econstructor; [apply C; eauto|auto].
Qed.

Lemma in_row_in_turn : forall n l, (forall p, In p l -> covered n p) ->
  forall rs s ps s' ps', in_row (map (ev n) l) s ps rs s' ps' ->
  in_turn (cfg_std cfg) env l s ps rs s' ps'.
Proof.
  induction l as [|p l IH]; intros C rs s ps s' ps' R; cbn [map] in R.
  - inversion R; subst. constructor.
  - apply in_row_cons_inv in R as (r & rs' & s1 & ps1 & -> & E & R).
    econstructor.
    + apply (C p (or_introl eq_refl)); eauto.
    + apply IH; auto. intros q Q. apply C. right; auto.
Qed.

Lemma first_failure_cons : forall p l s ps o, not_accept o ->
  first_failure (p :: l) s ps o ->
  p s ps = o \/ exists r s1 ps1, p s ps = Accept r s1 ps1 /\ first_failure l s1 ps1 o.
Proof.
  intros p l s ps o N (l1 & q & l2 & rs & s1 & ps1 & E & R & X). destruct l1 as [|p1 l1].
  - injection E as <- <-. inversion R; subst. left. exact eq_refl.
  - injection E as <- ->. apply in_row_cons_inv in R as (r & rs' & s2 & ps2 & -> & Y & R).
    right. exists r, s2, ps2. split; auto. exists l1, q, l2, rs', s1, ps1. splits; auto.
Qed.

Lemma first_failure_breaks : forall n l, (forall p, In p l -> covered n p) ->
  forall s ps m pe, first_failure (map (ev n) l) s ps (Reject m pe) ->
  breaks_off (cfg_std cfg) env l s ps m pe.
Proof.
  induction l as [|p l IH]; intros C s ps m pe F; cbn [map] in F.
  - destruct F as (l1 & q & l2 & rs & s1 & ps1 & E & _). destruct l1; discriminate.
  - apply first_failure_cons in F as [E|(r & s1 & ps1 & E & F)]; [| |exact Logic.I].
    + apply breaks_off_here. apply (C p (or_introl eq_refl)); auto.
    + eapply breaks_off_later; [apply (C p (or_introl eq_refl)); eauto|].
      apply IH; auto. intros q Q. apply C. right; auto.
Qed.

Lemma finishes_settled : forall (p : pfun) s ps, finishes p s ps -> settled (p s ps).
Proof.
  intros p s ps [(r & s' & ps' & E)|(m & pe & E)]; rewrite E; auto.
Qed.

Lemma finishes_each : forall n l, (forall p, In p l -> covered n p) ->
  forall s ps, (forall q, In q (map (ev n) l) -> finishes q s ps) ->
  each (cfg_std cfg) env l s ps (map (fun p => ev n p s ps) l).
Proof.
  induction l as [|p l IH]; intros C s ps F; cbn [map]; constructor.
  - apply (C p (or_introl eq_refl)); auto. apply finishes_settled, F. left; auto.
  - apply IH; [intros q Q; apply C; right; auto|intros q Q; apply F; right; auto].
Qed.

Lemma covered_one_of : forall n l, (forall p, In p l -> covered n p) ->
  fits_one_of cfg (length l) -> covered n (POneOf l).
Proof.
  intros n l C F s ps o S E.
  assert (EE : one_of cfg (map (ev n) l) s ps = o) by (destruct n; exact E).
  clear E. rename EE into E.
  assert (F' : fits_one_of cfg (length (map (ev n) l))) by (rewrite map_length; exact F).
  destruct (settled_cases _ S) as [(r & s' & ps' & ->)|(m & pe & ->)].
  - apply one_of_cfg_accept in E; auto.
    destruct E as (Fin & l1 & p & l2 & EL & RJ & EP & _).
    apply map_eq_app in EL as (k1 & k2 & -> & <- & EL).
    destruct k2 as [|q k2]; [discriminate|]. injection EL as <- <-.
    eapply g_one_of; [apply (finishes_each n); auto|].
    split; [do 3 eexists; reflexivity|].
    exists (map (fun p => ev n p s ps) k1), (map (fun p => ev n p s ps) k2).
    rewrite map_app. cbn [map]. rewrite EP. split; auto.
    apply Forall_forall. intros o I. apply in_map_iff in I as (x & <- & I).
    destruct (RJ (ev n x)) as (m & pe & R); [apply in_map; auto|]. rewrite R.
    do 2 eexists; reflexivity.
  - assert (X : exists es, all_reject (map (ev n) l) s ps es
      /\ choice_error (cfg_std cfg) ps es (m, pe)).
    { unfold choice_error.
      destruct (one_of_cases cfg _ F' s ps) as [(Q & Sd)|(Q & Sd)]; rewrite Q in E.
      - apply one_of_11_reject in E as (es & A & B). exists es. split; auto.
        destruct (cfg_std cfg); auto. congruence.
      - apply one_of_98_reject in E as (es & A & B). exists es. split; auto.
        rewrite Sd. auto. }
    destruct X as (es & A & CE).
    assert (FF : forall q, In q (map (ev n) l) -> finishes q s ps).
    { clear - A. induction A as [|p e ps0 es H A IH]; intros q I; [destruct I|].
      destruct I as [<-|I]; auto. right. do 2 eexists; eauto. }
    eapply g_one_of_fails; [apply (finishes_each n); auto| |exact CE].
    clear - A. unfold rejections. revert es A.
    induction l as [|p l IH]; intros es A; inversion A; subst; [reflexivity|].
    cbn [map] in *. f_equal; auto.
Qed.

Ltac settle S := destruct (settled_cases _ S) as [(?r & ?s' & ?ps' & ->)|(?m & ?pe & ->)]; clear S.

Lemma runs_first : forall p r rs s ps s' ps', runs p s ps (r :: rs) s' ps' ->
  exists a b c, p s ps = Accept a b c.
Proof. intros. apply runs_cons_inv in H as (s1 & ps1 & E & _). eauto. Qed.

Lemma guard_runs : forall p rs s ps s' ps' m pe, (exists a b c, p s ps = Accept a b c) ->
  runs p s ps rs s' ps' -> p s' ps' = Reject m pe -> exists r rs', rs = r :: rs'.
Proof.
  intros p rs s ps s' ps' m pe (a & b & c & E) R X. destruct rs; eauto.
  inversion R; subst. congruence.
Qed.


Ltac unsettled S := destruct S as [(? & ? & ? & S)|(? & ? & S)]; discriminate.
Ltac one comb :=
  match goal with S : settled ?o, E : ?lhs = ?o |- _ => unfold comb in E; subst o;
  repeat match type of S with context [match ?x with _ => _ end] =>
    let Q := fresh "Q" in destruct x eqn:Q end;
  first [unsettled S | solve [clear S; econstructor; eauto]] end.

Lemma covered_all : forall n e, every (fits cfg) e -> covered n e.
Proof.
  induction n as [n IHn] using lt_wf_ind.
  intros e. induction e as [e IH] using pexpr_children_ind. intros EV.
  inversion EV as [e0 FT CH]; subst e0.
  assert (HL : forall l, children e = l -> forall p, In p l -> covered n p).
  { intros l <- p I. auto. }
  destruct e; cbn [children] in IH, HL, CH;
    try (assert (X := IH _ (or_introl eq_refl) (CH _ (or_introl eq_refl))));
    try (assert (Y := IH _ (or_intror (or_introl eq_refl)) (CH _ (or_intror (or_introl eq_refl)))));
    try (assert (Z := IH _ (or_intror (or_intror (or_introl eq_refl)))
                        (CH _ (or_intror (or_intror (or_introl eq_refl))))));
    try specialize (HL _ eq_refl); cbn [fits] in FT.
  all: try (apply covered_one_of; assumption).
  all: intros s ps o S E; rewrite eval_unfold in E; cbn [step] in E.
  all: try (pose proof (X s ps) as X0).
  - (* PNative *) settle S; constructor; auto.
  - (* PRef *) destruct n as [|n]; [subst; destruct S as [(? & ? & ? & Q)|(? & ? & Q)]; discriminate|].
    constructor. apply (IHn n); auto.
  - (* PReturn *) subst. constructor.
  - subst. constructor.
  - subst. unfold one_char. destruct s; constructor. apply walk1; reflexivity.
  - subst. unfold empty. destruct s; constructor.
  - (* accept_when *) one accept_when.
  - one change_error_message.
  - one transform.
  - unfold transform_error in E. destruct (ev n e s ps) eqn:Q; subst; try unsettled S.
    + econstructor; eauto.
    + eapply g_transform_error; eauto.
  - one transform_error_message.
  - one always.
  - one look_ahead.
  - one optional.
  - one except.
  - one if_.
  - (* fail_at_first_char_expected *) settle S.
    + apply fafce_accept in E as (-> & -> & -> & m & E). eapply g_fail_at_first; eauto.
    + apply fafce_reject in E as [(E & N)|(-> & -> & r & s' & ps' & E)].
      * eapply g_fail_at_first_later; eauto.
      * eapply g_fail_at_first_accepts; eauto.
  - (* keyword *) settle S.
    + apply keyword_accept in E as (-> & -> & W). constructor; auto.
    + apply keyword_reject in E as (u & c & kw' & s1 & -> & -> & N & -> & W).
      constructor; auto.
  - (* foldl *) settle S; [|destruct (foldl_not_reject _ _ _ _ _ _ _ _ E)].
    apply foldl_accept_o in E as (rs & m & pe & _ & R & Q & V).
    destruct st as [v0|]; [|discriminate].
    eapply g_foldl; eauto using runs_many.
  - (* foldl1 *) settle S.
    + apply (guard_accept (ev n e) (foldl n (ev n e) st f)) in E as (A & E).
      apply foldl_accept_o in E as (rs & m & pe & _ & R & Q & V).
      destruct st as [v0|]; [|discriminate].
      destruct (guard_runs _ _ _ _ _ _ _ _ A R Q) as (r0 & rs' & ->).
      eapply g_foldl1; eauto using runs_many.
    + apply foldl1_reject in E. eapply g_foldl1_fails; eauto.
  - (* foldl_reject_incomplete *) settle S.
    + apply foldl_ri_accept_o in E as (rs & m & _ & R & Q & V).
      destruct st as [v0|]; [|discriminate].
      eapply g_foldl_ri; eauto using runs_many.
    + apply foldl_ri_reject_o in E as (rs & s1 & ps1 & _ & R & Q & N & V).
      eapply g_foldl_ri_incomplete; eauto using runs_many.
      destruct V as [V|V]; auto. right. unfold lfold_o in V.
      destruct st as [v0|]; [|congruence].
      destruct (lfold f (removelast rs) v0) as [v|] eqn:LV; [eauto|congruence].
  - (* foldl_reject_incomplete1 *) settle S.
    + apply (guard_accept (ev n e) (foldl_reject_incomplete n (ev n e) st f)) in E as (A & E).
      apply foldl_ri_accept_o in E as (rs & m & _ & R & Q & V).
      destruct st as [v0|]; [|discriminate].
      destruct (guard_runs _ _ _ _ _ _ _ _ A R Q) as (r0 & rs' & ->).
      eapply g_foldl_ri1; eauto using runs_many.
    + apply (guard_reject (ev n e) (foldl_reject_incomplete n (ev n e) st f)) in E as [E|(A & E)];
        [eapply g_foldl_ri1_fails; eauto|].
      apply foldl_ri_reject_o in E as (rs & s1 & ps1 & _ & R & Q & N & V).
      destruct (guard_runs _ _ _ _ _ _ _ _ A R Q) as (r0 & rs' & ->).
      destruct V as [V|V]; [discriminate|]. unfold lfold_o in V.
      destruct st as [v0|]; [|congruence].
      destruct (lfold f (removelast (r0 :: rs')) v0) as [v|] eqn:LV; [|congruence].
      eapply g_foldl_ri1_incomplete; eauto using runs_many.
  - (* foldl_start_with_parser *) unfold foldl_start_with_parser in E.
    destruct (ev n e2 s ps) as [v0 s1 ps1|m pe| |] eqn:Q; try (subst; unsettled S).
    + settle S; [|destruct (foldl_not_reject _ _ _ _ _ _ _ _ E)].
      apply foldl_type_accept in E as (rs & m & pe & Z & _ & R & W & V).
      eapply g_foldl_swp; [apply Y; eauto|exact Z|eauto using runs_many|apply X; eauto|eauto].
    + subst. eapply g_foldl_swp_fails; eauto.
  - (* foldl_reject_incomplete_start_with_parser *)
    unfold foldl_reject_incomplete_start_with_parser in E.
    destruct (ev n e2 s ps) as [v0 s1 ps1|m pe| |] eqn:Q; try (subst; unsettled S).
    + settle S.
      * apply foldl_ri_type_accept in E as (rs & m & Z & _ & R & W & V).
        eapply g_foldl_ri_swp; [apply Y; eauto|exact Z|eauto using runs_many|apply X; eauto|eauto].
      * apply foldl_ri_type_reject in E as (rs & s2 & ps2 & Z & _ & R & W & N & V).
        destruct (lfold f (removelast rs) v0) as [v|] eqn:LV; [|congruence].
        eapply g_foldl_ri_swp_incomplete;
          [apply Y; eauto|exact Z|eauto using runs_many|apply X; eauto|eauto|eauto].
    + subst. eapply g_foldl_ri_swp_fails; eauto.
  - (* foldr_start_with_parser *) settle S.
    + apply foldr_swp_accept in E as (rs & s1 & ps1 & m & pe & v0 & _ & R & W & Q & V).
      eapply g_foldr_swp; [eauto using runs_many|apply X; eauto|apply Y; eauto|eauto].
    + apply foldr_swp_reject in E as (rs & s1 & ps1 & m0 & pe0 & _ & R & W & Q).
      eapply g_foldr_swp_fails; [eauto using runs_many|apply X; eauto|apply Y; eauto].
  - (* foldr *) settle S; [|destruct (foldr_not_reject _ _ _ _ _ _ _ _ E)].
    apply foldr_accept in E as (rs & m & pe & _ & R & W & V).
    eapply g_foldr; [eauto using runs_many|apply X; eauto|eauto].
  - (* foldr1 *) settle S.
    + apply foldr1_accept in E as (rs & m & pe & N & _ & R & W & V).
      destruct rs as [|r0 rs]; [congruence|].
      eapply g_foldr1; [eauto using runs_many|apply X; eauto|eauto].
    + apply foldr1_reject in E. eapply g_foldr1_fails; eauto.
  - (* foldr_reject_incomplete *) settle S.
    + apply foldr_ri_accept in E as (rs & m & _ & R & W & V); [|exact FT].
      eapply g_foldr_ri; [eauto using runs_many|apply X; eauto|eauto].
    + apply foldr_ri_reject in E as (rs & s1 & ps1 & _ & R & W & N); [|exact FT].
      eapply g_foldr_ri_incomplete; [eauto using runs_many|apply X; eauto|eauto].
  - (* foldr_reject_incomplete1 *) settle S.
    + apply (guard_accept (ev n e) (foldr_reject_incomplete cfg n (ev n e) st f)) in E as (A & E).
      apply foldr_ri_accept in E as (rs & m & _ & R & W & V); [|exact FT].
      destruct (guard_runs _ _ _ _ _ _ _ _ A R W) as (r0 & rs' & ->).
      eapply g_foldr_ri1; [eauto using runs_many|apply X; eauto|eauto].
    + apply (guard_reject (ev n e) (foldr_reject_incomplete cfg n (ev n e) st f)) in E as [E|(A & E)];
        [eapply g_foldr_ri1_fails; eauto|].
      apply foldr_ri_reject in E as (rs & s1 & ps1 & _ & R & W & N); [|exact FT].
      destruct (guard_runs _ _ _ _ _ _ _ _ A R W) as (r0 & rs' & ->).
      eapply g_foldr_ri1_incomplete; [eauto using runs_many|apply X; eauto|eauto].
  - (* iterate *) destruct (iterate_impl_cases n k (ev n e) [] s ps) as (A & B). settle S.
    + apply A in E as (rs & -> & R & L). eapply g_iterate; eauto using runs_many.
    + apply B in E as (rs & s1 & ps1 & R & W & L).
      eapply g_iterate_fails; [eauto using runs_many|eauto|apply X; eauto].
  - (* sequence *) destruct FT as (FT & N).
    assert (N' : map (ev n) l <> []) by (destruct l; [congruence|discriminate]).
    rewrite <- (map_length (ev n)) in FT. settle S.
    + apply sequence_cfg_accept in E as (rs & -> & R); auto.
      apply g_sequence. eapply in_row_in_turn; eauto.
    + apply (sequence_cfg_failure cfg _ s ps) in E; auto.
      apply g_sequence_fails. eapply first_failure_breaks; eauto.
  - (* sequence_apply *)
    assert (N' : map (ev n) l <> []) by (destruct l; [cbn in FT; lia|discriminate]).
    rewrite <- (map_length (ev n)) in FT.
    rewrite sequence_apply_spec in E by auto.
    assert (FT' : fits_sequence cfg (length (map (ev n) l))) by (intros _; lia).
    destruct (sequence cfg (map (ev n) l) s ps) as [v s1 ps1|m pe| |] eqn:Q;
      try (subst; unsettled S).
    + apply sequence_cfg_accept in Q as (rs & -> & R); auto. subst.
      apply g_sequence_apply. eapply in_row_in_turn; eauto.
    + apply (sequence_cfg_failure cfg _ s ps) in Q; auto. subst.
      apply g_sequence_apply_fails. eapply first_failure_breaks; eauto.
  - (* nth_of *) rewrite <- (map_length (ev n)) in FT.
    destruct (Z_lt_ge_dec k 0) as [K|K].
    { rewrite nth_of_cfg_out_of_range in E by auto. subst. rewrite map_length.
      apply g_nth_of_range; auto. }
    destruct (Z_lt_ge_dec k (Z.of_nat (length l))) as [K2|K2].
    2:{ rewrite nth_of_cfg_out_of_range in E by (auto; rewrite map_length; lia). subst.
        rewrite map_length. apply g_nth_of_range; lia. }
    rewrite <- (Z2Nat.id k) in E by lia.
    assert (K3 : (Z.to_nat k < length (map (ev n) l))%nat) by (rewrite map_length; lia).
    settle S.
    + apply nth_of_cfg_accept in E as (rs & R & NE); auto.
      eapply g_nth_of; [eapply in_row_in_turn; eauto|lia|eauto].
    + apply (nth_of_cfg_failure cfg _ _ s ps FT K3) in E.
      apply g_nth_of_fails; [eapply first_failure_breaks; eauto|lia].
  - (* first_of *) rewrite <- (map_length (ev n)) in FT.
    destruct l as [|p0 l].
    { rewrite first_of_cfg in E by auto. cbn in E. subst. apply g_first_of_none. }
    set (l0 := p0 :: l) in *.
    assert (N' : map (ev n) l0 <> []) by discriminate.
    settle S.
    + apply first_of_cfg_accept in E as (rs & R); auto.
      eapply g_first_of. eapply in_row_in_turn; eauto.
    + destruct (first_last_of_nth cfg _ FT N') as (Q & _). rewrite (Q s ps) in E.
      apply (nth_of_cfg_failure cfg _ 0%nat s ps FT) in E; [|cbn; lia].
      apply g_first_of_fails. eapply first_failure_breaks; eauto.
  - (* last_of *) rewrite <- (map_length (ev n)) in FT.
    destruct l as [|p0 l].
    { cbn [map] in E. rewrite last_of_empty in E by exact FT. subst. apply g_last_of_none. }
    set (l0 := p0 :: l) in *.
    assert (N' : map (ev n) l0 <> []) by discriminate.
    settle S.
    + apply last_of_cfg_accept in E as (rs & R); auto.
      eapply g_last_of. eapply in_row_in_turn; eauto.
    + destruct (first_last_of_nth cfg _ FT N') as (_ & Q). rewrite (Q s ps) in E.
      replace (Z.of_nat (length (map (ev n) l0)) - 1)
        with (Z.of_nat (length (map (ev n) l0) - 1)) in E by (subst l0; cbn [map length]; lia).
      apply (nth_of_cfg_failure cfg _ _ s ps FT) in E; [|subst l0; cbn [map length]; lia].
      apply g_last_of_fails. eapply first_failure_breaks; eauto.
  - (* one_of_c *) destruct (one_of_c_cases cfg cs s ps FT) as [(c & s' & -> & I & Q)|(N & Q)];
      rewrite Q in E; subst.
    + apply g_one_of_c; auto. apply walk1; reflexivity.
    + apply g_one_of_c_error; auto.
  - (* one_char_except_c *)
    destruct (one_char_except_cases cfg cs s ps FT)
      as [(c & s' & -> & I & Q)|[(c & s' & -> & I & Q)|(-> & Q)]]; rewrite Q in E; subst.
    + apply g_one_char_except; auto. apply walk1; reflexivity.
    + apply g_one_char_except_excluded; auto.
    + apply g_one_char_except_end; auto.
  - (* middle_of *) rewrite middle_of_spec in E by exact FT. clear X0.
    destruct (ev n e1 s ps) as [r1 s1 ps1|m1 pe1| |] eqn:Q1; try (subst; unsettled S).
    2:{ subst. apply g_middle_of_fails. apply breaks_off_here. apply X; auto. }
    destruct (ev n e2 s1 ps1) as [r2 s2 ps2|m2 pe2| |] eqn:Q2; try (subst; unsettled S).
    2:{ subst. apply g_middle_of_fails. eapply breaks_off_later; [apply X; eauto|].
        apply breaks_off_here. apply Y; auto. }
    assert (R2 : in_turn (cfg_std cfg) env [e1; e2] s ps [r1; r2] s2 ps2).
    { econstructor; [apply X; eauto|]. econstructor; [apply Y; eauto|]. constructor. }
    destruct (ev n e3 s2 ps2) as [r3 s3 ps3|m3 pe3| |] eqn:Q3; try (subst; unsettled S).
    + subst. clear S. eapply g_middle_of. econstructor; [apply X; eauto|].
      econstructor; [apply Y; eauto|]. econstructor; [apply Z; eauto|]. constructor.
    + subst. eapply g_middle_of_unpaired; [exact R2|]. apply Z; auto.
  - (* entire_input *) rewrite entire_input_spec in E by exact FT. clear X0.
    destruct (ev n e s ps) as [r s1 ps1|m1 pe1| |] eqn:Q; try (subst; unsettled S).
    + destruct s1; subst.
      * apply g_entire_input. apply X; auto.
      * clear S. eapply g_entire_input_more. apply X; eauto.
    + subst. apply g_entire_input_fails. apply X; auto.
Qed.
End Model_to_rules.

(** ** From the rules to the model *)

Definition eventually (P : nat -> Prop) : Prop := exists N, forall n, (N <= n)%nat -> P n.

Lemma ev_always : forall P : nat -> Prop, (forall n, P n) -> eventually P.
Proof. intros P H. exists 0%nat. auto. Qed.
Lemma ev_1 : forall (P R : nat -> Prop), eventually P -> (forall n, P n -> R n) -> eventually R.
Proof. intros P R (N & H) K. exists N. auto. Qed.
Lemma ev_2 : forall (P Q R : nat -> Prop), eventually P -> eventually Q ->
  (forall n, P n -> Q n -> R n) -> eventually R.
Proof.
  intros P Q R (N & H) (M & J) K. exists (N + M)%nat. intros n L.
  apply K; [apply H|apply J]; lia.
Qed.
Lemma ev_3 : forall (P Q T R : nat -> Prop), eventually P -> eventually Q -> eventually T ->
  (forall n, P n -> Q n -> T n -> R n) -> eventually R.
Proof.
  intros P Q T R (N & H) (M & J) (K & I) F. exists (N + M + K)%nat. intros n L.
  apply F; [apply H|apply J|apply I]; lia.
Qed.
Lemma ev_ge : forall k, eventually (fun n => (k < n)%nat).
Proof. intros k. exists (S k). intros; lia. Qed.

Section Rules_to_model.
Variable cfg : config.
Variable env : program.
Hypothesis HE : program_every (fits cfg) env.
Notation ev := (eval cfg env).

Lemma first_failure_here : forall p l s ps o, p s ps = o -> first_failure (p :: l) s ps o.
Proof.
  intros p l s ps o E. exists [], p, l, [], s, ps. splits; auto. constructor.
Qed.
Lemma first_failure_later : forall p l s ps r s1 ps1 o, p s ps = Accept r s1 ps1 ->
  first_failure l s1 ps1 o -> first_failure (p :: l) s ps o.
Proof.
  intros p l s ps r s1 ps1 o E (l1 & q & l2 & rs & s2 & ps2 & -> & R & X).
  exists (p :: l1), q, l2, (r :: rs), s2, ps2. splits; auto. econstructor; eauto.
Qed.

Lemma one_of_first_accept : forall n l s ps o, fits_one_of cfg (length l) ->
  Forall settled (map (fun p => ev n p s ps) l) ->
  first_accept (map (fun p => ev n p s ps) l) o -> one_of cfg (map (ev n) l) s ps = o.
Proof.
  intros n l s ps o F ST ((r & s' & ps' & ->) & os1 & os2 & EQ & RJ).
  apply one_of_cfg_accept; [rewrite map_length; auto|].
  apply map_eq_app in EQ as (k1 & k2 & -> & <- & EQ).
  destruct k2 as [|q k2]; [discriminate|]. cbn [map] in EQ. injection EQ as EQ <-.
  split.
  - intros x I. apply in_map_iff in I as (y & <- & I).
    rewrite Forall_forall in ST. specialize (ST _ (in_map (fun p => ev n p s ps) _ _ I)).
    exact ST.
  - exists (map (ev n) k1), (ev n q), (map (ev n) k2). rewrite map_app. splits; auto.
    + intros x I. apply in_map_iff in I as (y & <- & I).
      rewrite Forall_forall in RJ. apply (RJ _ (in_map (fun p => ev n p s ps) _ _ I)).
    + do 3 eexists; eauto.
Qed.

Lemma one_of_rejections : forall n l s ps es m pe, fits_one_of cfg (length l) ->
  rejections (map (fun p => ev n p s ps) l) es ->
  choice_error (cfg_std cfg) ps es (m, pe) ->
  one_of cfg (map (ev n) l) s ps = Reject m pe.
Proof.
  intros n l s ps es m pe F RJ CE.
  assert (A : all_reject (map (ev n) l) s ps es).
  { unfold all_reject. unfold rejections in RJ. clear - RJ. revert es RJ.
    induction l as [|p l IH]; intros [|e es] RJ; try discriminate; cbn [map] in *; constructor.
    - congruence.
    - apply IH. congruence. }
  assert (F' : fits_one_of cfg (length (map (ev n) l))) by (rewrite map_length; exact F).
  unfold choice_error in CE.
  destruct (one_of_cases cfg _ F' s ps) as [(Q & Sd)|(Q & Sd)]; rewrite Q.
  - apply one_of_11_reject. exists es. split; auto. destruct (cfg_std cfg); auto. congruence.
  - apply one_of_98_reject. exists es. split; auto. rewrite Sd in CE. auto.
Qed.

Lemma each_settled : forall sd l s ps os, each sd env l s ps os -> Forall settled os.
Proof. induction 1; constructor; eauto using gives_settled. Qed.

Ltac start := intros; try match goal with EV : every (fits cfg) ?e |- _ =>
    is_var e; fail 1 | EV : every (fits cfg) ?e |- _ =>
    let e0 := fresh in let FT := fresh "FT" in let CH := fresh "CH" in
    inversion EV as [e0 FT CH]; subst e0; cbn [fits children] in FT, CH end.
Ltac kids := repeat match goal with
  | CH : forall c, In c _ -> every _ c, IH : every _ ?p -> eventually _ |- _ =>
      specialize (IH (CH p ltac:(cbn; tauto)))
  | CH : forall c, In c ?l -> every _ c, IH : (forall c, In c ?l -> every _ c) -> eventually _ |- _ =>
      specialize (IH CH)
  end.
Ltac unf := rewrite eval_unfold; cbn [step].
Ltac base := apply ev_always; intros n; unf.
Ltac simple1 comb := match goal with
  | IH : eventually _ |- _ => eapply ev_1; [exact IH|]; intros n E; cbv beta in E; unf; unfold comb;
      rewrite E; auto
  end.

Theorem rules_model :
  (forall e s ps o, gives (cfg_std cfg) env e s ps o -> every (fits cfg) e ->
     eventually (fun n => ev n e s ps = o))
  /\ (forall p s ps rs s' ps', many (cfg_std cfg) env p s ps rs s' ps' -> every (fits cfg) p ->
     eventually (fun n => runs (ev n p) s ps rs s' ps'))
  /\ (forall l s ps rs s' ps', in_turn (cfg_std cfg) env l s ps rs s' ps' ->
     (forall c, In c l -> every (fits cfg) c) ->
     eventually (fun n => in_row (map (ev n) l) s ps rs s' ps'))
  /\ (forall l s ps m pe, breaks_off (cfg_std cfg) env l s ps m pe ->
     (forall c, In c l -> every (fits cfg) c) ->
     eventually (fun n => first_failure (map (ev n) l) s ps (Reject m pe)))
  /\ (forall l s ps os, each (cfg_std cfg) env l s ps os ->
     (forall c, In c l -> every (fits cfg) c) ->
     eventually (fun n => map (fun p => ev n p s ps) l = os)).
Proof.
  apply rules_mind; start; kids.
  - (* native *) base; auto.
  - base; auto.
  - (* ref *) destruct (H0 (HE k)) as (N & J). exists (S N). intros n L. unf.
    destruct n as [|n]; [lia|]. apply J. lia.
  - base; reflexivity.
  - base; reflexivity.
  - (* one_char *) apply walk1 in H as ->. base; reflexivity.
  - base; reflexivity.
  - base; reflexivity.
  - base; reflexivity.
  - (* keyword *) base. apply keyword_accept; auto.
  - base. apply keyword_reject. exists u, c, kw, s. splits; auto.
  - (* one_of_c *) apply walk1 in H0 as ->. base.
    destruct (one_of_c_cases cfg cs (c :: s) ps FT) as [(d & s' & E & I & Q)|(N & Q)];
      [|destruct N; auto]. injection E as <- <-. exact Q.
  - base. destruct (one_of_c_cases cfg cs s ps FT) as [(d & s' & -> & I & Q)|(N & Q)]; auto.
    destruct (H I).
  - (* one_char_except_c *) apply walk1 in H0 as ->. base.
    destruct (one_char_except_cases cfg cs (c :: s) ps FT)
      as [(d & s' & E & I & Q)|[(d & s' & E & I & Q)|(E & Q)]]; try discriminate;
      injection E as <- <-; auto. destruct (H I).
  - base. destruct (one_char_except_cases cfg cs (c :: s) ps FT)
      as [(d & s' & E & I & Q)|[(d & s' & E & I & Q)|(E & Q)]]; try discriminate;
      injection E as <- <-; auto. destruct (I H).
  - base. destruct (one_char_except_cases cfg cs [] ps FT)
      as [(d & s' & E & I & Q)|[(d & s' & E & I & Q)|(E & Q)]]; try discriminate; auto.
  - simple1 accept_when. rewrite H1. auto.
  - simple1 accept_when. rewrite H1. auto.
  - simple1 accept_when.
  - simple1 change_error_message.
  - simple1 change_error_message.
  - simple1 transform. rewrite H1. auto.
  - simple1 transform.
  - simple1 transform_error.
  - simple1 transform_error.
  - simple1 transform_error_message.
  - simple1 transform_error_message. rewrite H1. auto.
  - simple1 always.
  - simple1 always.
  - simple1 look_ahead.
  - simple1 look_ahead.
  - simple1 optional.
  - simple1 optional.
  - simple1 except.
  - simple1 except.
  - simple1 if_.
  - simple1 if_.
  - (* fail_at_first_char_expected *) eapply ev_1; [exact H0|]; intros n E; cbv beta in E; unf.
    apply fafce_accept. splits; eauto.
  - eapply ev_1; [exact H0|]; intros n E; cbv beta in E; unf. apply fafce_reject. auto.
  - eapply ev_1; [exact H0|]; intros n E; cbv beta in E; unf. apply fafce_reject.
    right. splits; eauto.
  - (* foldl *) eapply ev_3; [exact H0|exact H2|apply (ev_ge (length rs))|].
    intros n R Q L; cbv beta in *; unf. apply foldl_accept_o. exists rs, m, pe. splits; auto.
    rewrite H3. auto.
  - (* foldl1 *) eapply ev_3; [exact H0|exact H2|apply (ev_ge (length (r :: rs)))|].
    intros n R Q L; cbv beta in *; unf. apply (guard_accept (ev n p) (foldl n (ev n p) st f)).
    split; [exact (runs_first _ _ _ _ _ _ _ R)|].
    apply foldl_accept_o. exists (r :: rs), m, pe. splits; auto. rewrite H3. auto.
  - eapply ev_1; [exact H0|]. intros n E; cbv beta in *; unf. apply foldl1_reject. auto.
  - (* foldl_reject_incomplete *) eapply ev_3; [exact H0|exact H2|apply (ev_ge (length rs))|].
    intros n R Q L; cbv beta in *; unf. apply foldl_ri_accept_o. exists rs, m. splits; auto.
    rewrite H3. auto.
  - eapply ev_3; [exact H0|exact H2|apply (ev_ge (length rs))|].
    intros n R Q L; cbv beta in *; unf. apply foldl_ri_reject_o. exists rs, s', ps'.
    splits; auto. destruct H4 as [H4|(v0 & v & -> & H4)]; auto. right. cbn. congruence.
  - (* foldl_reject_incomplete1 *)
    eapply ev_3; [exact H0|exact H2|apply (ev_ge (length (r :: rs)))|].
    intros n R Q L; cbv beta in *; unf.
    apply (guard_accept (ev n p) (foldl_reject_incomplete n (ev n p) st f)).
    split; [exact (runs_first _ _ _ _ _ _ _ R)|].
    apply foldl_ri_accept_o. exists (r :: rs), m. splits; auto. rewrite H3. auto.
  - eapply ev_3; [exact H0|exact H2|apply (ev_ge (length (r :: rs)))|].
    intros n R Q L; cbv beta in *; unf.
    apply (guard_reject (ev n p) (foldl_reject_incomplete n (ev n p) st f)). right.
    split; [exact (runs_first _ _ _ _ _ _ _ R)|].
    apply foldl_ri_reject_o. exists (r :: rs), s', ps'. splits; auto.
    right. rewrite H4. unfold lfold_o. congruence.
  - eapply ev_1; [exact H0|]. intros n E; cbv beta in *; unf.
    apply (guard_reject (ev n p) (foldl_reject_incomplete n (ev n p) st f)). auto.
  - (* foldl_start_with_parser *)
    eapply ev_2; [eapply ev_3; [exact H0|exact H3|exact H5|]|apply (ev_ge (length rs))|].
    { intros n A B C. exact (conj A (conj B C)). }
    intros n (A & B & C) L. cbv beta in *. unf. unfold foldl_start_with_parser. rewrite A.
    apply foldl_type_accept. exists rs, m, pe. splits; auto.
  - eapply ev_1; [exact H0|]. intros n E; cbv beta in *; unf.
    unfold foldl_start_with_parser. rewrite E. auto.
  - (* foldl_reject_incomplete_start_with_parser *)
    eapply ev_2; [eapply ev_3; [exact H0|exact H3|exact H5|]|apply (ev_ge (length rs))|].
    { intros n A B C. exact (conj A (conj B C)). }
    intros n (A & B & C) L. cbv beta in *. unf.
    unfold foldl_reject_incomplete_start_with_parser. rewrite A.
    apply foldl_ri_type_accept. exists rs, m. splits; auto.
  - eapply ev_2; [eapply ev_3; [exact H0|exact H3|exact H5|]|apply (ev_ge (length rs))|].
    { intros n A B C. exact (conj A (conj B C)). }
    intros n (A & B & C) L. cbv beta in *. unf.
    unfold foldl_reject_incomplete_start_with_parser. rewrite A.
    apply foldl_ri_type_reject. exists rs, s', ps'. splits; auto. congruence.
  - eapply ev_1; [exact H0|]. intros n E; cbv beta in *; unf.
    unfold foldl_reject_incomplete_start_with_parser. rewrite E. auto.
  - (* foldr_start_with_parser *)
    eapply ev_2; [eapply ev_3; [exact H0|exact H2|exact H4|]|apply (ev_ge (length rs))|].
    { intros n A B C. exact (conj A (conj B C)). }
    intros n (A & B & C) L. cbv beta in *. unf.
    apply foldr_swp_accept. exists rs, s1, ps1, m, pe, v0. splits; auto.
  - eapply ev_2; [eapply ev_3; [exact H0|exact H2|exact H4|]|apply (ev_ge (length rs))|].
    { intros n A B C. exact (conj A (conj B C)). }
    intros n (A & B & C) L. cbv beta in *. unf.
    apply foldr_swp_reject. exists rs, s1, ps1, m, pe. splits; auto.
  - (* foldr *) eapply ev_3; [exact H0|exact H2|apply (ev_ge (length rs))|].
    intros n R Q L; cbv beta in *; unf. apply foldr_accept. exists rs, m, pe. splits; auto.
  - eapply ev_3; [exact H0|exact H2|apply (ev_ge (length (r :: rs)))|].
    intros n R Q L; cbv beta in *; unf. apply foldr1_accept. exists (r :: rs), m, pe.
    splits; auto. discriminate.
  - eapply ev_1; [exact H0|]. intros n E; cbv beta in *; unf. apply foldr1_reject. auto.
  - (* foldr_reject_incomplete *)
    eapply ev_3; [exact H0|exact H2|apply (ev_ge (length rs))|].
    intros n R Q L; cbv beta in *; unf. apply foldr_ri_accept; [exact FT|].
    exists rs, m. splits; auto.
  - eapply ev_3; [exact H0|exact H2|apply (ev_ge (length rs))|].
    intros n R Q L; cbv beta in *; unf. apply foldr_ri_reject; [exact FT|].
    exists rs, s', ps'. splits; auto.
  - eapply ev_3; [exact H0|exact H2|apply (ev_ge (length (r :: rs)))|].
    intros n R Q L; cbv beta in *; unf.
    apply (guard_accept (ev n p) (foldr_reject_incomplete cfg n (ev n p) st f)).
    split; [exact (runs_first _ _ _ _ _ _ _ R)|].
    apply foldr_ri_accept; [exact FT|]. exists (r :: rs), m. splits; auto.
  - eapply ev_3; [exact H0|exact H2|apply (ev_ge (length (r :: rs)))|].
    intros n R Q L; cbv beta in *; unf.
    apply (guard_reject (ev n p) (foldr_reject_incomplete cfg n (ev n p) st f)). right.
    split; [exact (runs_first _ _ _ _ _ _ _ R)|].
    apply foldr_ri_reject; [exact FT|]. exists (r :: rs), s', ps'. splits; auto.
  - eapply ev_1; [exact H0|]. intros n E; cbv beta in *; unf.
    apply (guard_reject (ev n p) (foldr_reject_incomplete cfg n (ev n p) st f)). auto.
  - (* iterate *) subst k. eapply ev_2; [exact H0|apply (ev_ge (length rs))|].
    intros n R L; cbv beta in *; unf. apply iterate_accept_back; auto.
  - eapply ev_3; [exact H0|exact H3|apply (ev_ge (length rs + Z.to_nat k))|].
    intros n R Q L; cbv beta in *; unf. eapply iterate_reject_back; eauto; lia.
  - (* one_of *) eapply ev_1; [exact H0|]. intros n E; cbv beta in *; unf. subst os.
    apply one_of_first_accept; auto. eapply each_settled; eauto.
  - eapply ev_1; [exact H0|]. intros n E; cbv beta in *; unf. subst os.
    eapply one_of_rejections; eauto.
  - (* sequence *) destruct FT as (FT & N). eapply ev_1; [exact H0|].
    intros n E; cbv beta in *; unf.
    apply sequence_cfg_accept; [rewrite map_length; auto|destruct l; [congruence|discriminate]|].
    eauto.
  - destruct FT as (FT & N). eapply ev_1; [exact H0|].
    intros n E; cbv beta in *; unf.
    apply sequence_cfg_failure; [rewrite map_length; auto|destruct l; [congruence|discriminate]|].
    auto.
  - (* sequence_apply *) eapply ev_1; [exact H0|]. intros n E; cbv beta in *; unf.
    assert (FT' : fits_sequence cfg (length (map (ev n) l)))
      by (intros _; rewrite map_length; lia).
    assert (N' : map (ev n) l <> []) by (destruct l; [cbn in FT; lia|discriminate]).
    rewrite sequence_apply_spec by (rewrite map_length; auto).
    assert (Q : sequence cfg (map (ev n) l) s ps = Accept (VSeq rs) s' ps')
      by (apply sequence_cfg_accept; eauto).
    rewrite Q. auto.
  - eapply ev_1; [exact H0|]. intros n E; cbv beta in *; unf.
    assert (FT' : fits_sequence cfg (length (map (ev n) l)))
      by (intros _; rewrite map_length; lia).
    assert (N' : map (ev n) l <> []) by (destruct l; [cbn in FT; lia|discriminate]).
    rewrite sequence_apply_spec by (rewrite map_length; auto).
    assert (Q : sequence cfg (map (ev n) l) s ps = Reject m pe)
      by (apply sequence_cfg_failure; eauto).
    rewrite Q. auto.
  - (* nth_of *) eapply ev_1; [exact H0|]. intros n E; cbv beta in *; unf.
    rewrite <- (Z2Nat.id k) by auto. apply nth_of_cfg_accept; eauto.
    + rewrite map_length; auto.
    + apply in_row_length in E. rewrite <- E. apply nth_error_Some. congruence.
  - eapply ev_1; [exact H0|]. intros n E; cbv beta in *; unf.
    rewrite <- (Z2Nat.id k) by lia. apply nth_of_cfg_failure; auto.
    + rewrite map_length; auto.
    + rewrite map_length; lia.
  - base. rewrite nth_of_cfg_out_of_range; rewrite map_length; auto.
  - (* first_of *) eapply ev_1; [exact H0|]. intros n E; cbv beta in *; unf.
    apply first_of_cfg_accept; eauto.
    + rewrite map_length; auto.
    + intros N. rewrite N in E. inversion E.
  - eapply ev_1; [exact H0|]. intros n E; cbv beta in *; unf.
    assert (N' : map (ev n) l <> []).
    { intros N. rewrite N in E. destruct E as ([|] & ? & ? & ? & ? & ? & E & _); discriminate. }
    assert (FT' : fits_sequence cfg (length (map (ev n) l))) by (rewrite map_length; auto).
    destruct (first_last_of_nth cfg _ FT' N') as (Q & _). rewrite (Q s ps).
    apply (nth_of_cfg_failure cfg _ 0%nat s ps FT'); auto.
    destruct (map (ev n) l); [congruence|cbn; lia].
  - base. rewrite first_of_cfg by exact FT. reflexivity.
  - (* last_of *) eapply ev_1; [exact H0|]. intros n E; cbv beta in *; unf.
    apply last_of_cfg_accept; eauto.
    + rewrite map_length; auto.
    + intros N. rewrite N in E. inversion E. destruct rs; discriminate.
  - eapply ev_1; [exact H0|]. intros n E; cbv beta in *; unf.
    assert (N' : map (ev n) l <> []).
    { intros N. rewrite N in E. destruct E as ([|] & ? & ? & ? & ? & ? & E & _); discriminate. }
    assert (FT' : fits_sequence cfg (length (map (ev n) l))) by (rewrite map_length; auto).
    destruct (first_last_of_nth cfg _ FT' N') as (_ & Q). rewrite (Q s ps).
    assert (L : (0 < length (map (ev n) l))%nat) by (destruct (map (ev n) l); [congruence|cbn; lia]).
    replace (Z.of_nat (length (map (ev n) l)) - 1)
      with (Z.of_nat (length (map (ev n) l) - 1)) by lia.
    apply nth_of_cfg_failure; auto. lia.
  - base. apply last_of_empty. exact FT.
  - (* middle_of *) eapply ev_1; [exact H0|]. intros n E; cbv beta in *; unf.
    rewrite middle_of_spec by exact FT. cbn [map] in E.
    apply in_row_cons_inv in E as (a & l1 & s1 & ps1 & E1 & Q1 & E).
    apply in_row_cons_inv in E as (b & l2 & s2 & ps2 & E2 & Q2 & E).
    apply in_row_cons_inv in E as (c & l3 & s3 & ps3 & E3 & Q3 & E).
    inversion E; subst. injection E1 as <- <- <-. rewrite Q1, Q2, Q3. auto.
  - eapply ev_1; [apply H0; intros c I; apply CH; cbn in *; tauto|].
    intros n E; cbv beta in *; unf.
    rewrite middle_of_spec by exact FT. cbn [map] in E.
    apply first_failure_cons in E as [E|(r & s1 & ps1 & Q & E)]; [rewrite E; auto| |exact Logic.I].
    rewrite Q. apply first_failure_cons in E as [E|(r2 & s2 & ps2 & Q2 & E)];
      [rewrite E; auto| |exact Logic.I].
    destruct E as ([|] & ? & ? & ? & ? & ? & E & _); discriminate.
  - eapply ev_2; [apply H0; intros c I; apply CH; cbn in *; tauto|exact H2|].
    intros n E Q3; cbv beta in *; unf.
    rewrite middle_of_spec by exact FT. cbn [map] in E.
    apply in_row_cons_inv in E as (a & l1 & s1 & ps1 & E1 & Q1 & E).
    apply in_row_cons_inv in E as (b & l2 & s2 & ps2 & E2 & Q2 & E).
    inversion E; subst. rewrite Q1, Q2, Q3. auto.
  - (* entire_input *) eapply ev_1; [exact H0|]. intros n E; cbv beta in *; unf.
    rewrite entire_input_spec by exact FT. rewrite E. auto.
  - eapply ev_1; [exact H0|]. intros n E; cbv beta in *; unf.
    rewrite entire_input_spec by exact FT. rewrite E. auto.
  - eapply ev_1; [exact H0|]. intros n E; cbv beta in *; unf.
    rewrite entire_input_spec by exact FT. rewrite E. auto.
  - (* many *) apply ev_always. intros n. constructor.
  - eapply ev_2; [exact (H0 H3)|exact (H2 H3)|]. intros n A B; cbv beta in *. econstructor; eauto.
  - (* in_turn *) apply ev_always. intros n. constructor.
  - eapply ev_2; [exact H0
      |exact (H2 (fun c I => H3 c (or_intror I)))|].
    intros n A B; cbv beta in *. cbn [map]. econstructor; eauto.
  - (* breaks_off *) eapply ev_1; [exact H0|].
    intros n A; cbv beta in *. cbn [map]. apply first_failure_here; auto.
  - eapply ev_2; [exact H0
      |exact (H2 (fun c I => H3 c (or_intror I)))|].
    intros n A B; cbv beta in *. cbn [map]. eapply first_failure_later; eauto.
  - (* each *) apply ev_always. reflexivity.
  - eapply ev_2; [exact H0
      |exact (H2 (fun c I => H3 c (or_intror I)))|].
    intros n A B; cbv beta in *. cbn [map]. congruence.
Qed.
End Rules_to_model.
