(** Proofs about the smaller examples (C50 to C54). *)

From Coq Require Import ZArith List Bool Lia.
From Verif Require Import Base Util Combinators Variadic Parsers Deep Calculator Examples Spec SpecDeep
  SpecTerm SpecType SpecCalc SpecExamples Proofs_Pos Proofs_Fold Proofs_Variadic Proofs_Parsers
  Proofs_Parsers2 Proofs_Deep Proofs_Final1 Proofs_Final2 Proofs_Final3 Proofs_Final5 Proofs_Term
  Proofs_Grammar Proofs_Calc Proofs_Calc2.
Import ListNotations.
Open Scope Z_scope.

(** ** Numbers followed by whitespace *)

Lemma take_while : forall (P : char -> Prop), (forall c, {P c} + {~ P c}) -> forall s : str,
  exists u t, s = u ++ t /\ Forall P u /\ not_starting_with P t.
Proof.
  intros P D. induction s as [|c s (u & t & -> & F & N)].
  - exists [], []. splits; simpl; auto.
  - destruct (D c) as [H|H].
    + exists (c :: u), t. splits; auto.
    + exists [], (c :: u ++ t). splits; simpl; auto.
Qed.

Lemma split_unique : forall (P : char -> Prop) u1 t1 u2 t2, u1 ++ t1 = u2 ++ t2 ->
  Forall P u1 -> Forall P u2 -> not_starting_with P t1 -> not_starting_with P t2 ->
  u1 = u2 /\ t1 = t2.
Proof.
  intros P. induction u1 as [|c u1 IH]; intros t1 u2 t2 E F1 F2 N1 N2.
  - destruct u2 as [|d u2]; auto. simpl in E. subst t1. inversion F2; subst. destruct (N1 H1).
  - inversion F1; subst. destruct u2 as [|d u2].
    + simpl in E. subst t2. destruct (N2 H1).
    + simpl in E. inversion E; subst. inversion F2; subst.
      destruct (IH t1 u2 t2) as (-> & ->); auto.
Qed.

Lemma digit_not_space : forall c, space_char c -> ~ digit_char c.
Proof. intros c [->|[->|[->| ->]]]; unfold digit_char; lia. Qed.

Lemma spaces_no_digit : forall w t, Forall space_char w -> not_starting_with digit_char t ->
  not_starting_with digit_char (w ++ t).
Proof.
  intros [|c w] t F N; simpl; auto. inversion F; subst. apply digit_not_space; auto.
Qed.

Lemma leading_number_unique : forall s ds w t ds' w' t',
  leading_number ds w t s -> leading_number ds' w' t' s -> ds = ds' /\ w = w' /\ t = t'.
Proof.
  intros s ds w t ds' w' t' (E & (_ & F) & Fw & Nd & Ns) (E' & (_ & F') & Fw' & Nd' & Ns').
  destruct (split_unique digit_char ds (w ++ t) ds' (w' ++ t')) as (-> & E2); auto.
  - transitivity s; auto.
  - destruct (split_unique space_char w t w' t' E2) as (-> & ->); auto.
Qed.

Lemma leading_number_cases : forall s,
  not_starting_with digit_char s \/ exists ds w t, leading_number ds w t s.
Proof.
  intros s. destruct (take_while digit_char digit_dec s) as (ds & r & -> & F & N).
  destruct ds as [|c ds]; [left; auto|].
  destruct (take_while space_char space_dec r) as (w & t & -> & Fw & Nw).
  right. exists (c :: ds), w, t. unfold leading_number, number. splits; auto. discriminate.
Qed.

Lemma decimal_nonneg : forall ds, Forall digit_char ds -> 0 <= decimal ds.
Proof. intros ds F. apply (decimal_acc_ge ds 0); auto. lia. Qed.

Lemma is_int_max : forall ds, Forall digit_char ds -> (is_int (decimal ds) <-> decimal ds <= int_max).
Proof.
  intros ds F. apply decimal_nonneg in F. unfold is_int, int_max. change (2 ^ 31) with 2147483648. lia.
Qed.

Section Ev.
Variable cfg : config.
Variable env : program.
Local Notation ev := (eval cfg env).

Lemma int_token_leading : fits_sequence cfg 2 -> forall n s ps ds w t, leading_number ds w t s ->
  (length s < n)%nat ->
  (is_int (decimal ds) -> ev n (PToken PInt) s ps = Accept (VInt (decimal ds)) t (adv ps (ds ++ w)))
  /\ (~ is_int (decimal ds) -> ev n (PToken PInt) s ps = Illformed).
Proof.
  intros Fs n s ps ds w t (-> & (Ne & F) & Fw & Nd & Ns) L. rewrite !app_length in L.
  change (PToken PInt) with int_token. rewrite ev_int_token.
  rewrite (is_int_max ds F). split; intros M.
  - apply token_accept; auto. exists (w ++ t), (adv ps ds), w.
    rewrite adv_app. splits; auto; try slia; try apply walk_adv.
    apply int_accept. exists ds. splits; auto; try slia. apply walk_adv.
  - unfold token. rewrite first_of_2 by auto. rewrite int_overflow; auto; slia.
Qed.

Lemma int_token_none : fits_sequence cfg 2 -> forall n s ps, not_starting_with digit_char s ->
  ev n (PToken PInt) s ps = Reject digit_expected ps.
Proof.
  intros Fs n s ps N. change (PToken PInt) with int_token. rewrite ev_int_token.
  apply token_reject; auto. apply int_reject. auto.
Qed.

(** ** Rational numbers *)

Lemma fits_seq : forall k, (k < limit_sequence cfg)%nat -> fits_sequence cfg k.
Proof. intros k L _. exact L. Qed.

Definition denominator : pexpr := POneOf [PLastOf [PLitC 47; PToken PInt]; PEmpty (VInt 1)].

Lemma ev_slash : fits_sequence cfg 2 -> forall n s ps, ev n (PLastOf [PLitC 47; PToken PInt]) s ps =
  match s with
  | c :: u => if c =? 47 then ev n (PToken PInt) u (next_pos c ps) else Reject (literal_expected 47) ps
  | [] => Reject (literal_expected 47) ps
  end.
Proof.
  intros Fs n s ps.
  assert (E : ev n (PLastOf [PLitC 47; PToken PInt]) = last_of cfg [lit_c 47; ev n (PToken PInt)])
    by (destruct n; reflexivity).
  rewrite E, last_of_2 by auto. destruct (lit_c_class 47) as (A & B & C). destruct s as [|c u].
  - rewrite C. reflexivity.
  - destruct (Z.eqb_spec c 47) as [->|Ne].
    + rewrite (A 47 u ps (adv ps [47])); auto. apply walk_adv.
    + rewrite (B c u ps Ne). reflexivity.
Qed.

Lemma ev_denominator : forall n s ps,
  ev n denominator s ps = one_of cfg [ev n (PLastOf [PLitC 47; PToken PInt]); empty (VInt 1)] s ps.
Proof. intros n s ps. destruct n; reflexivity. Qed.

Lemma ev_rational : (2 < limit_sequence cfg)%nat -> forall q n s ps,
  ev n (PEntireInput (PSequenceApply rational [PToken PInt; q]) end_of_input_expected) s ps =
  match ev n (PToken PInt) s ps with
  | Accept a t pt =>
      match ev n q t pt with
      | Accept b [] pe => Accept (VTmpl 0 [a; b]) [] pe
      | Accept b (_ :: _) pe => Reject end_of_input_expected pe
      | o => o
      end
  | o => o
  end.
Proof.
  intros Fs q n s ps.
  assert (E : ev n (PEntireInput (PSequenceApply rational [PToken PInt; q]) end_of_input_expected) s ps =
    entire_input cfg (sequence_apply cfg rational [ev n (PToken PInt); ev n q]) end_of_input_expected s ps)
    by (destruct n; reflexivity).
  rewrite E, entire_input_spec by (apply fits_seq; auto).
  rewrite sequence_apply_spec by (simpl; lia).
  rewrite sequence_cfg; [|apply fits_seq; auto | discriminate]. cbn [sequence_11].
  destruct (ev n (PToken PInt) s ps) as [a t pt | m pe | |]; auto.
  unfold transform. destruct (ev n q t pt) as [b u pu | m pe | |]; auto.
Qed.

Lemma one_of_2_first : fits_one_of cfg 2 -> forall (p q : pfun) s ps r s' ps', p s ps = Accept r s' ps' ->
  finishes q s ps -> one_of cfg [p; q] s ps = Accept r s' ps'.
Proof.
  intros F p q s ps r s' ps' E Q. apply one_of_cfg_accept; auto.
  apply first_accepting_cons. left. splits; auto.
  - do 3 eexists; eauto.
  - intros x [<-|[]]; auto.
Qed.

Lemma one_of_2_second : fits_one_of cfg 2 -> forall (p q : pfun) s ps r s' ps', rejects p s ps ->
  q s ps = Accept r s' ps' -> one_of cfg [p; q] s ps = Accept r s' ps'.
Proof.
  intros F p q s ps r s' ps' R E. apply one_of_cfg_accept; auto.
  apply first_accepting_cons. right. split; auto. apply first_accepting_cons. left. splits; auto.
  - do 3 eexists; eauto.
  - intros x [].
Qed.

Lemma one_of_2_ill : fits_one_of cfg 2 -> forall (p q : pfun) s ps, p s ps = Illformed ->
  one_of cfg [p; q] s ps = Illformed.
Proof.
  intros F p q s ps E. apply one_of_cfg_unfinished; auto.
  exists [], p, [q]. splits; auto. intros x [].
Qed.

Lemma Forall2_cons_inv : forall (A B : Type) (R : A -> B -> Prop) x l k, Forall2 R (x :: l) k ->
  exists y k', k = y :: k' /\ R x y /\ Forall2 R l k'.
Proof. intros A B R x l k H. inversion H; subst. eauto. Qed.
Lemma Forall2_nil_inv : forall (A B : Type) (R : A -> B -> Prop) k, Forall2 R [] k -> k = [].
Proof. intros A B R k H. inversion H; auto. Qed.

Lemma one_of_2_near : fits_one_of cfg 2 -> forall (p q : pfun) s ps m m', p s ps = Reject m ps ->
  q s ps = Reject m' ps -> exists k, one_of cfg [p; q] s ps = Reject k ps.
Proof.
  intros F p q s ps m m' E E'.
  assert (R : rejects (one_of cfg [p; q]) s ps).
  { apply one_of_cfg_all_reject; auto. intros x [<-|[<-|[]]]; do 2 eexists; eauto. }
  destruct R as (k & pe & R). exists k.
  destruct (one_of_cfg_reject_pos cfg [p; q] s ps k pe F R) as (es & A & _ & _ & B).
  destruct B as [->|(e & I & <-)]; auto.
  unfold all_reject in A. apply Forall2_cons_inv in A as (x & l & -> & A1 & A).
  apply Forall2_cons_inv in A as (y & l' & -> & A2 & A). apply Forall2_nil_inv in A as ->.
  destruct I as [<-|[<-|[]]]; congruence.
Qed.

Lemma one_of_2_far : fits_one_of cfg 2 -> forall (p q : pfun) s ps m m' pe, p s ps = Reject m pe ->
  q s ps = Reject m' ps -> pos_lt ps pe -> one_of cfg [p; q] s ps = Reject m pe.
Proof.
  intros F p q s ps m m' pe E E' L.
  assert (R : rejects (one_of cfg [p; q]) s ps).
  { apply one_of_cfg_all_reject; auto. intros x [<-|[<-|[]]]; do 2 eexists; eauto. }
  destruct R as (k & pk & R). rewrite R.
  assert (A : all_reject [p; q] s ps [(m, pe); (m', ps)]) by (repeat constructor; auto).
  assert (W : last_furthest [(m, pe); (m', ps)] (k, pk)).
  { destruct (cfg_std cfg) eqn:D.
    - eapply (one_of_98_winner cfg [p; q]); eauto; try discriminate.
      intros e [<-|[<-|[]]]; [left; auto | right; auto].
    - eapply (one_of_11_winner cfg [p; q]); eauto; try congruence.
      + intros e [<-|[<-|[]]]; [left; auto | right; auto].
      + exists (m, pe). simpl; auto.
    - eapply (one_of_11_winner cfg [p; q]); eauto; try congruence.
      + intros e [<-|[<-|[]]]; [left; auto | right; auto].
      + exists (m, pe). simpl; auto. }
  destruct W as (l1 & l2 & Eq & L1 & L2).
  destruct l1 as [|x l1]; simpl in Eq; inversion Eq; subst; auto.
  exfalso. destruct l1 as [|y l1]; simpl in *; inversion H1; subst.
  - destruct (L1 (m, pe)) as [X|X]; auto; simpl in X.
    + eapply pos_lt_irrefl. eapply pos_lt_trans; eauto.
    + subst. eapply pos_lt_irrefl; eauto.
  - destruct l1; discriminate.
Qed.

Lemma empty_finishes : forall v s ps, finishes (empty v) s ps.
Proof.
  intros v [|c s] ps; [left | right]; repeat eexists.
Qed.

(** What the parser of rational numbers does, case by case. *)
Lemma rational_cases : rational_fits cfg -> forall n s ps, (length s < n)%nat ->
  (not_starting_with digit_char s -> ev n rational_parser s ps = Reject digit_expected ps)
  /\ forall ds w t, leading_number ds w t s ->
    (~ is_int (decimal ds) -> ev n rational_parser s ps = Illformed)
    /\ (is_int (decimal ds) ->
        (t = [] -> ev n rational_parser s ps
                   = Accept (VTmpl 0 [VInt (decimal ds); VInt 1]) [] (adv ps (ds ++ w)))
        /\ (t <> [] -> not_starting_with (fun c => c = 47) t ->
            exists m, ev n rational_parser s ps = Reject m (adv ps (ds ++ w)))
        /\ forall u, t = 47 :: u ->
            (not_starting_with digit_char u ->
             ev n rational_parser s ps = Reject digit_expected (adv ps (ds ++ w ++ [47])))
            /\ forall ds' w' t', leading_number ds' w' t' u ->
               (~ is_int (decimal ds') -> ev n rational_parser s ps = Illformed)
               /\ (is_int (decimal ds') ->
                   (t' = [] -> ev n rational_parser s ps
                      = Accept (VTmpl 0 [VInt (decimal ds); VInt (decimal ds')]) []
                          (adv ps (ds ++ w ++ 47 :: ds' ++ w')))
                   /\ (t' <> [] -> ev n rational_parser s ps
                      = Reject end_of_input_expected (adv ps (ds ++ w ++ 47 :: ds' ++ w'))))).
Proof.
  intros (F1 & F2) n s ps L. assert (Fs : fits_sequence cfg 2) by (apply fits_seq; auto).
  unfold rational_parser, rational_grammar. rewrite ev_rational by auto. split.
  { intros N. rewrite int_token_none; auto. }
  intros ds w t Ld. destruct (int_token_leading Fs n s ps ds w t Ld L) as (Y & N). split.
  { intros H. rewrite N; auto. }
  intros H. rewrite (Y H). fold denominator. rewrite ev_denominator.
  assert (Lt : (length t <= length s)%nat).
  { destruct Ld as (-> & _). rewrite !app_length. slia. }
  split; [|split].
  - intros ->. rewrite (one_of_2_second F2 _ _ _ _ (VInt 1) [] (adv ps (ds ++ w))); auto.
    do 2 eexists. rewrite ev_slash by auto. reflexivity.
  - intros Ne N47. destruct (one_of_2_near F2 (ev n (PLastOf [PLitC 47; PToken PInt])) (empty (VInt 1)) t
      (adv ps (ds ++ w)) (literal_expected 47) end_of_input_expected) as (k & E); [| | exists k; rewrite E; auto].
    + rewrite ev_slash by auto. destruct t as [|c u]; auto. simpl in N47.
      destruct (Z.eqb_spec c 47); auto. contradiction.
    + destruct t; auto. contradiction.
  - intros u ->. set (p1 := adv ps (ds ++ w)). simpl in Lt.
    assert (P1 : adv ps (ds ++ w ++ [47]) = next_pos 47 p1)
      by (unfold p1; rewrite app_assoc, (adv_app (ds ++ w)); reflexivity).
    split.
    + intros Nd. rewrite P1.
      rewrite (one_of_2_far F2 _ _ _ _ digit_expected end_of_input_expected (next_pos 47 p1)); auto.
      * rewrite ev_slash by auto. change (47 =? 47) with true. cbv iota. apply int_token_none; auto.
      * apply next_pos_lt.
    + intros ds' w' t' Ld'.
      destruct (int_token_leading Fs n u (next_pos 47 p1) ds' w' t' Ld' ltac:(lia)) as (Y' & N').
      assert (P2 : adv ps (ds ++ w ++ 47 :: ds' ++ w') = adv (next_pos 47 p1) (ds' ++ w')).
      { rewrite <- P1, <- adv_app. f_equal. rewrite <- !app_assoc. reflexivity. }
      split.
      * intros H'. rewrite (one_of_2_ill F2); auto. rewrite ev_slash by auto.
        change (47 =? 47) with true. cbv iota. auto.
      * intros H'. rewrite P2.
        rewrite (one_of_2_first F2 _ _ _ _ (VInt (decimal ds')) t' (adv (next_pos 47 p1) (ds' ++ w'))).
        -- split; [intros ->; reflexivity|]. intros Ne. destruct t'; auto. contradiction.
        -- rewrite ev_slash by auto. change (47 =? 47) with true. cbv iota. auto.
        -- apply empty_finishes.
Qed.

Lemma minimal_rational_cases : (2 < limit_sequence cfg)%nat -> forall n s ps, (length s < n)%nat ->
  (not_starting_with digit_char s -> ev n minimal_rational_parser s ps = Reject digit_expected ps)
  /\ forall ds w t, leading_number ds w t s ->
    (~ is_int (decimal ds) -> ev n minimal_rational_parser s ps = Illformed)
    /\ (is_int (decimal ds) ->
        (not_starting_with (fun c => c = 47) t ->
            ev n minimal_rational_parser s ps = Reject (literal_expected 47) (adv ps (ds ++ w)))
        /\ forall u, t = 47 :: u ->
            (not_starting_with digit_char u ->
             ev n minimal_rational_parser s ps = Reject digit_expected (adv ps (ds ++ w ++ [47])))
            /\ forall ds' w' t', leading_number ds' w' t' u ->
               (~ is_int (decimal ds') -> ev n minimal_rational_parser s ps = Illformed)
               /\ (is_int (decimal ds') ->
                   (t' = [] -> ev n minimal_rational_parser s ps
                      = Accept (VTmpl 0 [VInt (decimal ds); VInt (decimal ds')]) []
                          (adv ps (ds ++ w ++ 47 :: ds' ++ w')))
                   /\ (t' <> [] -> ev n minimal_rational_parser s ps
                      = Reject end_of_input_expected (adv ps (ds ++ w ++ 47 :: ds' ++ w'))))).
Proof.
  intros F1 n s ps L. assert (Fs : fits_sequence cfg 2) by (apply fits_seq; auto).
  unfold minimal_rational_parser, minimal_rational_grammar. rewrite ev_rational by auto. split.
  { intros N. rewrite int_token_none; auto. }
  intros ds w t Ld. destruct (int_token_leading Fs n s ps ds w t Ld L) as (Y & N). split.
  { intros H. rewrite N; auto. }
  intros H. rewrite (Y H).
  assert (Lt : (length t <= length s)%nat).
  { destruct Ld as (-> & _). rewrite !app_length. slia. }
  rewrite ev_slash by auto. split.
  - intros N47. destruct t as [|c u]; auto. simpl in N47. destruct (Z.eqb_spec c 47); auto. contradiction.
  - intros u ->. set (p1 := adv ps (ds ++ w)). simpl in Lt.
    assert (P1 : adv ps (ds ++ w ++ [47]) = next_pos 47 p1)
      by (unfold p1; rewrite app_assoc, (adv_app (ds ++ w)); reflexivity).
    change (47 =? 47) with true. cbv iota. split.
    + intros Nd. rewrite P1. rewrite int_token_none; auto.
    + intros ds' w' t' Ld'.
      destruct (int_token_leading Fs n u (next_pos 47 p1) ds' w' t' Ld' ltac:(lia)) as (Y' & N').
      assert (P2 : adv ps (ds ++ w ++ 47 :: ds' ++ w') = adv (next_pos 47 p1) (ds' ++ w')).
      { rewrite <- P1, <- adv_app. f_equal. rewrite <- !app_assoc. reflexivity. }
      split.
      * intros H'. rewrite N'; auto.
      * intros H'. rewrite P2, Y' by auto.
        split; [intros ->; reflexivity|]. intros Ne. destruct t'; auto. contradiction.
Qed.

End Ev.

Lemma fraction_leading : forall s a b, fraction_text s a b <->
  exists ds w u ds' w', leading_number ds w (47 :: u) s /\ leading_number ds' w' [] u
    /\ a = decimal ds /\ b = decimal ds'.
Proof.
  intros s a b. split.
  - intros H. inversion H as [ds w ds' w' (Ne & F) Fw (Ne' & F') Fw']; subst.
    exists ds, w, (ds' ++ w'), ds', w'. splits; auto.
    + unfold leading_number, number. splits; auto.
      * apply spaces_no_digit; auto. simpl. unfold digit_char. lia.
      * simpl. unfold space_char. lia.
    + unfold leading_number, number. rewrite app_nil_r. splits; simpl; auto.
      rewrite <- (app_nil_r w'). apply spaces_no_digit; simpl; auto.
  - intros (ds & w & u & ds' & w' & (-> & N & Fw & _) & (-> & N' & Fw' & _) & -> & ->).
    rewrite app_nil_r. constructor; auto.
Qed.

Lemma rational_leading : forall s a b, rational_text s a b <->
  (exists ds w, leading_number ds w [] s /\ a = decimal ds /\ b = 1) \/ fraction_text s a b.
Proof.
  intros s a b. split.
  - intros H. inversion H as [ds w (Ne & F) Fw|]; subst; auto. left. exists ds, w. splits; auto.
    unfold leading_number, number. rewrite app_nil_r. splits; simpl; auto.
    rewrite <- (app_nil_r w). apply spaces_no_digit; simpl; auto.
  - intros [(ds & w & (-> & N & Fw & _) & -> & ->)|H].
    + rewrite app_nil_r. constructor; auto.
    + constructor; auto.
Qed.

Lemma is_int_1 : is_int 1.
Proof. unfold is_int. change (2 ^ 31) with 2147483648. lia. Qed.

Lemma slash_dec : forall t : str, t = [] \/ (exists u, t = 47 :: u)
  \/ (t <> [] /\ not_starting_with (fun c => c = 47) t).
Proof.
  intros [|c u]; auto. destruct (Z.eq_dec c 47) as [->|N]; [right; left; eauto | right; right].
  split; [discriminate | exact N].
Qed.

Lemma rational_verdict : forall cfg env n s ps, rational_fits cfg -> (length s < n)%nat ->
  (forall v rem ps', eval cfg env n rational_parser s ps = Accept v rem ps' <->
     rem = [] /\ ps' = adv ps s /\
     exists a b, v = VTmpl 0 [VInt a; VInt b] /\ rational_text s a b /\ is_int a /\ is_int b)
  /\ (eval cfg env n rational_parser s ps = Illformed <-> number_too_large s)
  /\ eval cfg env n rational_parser s ps <> OutOfFuel.
Proof.
  intros cfg env n s ps F L. destruct (rational_cases cfg env F n s ps L) as (C1 & C2).
  destruct (leading_number_cases s) as [Nd | (ds & w & t & Ld)].
  - rewrite (C1 Nd). splits; try discriminate.
    + intros v rem ps'. split; [discriminate|]. intros (_ & _ & a & b & _ & R & _).
      exfalso. apply rational_leading in R as [(ds & w & Ld & _)|R].
      * destruct Ld as (-> & (Ne & Fd) & _). destruct ds; [auto|]. inversion Fd; subst. exact (Nd H1).
      * apply fraction_leading in R as (ds & w & u & _ & _ & Ld & _).
        destruct Ld as (-> & (Ne & Fd) & _). destruct ds; [auto|]. inversion Fd; subst. exact (Nd H1).
    + split; [discriminate|]. intros (ds & w & t & (-> & (Ne & Fd) & _) & _).
      destruct ds; [destruct (Ne eq_refl)|]. inversion Fd; subst. destruct (Nd H1).
  - destruct (C2 ds w t Ld) as (C3 & C4).
    assert (U : forall ds' w' t', leading_number ds' w' t' s -> ds' = ds /\ w' = w /\ t' = t)
      by (intros; eapply leading_number_unique; eauto).
    destruct (is_int_dec (decimal ds)) as [I|I].
    2:{ rewrite (C3 I). splits; try discriminate.
        - intros v rem ps'. split; [discriminate|]. intros (_ & _ & a & b & _ & R & Ia & _).
          exfalso. apply rational_leading in R as [(ds1 & w1 & Ld1 & -> & _)|R].
          + apply U in Ld1 as (-> & _). contradiction.
          + apply fraction_leading in R as (ds1 & w1 & u & _ & _ & Ld1 & _ & -> & _).
            apply U in Ld1 as (-> & _). contradiction.
        - split; auto. intros _. exists ds, w, t. auto. }
    destruct (C4 I) as (C5 & C6 & C7). clear C3 C4.
    destruct (slash_dec t) as [-> | [(u & ->) | (Ne & N47)]].
    + rewrite (C5 eq_refl). splits; try discriminate.
      * intros v rem ps'. split.
        -- intros E. inversion E; subst. destruct (Ld) as (-> & Nb & Fw & _). rewrite app_nil_r.
           splits; auto. exists (decimal ds), 1. splits; auto using is_int_1. constructor; auto.
        -- intros (-> & -> & a & b & -> & R & _).
           assert (Es : s = ds ++ w) by (destruct Ld as (-> & _); rewrite app_nil_r; auto).
           rewrite <- Es. apply rational_leading in R as [(ds1 & w1 & Ld1 & -> & ->)|R].
           ++ apply U in Ld1 as (-> & _). reflexivity.
           ++ apply fraction_leading in R as (ds1 & w1 & u & _ & _ & Ld1 & _ & -> & _).
              apply U in Ld1 as (_ & _ & X). discriminate.
      * split; [discriminate|]. intros (ds1 & w1 & t1 & Ld1 & [J|J]); apply U in Ld1 as (-> & -> & ->).
        -- contradiction.
        -- destruct J as (? & ? & ? & ? & ? & _). discriminate.
    + destruct (C7 u eq_refl) as (C8 & C9). clear C5 C6 C7.
      destruct (leading_number_cases u) as [Nu | (ds' & w' & t' & Lu)].
      * rewrite (C8 Nu). splits; try discriminate.
        -- intros v rem ps'. split; [discriminate|]. intros (_ & _ & a & b & _ & R & _).
           exfalso. apply rational_leading in R as [(ds1 & w1 & Ld1 & _)|R].
           ++ apply U in Ld1 as (_ & _ & X). discriminate.
           ++ apply fraction_leading in R as (ds1 & w1 & u1 & ds2 & w2 & Ld1 & Lu & _).
              apply U in Ld1 as (_ & _ & X). inversion X; subst.
              destruct Lu as (-> & (Ne & Fd) & _). destruct ds2; [auto|]. inversion Fd; subst. exact (Nu H1).
        -- split; [discriminate|]. intros (ds1 & w1 & t1 & Ld1 & [J|J]); apply U in Ld1 as (-> & -> & ->).
           ++ contradiction.
           ++ destruct J as (ds2 & w2 & t2 & u2 & X & Lu & _). inversion X; subst.
              destruct Lu as (-> & (Ne & Fd) & _). destruct ds2; [destruct (Ne eq_refl)|].
              inversion Fd; subst. destruct (Nu H1).
      * destruct (C9 ds' w' t' Lu) as (D1 & D2).
        assert (U' : forall ds2 w2 t2, leading_number ds2 w2 t2 u -> ds2 = ds' /\ w2 = w' /\ t2 = t')
          by (intros; eapply leading_number_unique; eauto).
        destruct (is_int_dec (decimal ds')) as [I'|I'].
        2:{ rewrite (D1 I'). splits; try discriminate.
            - intros v rem ps'. split; [discriminate|]. intros (_ & _ & a & b & _ & R & _ & Ib).
              exfalso. apply rational_leading in R as [(ds1 & w1 & Ld1 & _)|R].
              + apply U in Ld1 as (_ & _ & X). discriminate.
              + apply fraction_leading in R as (ds1 & w1 & u1 & ds2 & w2 & Ld1 & Lu1 & _ & ->).
                apply U in Ld1 as (_ & _ & X). inversion X; subst. apply U' in Lu1 as (-> & _). contradiction.
            - split; auto. intros _. exists ds, w, (47 :: u). split; auto. right.
              exists ds', w', t', u. auto. }
        destruct (D2 I') as (D3 & D4).
        assert (NT : ~ number_too_large s).
        { intros (ds1 & w1 & t1 & Ld1 & [J|J]); apply U in Ld1 as (-> & -> & ->); [contradiction|].
          destruct J as (ds2 & w2 & t2 & u2 & X & Lu2 & J). inversion X; subst.
          apply U' in Lu2 as (-> & _). contradiction. }
        assert (Es : s = ds ++ w ++ 47 :: ds' ++ w' ++ t').
        { destruct Ld as (-> & _). destruct Lu as (-> & _). reflexivity. }
        destruct t' as [|c t'].
        -- rewrite (D3 eq_refl). rewrite app_nil_r in Es. rewrite <- Es. splits; try discriminate.
           ++ intros v rem ps'. split.
              ** intros E. inversion E; subst v rem ps'. splits; auto.
                 exists (decimal ds), (decimal ds'). splits; auto. rewrite Es. constructor. constructor.
                 --- apply Ld.
                 --- apply Ld.
                 --- apply Lu.
                 --- apply Lu.
              ** intros (-> & -> & a & b & -> & R & _).
                 apply rational_leading in R as [(ds1 & w1 & Ld1 & _)|R].
                 --- apply U in Ld1 as (_ & _ & X). discriminate.
                 --- apply fraction_leading in R as (ds1 & w1 & u1 & ds2 & w2 & Ld1 & Lu1 & -> & ->).
                     apply U in Ld1 as (-> & -> & X). inversion X; subst u1. apply U' in Lu1 as (-> & _).
                     reflexivity.
           ++ split; [discriminate | tauto].
        -- rewrite D4 by discriminate. splits; try discriminate.
           ++ intros v rem ps'. split; [discriminate|]. intros (_ & _ & a & b & _ & R & _).
              exfalso. apply rational_leading in R as [(ds1 & w1 & Ld1 & _)|R].
              ** apply U in Ld1 as (_ & _ & X). discriminate.
              ** apply fraction_leading in R as (ds1 & w1 & u1 & ds2 & w2 & Ld1 & Lu1 & _).
                 apply U in Ld1 as (_ & _ & X). inversion X; subst. apply U' in Lu1 as (_ & _ & Y). discriminate.
           ++ split; [discriminate | tauto].
    + destruct (C6 Ne N47) as (m & ->). splits; try discriminate.
      * intros v rem ps'. split; [discriminate|]. intros (_ & _ & a & b & _ & R & _).
        exfalso. apply rational_leading in R as [(ds1 & w1 & Ld1 & _)|R].
        -- apply U in Ld1 as (_ & _ & X). apply Ne. auto.
        -- apply fraction_leading in R as (ds1 & w1 & u & _ & _ & Ld1 & _).
           apply U in Ld1 as (_ & _ & <-). apply N47. reflexivity.
      * split; [discriminate|]. intros (ds1 & w1 & t1 & Ld1 & [J|J]); apply U in Ld1 as (-> & -> & ->).
        -- contradiction.
        -- destruct J as (? & ? & ? & ? & -> & _). destruct (N47 eq_refl).
Qed.

Lemma minimal_rational_verdict : forall cfg env n s ps, (2 < limit_sequence cfg)%nat -> (length s < n)%nat ->
  (forall v rem ps', eval cfg env n minimal_rational_parser s ps = Accept v rem ps' <->
     rem = [] /\ ps' = adv ps s /\
     exists a b, v = VTmpl 0 [VInt a; VInt b] /\ fraction_text s a b /\ is_int a /\ is_int b)
  /\ (eval cfg env n minimal_rational_parser s ps = Illformed <-> number_too_large s)
  /\ eval cfg env n minimal_rational_parser s ps <> OutOfFuel.
Proof.
  intros cfg env n s ps F L. destruct (minimal_rational_cases cfg env F n s ps L) as (C1 & C2).
  destruct (leading_number_cases s) as [Nd | (ds & w & t & Ld)].
  - rewrite (C1 Nd). splits; try discriminate.
    + intros v rem ps'. split; [discriminate|]. intros (_ & _ & a & b & _ & R & _).
      exfalso. apply fraction_leading in R as (ds & w & u & _ & _ & Ld & _).
      destruct Ld as (-> & (Ne & Fd) & _). destruct ds; [auto|]. inversion Fd; subst. exact (Nd H1).
    + split; [discriminate|]. intros (ds & w & t & (-> & (Ne & Fd) & _) & _).
      destruct ds; [destruct (Ne eq_refl)|]. inversion Fd; subst. destruct (Nd H1).
  - destruct (C2 ds w t Ld) as (C3 & C4).
    assert (U : forall ds' w' t', leading_number ds' w' t' s -> ds' = ds /\ w' = w /\ t' = t)
      by (intros; eapply leading_number_unique; eauto).
    destruct (is_int_dec (decimal ds)) as [I|I].
    2:{ rewrite (C3 I). splits; try discriminate.
        - intros v rem ps'. split; [discriminate|]. intros (_ & _ & a & b & _ & R & Ia & _).
          exfalso. apply fraction_leading in R as (ds1 & w1 & u & _ & _ & Ld1 & _ & -> & _).
          apply U in Ld1 as (-> & _). contradiction.
        - split; auto. intros _. exists ds, w, t. auto. }
    destruct (C4 I) as (C6 & C7). clear C3 C4.
    destruct (slash_dec t) as [-> | [(u & ->) | (Ne & N47)]].
    + rewrite (C6 Logic.I). splits; try discriminate.
      * intros v rem ps'. split; [discriminate|]. intros (_ & _ & a & b & _ & R & _).
        exfalso. apply fraction_leading in R as (ds1 & w1 & u & _ & _ & Ld1 & _ & -> & _).
        apply U in Ld1 as (_ & _ & X). discriminate.
      * split; [discriminate|]. intros (ds1 & w1 & t1 & Ld1 & [J|J]); apply U in Ld1 as (-> & -> & ->).
        -- contradiction.
        -- destruct J as (? & ? & ? & ? & ? & _). discriminate.
    + destruct (C7 u eq_refl) as (C8 & C9). clear C6 C7.
      destruct (leading_number_cases u) as [Nu | (ds' & w' & t' & Lu)].
      * rewrite (C8 Nu). splits; try discriminate.
        -- intros v rem ps'. split; [discriminate|]. intros (_ & _ & a & b & _ & R & _).
           exfalso. apply fraction_leading in R as (ds1 & w1 & u1 & ds2 & w2 & Ld1 & Lu & _).
           apply U in Ld1 as (_ & _ & X). inversion X; subst.
           destruct Lu as (-> & (Ne & Fd) & _). destruct ds2; [auto|]. inversion Fd; subst. exact (Nu H1).
        -- split; [discriminate|]. intros (ds1 & w1 & t1 & Ld1 & [J|J]); apply U in Ld1 as (-> & -> & ->).
           ++ contradiction.
           ++ destruct J as (ds2 & w2 & t2 & u2 & X & Lu & _). inversion X; subst.
              destruct Lu as (-> & (Ne & Fd) & _). destruct ds2; [destruct (Ne eq_refl)|].
              inversion Fd; subst. destruct (Nu H1).
      * destruct (C9 ds' w' t' Lu) as (D1 & D2).
        assert (U' : forall ds2 w2 t2, leading_number ds2 w2 t2 u -> ds2 = ds' /\ w2 = w' /\ t2 = t')
          by (intros; eapply leading_number_unique; eauto).
        destruct (is_int_dec (decimal ds')) as [I'|I'].
        2:{ rewrite (D1 I'). splits; try discriminate.
            - intros v rem ps'. split; [discriminate|]. intros (_ & _ & a & b & _ & R & _ & Ib).
              exfalso. apply fraction_leading in R as (ds1 & w1 & u1 & ds2 & w2 & Ld1 & Lu1 & _ & ->).
              apply U in Ld1 as (_ & _ & X). inversion X; subst. apply U' in Lu1 as (-> & _). contradiction.
            - split; auto. intros _. exists ds, w, (47 :: u). split; auto. right.
              exists ds', w', t', u. auto. }
        destruct (D2 I') as (D3 & D4).
        assert (NT : ~ number_too_large s).
        { intros (ds1 & w1 & t1 & Ld1 & [J|J]); apply U in Ld1 as (-> & -> & ->); [contradiction|].
          destruct J as (ds2 & w2 & t2 & u2 & X & Lu2 & J). inversion X; subst.
          apply U' in Lu2 as (-> & _). contradiction. }
        assert (Es : s = ds ++ w ++ 47 :: ds' ++ w' ++ t').
        { destruct Ld as (-> & _). destruct Lu as (-> & _). reflexivity. }
        destruct t' as [|c t'].
        -- rewrite (D3 eq_refl). rewrite app_nil_r in Es. rewrite <- Es. splits; try discriminate.
           ++ intros v rem ps'. split.
              ** intros E. inversion E; subst v rem ps'. splits; auto.
                 exists (decimal ds), (decimal ds'). splits; auto. rewrite Es. constructor.
                 --- apply Ld.
                 --- apply Ld.
                 --- apply Lu.
                 --- apply Lu.
              ** intros (-> & -> & a & b & -> & R & _).
                 apply fraction_leading in R as (ds1 & w1 & u1 & ds2 & w2 & Ld1 & Lu1 & -> & ->).
                 apply U in Ld1 as (-> & -> & X). inversion X; subst u1. apply U' in Lu1 as (-> & _).
                 reflexivity.
           ++ split; [discriminate | tauto].
        -- rewrite D4 by discriminate. splits; try discriminate.
           ++ intros v rem ps'. split; [discriminate|]. intros (_ & _ & a & b & _ & R & _).
              exfalso. apply fraction_leading in R as (ds1 & w1 & u1 & ds2 & w2 & Ld1 & Lu1 & _).
              apply U in Ld1 as (_ & _ & X). inversion X; subst. apply U' in Lu1 as (_ & _ & Y). discriminate.
           ++ split; [discriminate | tauto].
    + rewrite (C6 N47). splits; try discriminate.
      * intros v rem ps'. split; [discriminate|]. intros (_ & _ & a & b & _ & R & _).
        exfalso. apply fraction_leading in R as (ds1 & w1 & u & _ & _ & Ld1 & _).
        apply U in Ld1 as (_ & _ & <-). apply N47. reflexivity.
      * split; [discriminate|]. intros (ds1 & w1 & t1 & Ld1 & [J|J]); apply U in Ld1 as (-> & -> & ->).
        -- contradiction.
        -- destruct J as (? & ? & ? & ? & -> & _). destruct (N47 eq_refl).
Qed.

(** ** Folding over characters *)

(** [p] reads one character of the class [P], with the result [g c]. *)
Definition reads (P : char -> Prop) (g : char -> value) (p : pfun) : Prop :=
  (forall c s ps, P c -> p (c :: s) ps = Accept (g c) s (next_pos c ps))
  /\ (forall s ps, not_starting_with P s -> exists m, p s ps = Reject m ps).

Lemma class_reads : forall P m1 m2 p, char_class_parser P m1 m2 p -> reads P VChar p.
Proof.
  intros P m1 m2 p (A & B & C). split.
  - intros c s ps H. apply A; auto. apply walk_iff. reflexivity.
  - intros [|c s] ps N; eauto.
Qed.

Lemma reads_transform : forall P g p f h, reads P g p -> (forall c, P c -> f (g c) = Some (h c)) ->
  reads P h (transform p f).
Proof.
  intros P g p f h (A & B) H. split.
  - intros c s ps Pc. unfold transform. rewrite A, H by auto. reflexivity.
  - intros s ps N. destruct (B s ps N) as (m & E). exists m. unfold transform. rewrite E. auto.
Qed.

Lemma reads_always : forall P g p v, reads P g p -> reads P (fun _ => v) (always p v).
Proof.
  intros P g p v (A & B). split.
  - intros c s ps Pc. unfold always. rewrite A by auto. reflexivity.
  - intros s ps N. destruct (B s ps N) as (m & E). exists m. unfold always. rewrite E. auto.
Qed.

Lemma reads_foldl : forall P g p, reads P g p -> forall f w n st t ps, Forall P w ->
  not_starting_with P t -> (length w < n)%nat ->
  foldl n p st f (w ++ t) ps
  = match lfold_o f (map g w) st with Some v => Accept v t (adv ps w) | None => Illformed end.
Proof.
  intros P g p (A & B) f. induction w as [|c w IH]; intros n st t ps F N L.
  - destruct n; [simpl in L; lia|]. cbn [foldl app map]. destruct (B t ps N) as (m & ->).
    destruct st; reflexivity.
  - destruct n; [simpl in L; lia|]. inversion F; subst. cbn [foldl app map]. rewrite A by auto.
    simpl in L. destruct st as [v|].
    + rewrite IH by (auto; lia). reflexivity.
    + reflexivity.
Qed.

Lemma reads_foldl_ri : forall P g p, reads P g p -> forall f w n st t ps, Forall P w ->
  not_starting_with P t -> (length w < n)%nat ->
  foldl_reject_incomplete n p st f (w ++ t) ps
  = match lfold_o f (map g w) st with Some v => Accept v t (adv ps w) | None => Illformed end.
Proof.
  intros P g p (A & B) f. induction w as [|c w IH]; intros n st t ps F N L.
  - destruct n; [simpl in L; lia|]. cbn [foldl_reject_incomplete app map]. destruct (B t ps N) as (m & ->).
    rewrite pos_equal_to_refl. destruct st; reflexivity.
  - destruct n; [simpl in L; lia|]. inversion F; subst. cbn [foldl_reject_incomplete app map]. rewrite A by auto.
    simpl in L. destruct st as [v|].
    + rewrite IH by (auto; lia). reflexivity.
    + reflexivity.
Qed.

Lemma first_char : forall (P : char -> Prop) w t, w <> [] -> Forall P w -> not_starting_with P (w ++ t) -> False.
Proof. intros P [|c w] t Ne F N; [auto|]. inversion F; subst. exact (N H1). Qed.

(** ** Binary numbers *)

Lemma bit_dec : forall c, {bit_char c} + {~ bit_char c}.
Proof.
  intros c. unfold bit_char. destruct (Z.eq_dec c 48); [left; auto|]. destruct (Z.eq_dec c 49); [left; auto|].
  right. tauto.
Qed.

Fixpoint binary_acc (a : Z) (w : str) : Z :=
  match w with [] => a | c :: w' => binary_acc (2 * a + (c - 48)) w' end.

Lemma binary_acc_app : forall u w a, binary_acc a (u ++ w) = binary_acc (binary_acc a u) w.
Proof. induction u; simpl; auto. Qed.

Lemma binary_acc_ge : forall w a, Forall bit_char w -> 0 <= a -> a <= binary_acc a w.
Proof.
  induction w as [|c w IH]; intros a F H; cbn [binary_acc]; [lia|]. inversion F; subst.
  assert (c - 48 >= 0) by (destruct H2; subst; lia).
  specialize (IH (2 * a + (c - 48)) H3 ltac:(slia)). slia.
Qed.

Lemma binary_text_iff : forall s z, binary_text s z <-> s <> [] /\ Forall bit_char s /\ z = binary_acc 0 s.
Proof.
  intros s z. split.
  - intros H. induction H as [c B | s z c H (Ne & F & ->) B].
    + split; [discriminate|]. split; [auto|]. reflexivity.
    + splits.
      * destruct s; discriminate.
      * apply Forall_app; auto.
      * rewrite binary_acc_app. reflexivity.
  - revert z. induction s as [|c s IH] using rev_ind; intros z (Ne & F & ->); [contradiction|].
    apply Forall_app in F as (F & B). inversion B; subst. rewrite binary_acc_app.
    destruct s as [|d s].
    + exact (bt_one c H1).
    + apply (bt_more (d :: s)); auto. apply IH. splits; auto. discriminate.
Qed.

Lemma next_element_spec : forall a b, 0 <= a -> 0 <= b ->
  next_element (VInt a) (VInt b) = if int_ok (2 * a + b) then Some (VInt (2 * a + b)) else None.
Proof.
  intros a b Ha Hb. unfold next_element, mpl_times, mpl_arith. cbn [as_int]. unfold int_constant.
  replace (a * 2) with (2 * a) by lia.
  destruct (int_ok (2 * a)) eqn:E.
  - unfold mpl_plus, mpl_arith. cbn [as_int]. reflexivity.
  - destruct (int_ok (2 * a + b)) eqn:E'; auto. unfold int_ok, int_min, int_max in *. slia.
Qed.

Lemma binary_lfold : forall w a, Forall bit_char w -> is_int a -> 0 <= a ->
  lfold next_element (map (fun c => VInt (c - 48)) w) (VInt a)
  = if int_ok (binary_acc a w) then Some (VInt (binary_acc a w)) else None.
Proof.
  induction w as [|c w IH]; intros a F I P; cbn [map lfold binary_acc].
  - apply int_ok_iff in I. rewrite I. auto.
  - inversion F; subst. assert (Hc : 0 <= c - 48) by (destruct H1; subst; slia).
    rewrite next_element_spec by auto. destruct (int_ok (2 * a + (c - 48))) eqn:E.
    + apply IH; auto; [apply int_ok_iff; auto | slia].
    + destruct (int_ok (binary_acc (2 * a + (c - 48)) w)) eqn:E'; auto.
      pose proof (binary_acc_ge w (2 * a + (c - 48)) H2 ltac:(slia)).
      unfold int_ok, int_min, int_max in *. slia.
Qed.

Lemma bit_reads : forall cfg, fits_one_of_c cfg 2 ->
  reads bit_char (fun c => VInt (c - 48)) (transform (one_of_c cfg [48; 49]) digit_to_int).
Proof.
  intros cfg F.
  assert (C := one_of_c_class cfg [48; 49] F). apply class_reads in C.
  apply reads_transform with (g := VChar).
  - destruct C as (A & B). split.
    + intros c s ps [->| ->]; apply A; simpl; auto.
    + intros s ps N. apply B. destruct s as [|c s]; auto. simpl in *. intros [<-|[<-|[]]]; apply N; unfold bit_char; auto.
  - intros c [->| ->]; reflexivity.
Qed.

Lemma ev_binary : forall cfg env n s ps, fits_sequence cfg 2 ->
  eval cfg env n binary_parser s ps =
  match foldl1 n (transform (one_of_c cfg [48; 49]) digit_to_int) (Some (VInt 0)) next_element s ps with
  | Accept r [] p1 => Accept r [] p1
  | Accept r (_ :: _) p1 => Reject end_of_input_expected p1
  | o => o
  end.
Proof.
  intros cfg env n s ps Fs.
  transitivity (entire_input cfg (foldl1 n (transform (one_of_c cfg [48; 49]) digit_to_int) (Some (VInt 0))
    next_element) end_of_input_expected s ps).
  - destruct n; reflexivity.
  - apply entire_input_spec; auto.
Qed.

(** What the parser does, case by case. *)
Lemma binary_cases : forall cfg env n w t ps, fits_sequence cfg 2 -> fits_one_of_c cfg 2 ->
  (length w < n)%nat -> Forall bit_char w -> not_starting_with bit_char t ->
  (w = [] -> exists m, eval cfg env n binary_parser (w ++ t) ps = Reject m ps)
  /\ (w <> [] ->
      (~ is_int (binary_acc 0 w) -> eval cfg env n binary_parser (w ++ t) ps = Illformed)
      /\ (is_int (binary_acc 0 w) -> t = [] ->
          eval cfg env n binary_parser (w ++ t) ps = Accept (VInt (binary_acc 0 w)) [] (adv ps w))
      /\ (is_int (binary_acc 0 w) -> t <> [] ->
          eval cfg env n binary_parser (w ++ t) ps = Reject end_of_input_expected (adv ps w))).
Proof.
  intros cfg env n w t ps Fs Fo L F N. rewrite ev_binary by auto. pose proof (bit_reads cfg Fo) as R.
  split.
  - intros ->. destruct R as (_ & B). destruct (B t ps N) as (m & E). exists m. unfold foldl1.
    simpl app. rewrite E. reflexivity.
  - intros Ne. assert (E : foldl1 n (transform (one_of_c cfg [48; 49]) digit_to_int) (Some (VInt 0)) next_element
      (w ++ t) ps = foldl n (transform (one_of_c cfg [48; 49]) digit_to_int) (Some (VInt 0)) next_element
      (w ++ t) ps).
    { unfold foldl1. destruct w as [|c w]; [contradiction|]. inversion F; subst. destruct R as (A & _).
      simpl app. rewrite A; auto. }
    rewrite E, (reads_foldl _ _ _ R) by auto. unfold lfold_o.
    rewrite binary_lfold; auto; [| unfold is_int; change (2 ^ 31) with 2147483648; lia | lia].
    splits.
    + intros H. destruct (int_ok (binary_acc 0 w)) eqn:K; auto. apply int_ok_iff in K. contradiction.
    + intros H ->. apply int_ok_iff in H. rewrite H. auto.
    + intros H Nt. apply int_ok_iff in H. rewrite H. destruct t; auto. contradiction.
Qed.

Lemma binary_prefix_large : forall s u t z, s = u ++ t -> Forall bit_char s -> binary_text u z -> ~ is_int z ->
  ~ is_int (binary_acc 0 s).
Proof.
  intros s u t z -> F B N I. apply binary_text_iff in B as (_ & Fu & ->). apply Forall_app in F as (_ & Ft).
  rewrite binary_acc_app in I.
  pose proof (binary_acc_ge u 0 Fu ltac:(lia)). pose proof (binary_acc_ge t (binary_acc 0 u) Ft H).
  unfold is_int in *. lia.
Qed.

Lemma binary_verdict : forall cfg env n s ps, fits_sequence cfg 2 -> fits_one_of_c cfg 2 ->
  (length s < n)%nat ->
  (forall v rem ps', eval cfg env n binary_parser s ps = Accept v rem ps' <->
     rem = [] /\ ps' = adv ps s /\ exists z, v = VInt z /\ binary_text s z /\ is_int z)
  /\ (eval cfg env n binary_parser s ps = Illformed <->
      exists u t z, s = u ++ t /\ binary_text u z /\ ~ is_int z)
  /\ (forall m pe, eval cfg env n binary_parser s ps = Reject m pe ->
      exists u t, s = u ++ t /\ Forall bit_char u /\ not_starting_with bit_char t
        /\ pe = adv ps u /\ (u = [] \/ (t <> [] /\ m = end_of_input_expected)))
  /\ eval cfg env n binary_parser s ps <> OutOfFuel.
Proof.
  intros cfg env n s ps Fs Fo L. destruct (take_while bit_char bit_dec s) as (w & t & -> & F & N).
  rewrite app_length in L.
  destruct (binary_cases cfg env n w t ps Fs Fo ltac:(lia) F N) as (C1 & C2).
  assert (NB : w = [] \/ t <> [] -> forall z, ~ binary_text (w ++ t) z).
  { intros H z B. apply binary_text_iff in B as (Ne & Fb & _). apply Forall_app in Fb as (_ & Ft).
    destruct t as [|c t]; [destruct H; [subst; auto | auto]|]. inversion Ft; subst. exact (N H2). }
  assert (LI : is_int (binary_acc 0 w) -> ~ exists u t0 z, w ++ t = u ++ t0 /\ binary_text u z /\ ~ is_int z).
  { intros I (u & t0 & z & E & B & Nz). pose proof B as B'. apply binary_text_iff in B' as (_ & Fu & Ez).
    destruct (take_while bit_char bit_dec t0) as (u' & t' & -> & Fu' & N').
    rewrite app_assoc in E. destruct (split_unique bit_char w t (u ++ u') t') as (-> & _); auto.
    { apply Forall_app; auto. }
    revert I. eapply (binary_prefix_large (u ++ u') u u'); eauto. }
  destruct w as [|c w].
  - destruct (C1 eq_refl) as (m & ->). splits; try discriminate.
    + intros v rem ps'. split; [discriminate|]. intros (_ & _ & z & _ & B & _). exfalso. eapply NB; eauto.
    + split; [discriminate|]. intros H. exfalso. revert H. apply LI. unfold is_int. simpl binary_acc. change (2 ^ 31) with 2147483648. lia.
    + intros m' pe E. inversion E; subst. exists [], t. splits; auto.
  - destruct (C2 ltac:(discriminate)) as (C3 & C4 & C5). set (W := c :: w) in *. clear C1 C2.
    destruct (is_int_dec (binary_acc 0 W)) as [I|I].
    + destruct t as [|d t].
      * rewrite C4 by auto. rewrite app_nil_r in *. splits; try discriminate.
        -- intros v rem ps'. split.
           ++ intros E. inversion E; subst v rem ps'. splits; auto. exists (binary_acc 0 W). splits; auto.
              apply binary_text_iff. splits; auto. discriminate.
           ++ intros (-> & -> & z & -> & B & _). apply binary_text_iff in B as (_ & _ & ->). reflexivity.
        -- split; [discriminate|]. intros H. destruct (LI I H).
      * rewrite C5 by (auto; discriminate). splits; try discriminate.
        -- intros v rem ps'. split; [discriminate|]. intros (_ & _ & z & _ & B & _). exfalso.
           eapply NB; eauto. right; discriminate.
        -- split; [discriminate|]. intros H. destruct (LI I H).
        -- intros m pe E. inversion E; subst. exists W, (d :: t). splits; auto. right; split; auto. discriminate.
    + rewrite (C3 I). splits; try discriminate.
      * intros v rem ps'. split; [discriminate|]. intros (_ & _ & z & _ & B & Iz). exfalso.
        apply binary_text_iff in B as (_ & Fb & ->). apply Forall_app in Fb as (_ & Ft).
        destruct t as [|d t]; [rewrite app_nil_r in Iz; auto|]. inversion Ft; subst. exact (N H1).
      * split; auto. intros _. exists W, t, (binary_acc 0 W). splits; auto.
        apply binary_text_iff. splits; auto. discriminate.
Qed.

Lemma binary_exists : forall z, 0 <= z -> exists s, binary_text s z.
Proof.
  intros z0 H0. apply (Z_lt_induction (fun z => 0 <= z -> exists s, binary_text s z)) with (x := z0); auto.
  clear z0 H0. intros z IH H.
  destruct (Z_lt_dec z 2) as [L|L].
  - assert (z = 0 \/ z = 1) as [->| ->] by lia.
    + exists [48]. apply (bt_one 48). left; auto.
    + exists [49]. apply (bt_one 49). right; auto.
  - assert (Q : 0 <= z / 2) by (apply Z.div_pos; lia).
    assert (M := Z.mod_pos_bound z 2 ltac:(lia)). assert (D := Z.div_mod z 2 ltac:(lia)).
    destruct (IH (z / 2)) as (s & B); auto.
    + split; [auto | apply Z.div_lt; lia].
    + exists (s ++ [48 + z mod 2]).
      replace z with (2 * (z / 2) + ((48 + z mod 2) - 48)) at 2 by lia.
      constructor; auto. unfold bit_char. lia.
Qed.

(** ** a* b* a* *)

Lemma count_lfold : forall w a, 0 <= a -> a + Z.of_nat (length w) <= int_max ->
  lfold count (map VChar w) (VInt a) = Some (VInt (a + Z.of_nat (length w))).
Proof.
  induction w as [|c w IH]; intros a H L; cbn [map lfold length].
  - rewrite Z.add_0_r. reflexivity.
  - cbn [length] in L. unfold count at 1, mpl_plus, mpl_arith. cbn [as_int].
    rewrite int_constant_some by (unfold is_int, int_max in *; change (2 ^ 31) with 2147483648; slia).
    rewrite IH by slia. do 2 f_equal. slia.
Qed.

Lemma lit_reads : forall c, reads (fun d => d = c) VChar (lit_c c).
Proof. intros c. eapply class_reads. apply lit_c_class. Qed.

Lemma repeat_class : forall (c : char) i, Forall (fun d => d = c) (repeat c i).
Proof. intros c i. apply Forall_forall. intros x H. apply repeat_spec in H. auto. Qed.

Lemma class_repeat : forall (c : char) w, Forall (fun d => d = c) w -> w = repeat c (length w).
Proof. induction w as [|d w IH]; intros F; auto. inversion F; subst. simpl. f_equal. auto. Qed.

Lemma cs_fold : forall c i n rest ps, (i < n)%nat -> Z.of_nat i <= int_max ->
  not_starting_with (fun d => d = c) rest ->
  foldl n (lit_c c) (Some (VInt 0)) count (repeat c i ++ rest) ps
  = Accept (VInt (Z.of_nat i)) rest (adv ps (repeat c i)).
Proof.
  intros c i n rest ps L M N. rewrite (reads_foldl _ _ _ (lit_reads c)); auto.
  - unfold lfold_o. rewrite count_lfold by (rewrite ?repeat_length; slia). rewrite repeat_length. reflexivity.
  - apply repeat_class.
  - rewrite repeat_length. auto.
Qed.

Lemma const_list_at_app : forall pre x r, const_list_at (pre ++ x :: r) (Z.of_nat (length pre)) = x.
Proof.
  induction pre as [|c pre IH]; intros x r; auto. cbn [app const_list_at length].
  destruct (Z.eqb_spec (Z.of_nat (S (length pre))) 0); [lia|].
  replace (Z.of_nat (S (length pre)) - 1) with (Z.of_nat (length pre)) by lia. auto.
Qed.

Lemma parse_cs_spec : forall c i n pre rest, (i < n)%nat -> not_starting_with (fun d => d = c) rest ->
  parse_cs n c (pre ++ repeat c i ++ rest) (Z.of_nat (length pre))
  = Some (Z.of_nat i, Z.of_nat (length pre + i)).
Proof.
  intros c. induction i as [|i IH]; intros n pre rest L N; (destruct n; [lia|]); cbn [parse_cs].
  - simpl repeat. simpl app. rewrite Nat.add_0_r. destruct rest as [|d rest].
    + rewrite app_nil_r. unfold str, char. rewrite Z.ltb_irrefl. reflexivity.
    + rewrite const_list_at_app. simpl in N. destruct (Z.eqb_spec d c); [contradiction|].
      destruct (_ <? _); reflexivity.
  - destruct (Z.ltb_spec (Z.of_nat (length pre)) (Z.of_nat (length (pre ++ repeat c (S i) ++ rest)))) as [H|H].
    + cbn [repeat app]. rewrite const_list_at_app, Z.eqb_refl.
      specialize (IH n (pre ++ [c]) rest ltac:(lia) N). rewrite app_length in IH. cbn [length] in IH.
      rewrite <- app_assoc in IH. cbn [app] in IH.
      replace (Z.of_nat (length pre) + 1) with (Z.of_nat (length pre + 1)) by slia.
      unfold str, char in *. rewrite IH. do 2 f_equal; lia.
    + exfalso. rewrite app_length in H. cbn [repeat app length] in H. slia.
Qed.

Lemma one_char_runs : forall w t ps, runs one_char (w ++ t) ps (map VChar w) t (adv ps w).
Proof.
  induction w as [|c w IH]; intros t ps; [constructor|]. simpl. econstructor; [|apply IH]. reflexivity.
Qed.

Lemma constexpr_cs : forall cfg c i n rest ps, fits_sequence cfg 2 -> (i < n)%nat ->
  not_starting_with (fun d => d = c) rest ->
  parse_with_constexpr cfg n c (repeat c i ++ rest) ps
  = Accept (VInt (Z.of_nat i)) rest (adv ps (repeat c i)).
Proof.
  intros cfg c i n rest ps F L N. unfold parse_with_constexpr.
  assert (P := parse_cs_spec c i n [] rest L N). cbn [app length plus] in P.
  change (Z.of_nat 0) with 0 in P. rewrite P. rewrite last_of_2 by auto.
  assert (I : iterate_c n one_char (Z.of_nat i) (repeat c i ++ rest) ps
    = Accept (VSeq (map VChar (repeat c i))) rest (adv ps (repeat c i))).
  { apply iterate_c_accept; auto. exists (map VChar (repeat c i)). splits; auto.
    - rewrite map_length, repeat_length. auto.
    - apply one_char_runs. }
  rewrite I. reflexivity.
Qed.

Lemma aba_total : forall s, exists i j k rest, aba i j k rest s.
Proof.
  intros s. set (A := fun d : char => d = 97). set (B := fun d : char => d = 98).
  destruct (take_while A (fun c => Z.eq_dec c 97) s) as (u & s1 & -> & Fu & Nu).
  destruct (take_while B (fun c => Z.eq_dec c 98) s1) as (w & s2 & -> & Fw & Nw).
  destruct (take_while A (fun c => Z.eq_dec c 97) s2) as (x & rest & -> & Fx & Nx).
  exists (length u), (length w), (length x), rest. unfold aba.
  assert (Eu := class_repeat _ _ Fu). assert (Ew := class_repeat _ _ Fw). assert (Ex := class_repeat _ _ Fx).
  unfold str, char in *. rewrite <- Eu, <- Ew, <- Ex. splits; auto.
  - intros H. destruct w; [|discriminate]. destruct x as [|c x]; auto. inversion Fx; subst.
    destruct (Nu H2).
  - intros H. destruct x; [exact Nw | discriminate].
Qed.

Lemma app_starts : forall (P : char -> Prop) c i t, ~ P c -> (i = O -> not_starting_with P t) ->
  not_starting_with P (repeat c i ++ t).
Proof. intros P c [|i] t H N; simpl; auto. Qed.

Lemma aba_first : forall i j k rest s, aba i j k rest s ->
  not_starting_with (fun c => c = 97) (repeat 98 j ++ repeat 97 k ++ rest)
  /\ not_starting_with (fun c => c = 98) (repeat 97 k ++ rest)
  /\ not_starting_with (fun c => c = 97) rest.
Proof.
  intros i j k rest s (_ & H1 & H2 & H3). splits; auto.
  - apply app_starts; [lia|]. intros ->. rewrite (H1 eq_refl). exact H2.
  - apply app_starts; [lia|]. auto.
Qed.

Section Aba.
Variable cfg : config.
Hypothesis Fs : fits_sequence cfg 3.
Variable env : program.

Lemma fs2 : fits_sequence cfg 2.
Proof. intros H. specialize (Fs H). lia. Qed.

Lemma aba_entire : forall p q r i j k rest s ps, aba i j k rest s ->
  p s ps = Accept (VInt (Z.of_nat i)) (repeat 98 j ++ repeat 97 k ++ rest) (adv ps (repeat 97 i)) ->
  q (repeat 98 j ++ repeat 97 k ++ rest) (adv ps (repeat 97 i))
  = Accept (VInt (Z.of_nat j)) (repeat 97 k ++ rest) (adv (adv ps (repeat 97 i)) (repeat 98 j)) ->
  r (repeat 97 k ++ rest) (adv (adv ps (repeat 97 i)) (repeat 98 j))
  = Accept (VInt (Z.of_nat k)) rest (adv (adv (adv ps (repeat 97 i)) (repeat 98 j)) (repeat 97 k)) ->
  entire_input cfg (sequence cfg [p; q; r]) end_of_input_expected s ps
  = let pe := adv ps (repeat 97 i ++ repeat 98 j ++ repeat 97 k) in
    match rest with
    | [] => Accept (VSeq [VInt (Z.of_nat i); VInt (Z.of_nat j); VInt (Z.of_nat k)]) [] pe
    | _ :: _ => Reject end_of_input_expected pe
    end.
Proof.
  intros p q r i j k rest s ps A Ep Eq Er. rewrite entire_input_spec by apply fs2.
  rewrite sequence_cfg by (auto; discriminate). cbn [sequence_11]. rewrite Ep. unfold transform at 1.
  rewrite Eq. unfold transform at 1. rewrite Er. unfold transform, return_. cbn [push_front_result].
  rewrite !adv_app. destruct rest; reflexivity.
Qed.

Lemma tmp_spec : forall n i j k rest s ps, aba i j k rest s -> (length s < n)%nat ->
  Z.of_nat (length s) <= int_max ->
  eval cfg env n tmp_parser s ps
  = let pe := adv ps (repeat 97 i ++ repeat 98 j ++ repeat 97 k) in
    match rest with
    | [] => Accept (VSeq [VInt (Z.of_nat i); VInt (Z.of_nat j); VInt (Z.of_nat k)]) [] pe
    | _ :: _ => Reject end_of_input_expected pe
    end.
Proof.
  intros n i j k rest s ps A L M. destruct (aba_first _ _ _ _ _ A) as (N1 & N2 & N3).
  assert (Es : s = repeat 97 i ++ repeat 98 j ++ repeat 97 k ++ rest) by apply A.
  assert (Ls : length s = (i + (j + (k + length rest)))%nat)
    by (rewrite Es, !app_length, !repeat_length; auto).
  unfold str, char in *.
  transitivity (entire_input cfg (sequence cfg [foldl n (lit_c 97) (Some (VInt 0)) count;
    foldl n (lit_c 98) (Some (VInt 0)) count; foldl n (lit_c 97) (Some (VInt 0)) count])
    end_of_input_expected s ps).
  { destruct n; reflexivity. }
  apply aba_entire; auto.
  - rewrite Es at 1. apply cs_fold; auto; lia.
  - apply cs_fold; auto; lia.
  - apply cs_fold; auto; lia.
Qed.

Lemma mixed_spec : forall n i j k rest s ps, aba i j k rest s -> (length s < n)%nat ->
  Z.of_nat (length s) <= int_max ->
  eval cfg env n (mixed_parser cfg n) s ps
  = let pe := adv ps (repeat 97 i ++ repeat 98 j ++ repeat 97 k) in
    match rest with
    | [] => Accept (VSeq [VInt (Z.of_nat i); VInt (Z.of_nat j); VInt (Z.of_nat k)]) [] pe
    | _ :: _ => Reject end_of_input_expected pe
    end.
Proof.
  intros n i j k rest s ps A L M. destruct (aba_first _ _ _ _ _ A) as (N1 & N2 & N3).
  assert (Es : s = repeat 97 i ++ repeat 98 j ++ repeat 97 k ++ rest) by apply A.
  assert (Ls : length s = (i + (j + (k + length rest)))%nat)
    by (rewrite Es, !app_length, !repeat_length; auto).
  unfold str, char in *.
  transitivity (entire_input cfg (sequence cfg [foldl n (lit_c 97) (Some (VInt 0)) count;
    parse_with_constexpr cfg n 98; foldl n (lit_c 97) (Some (VInt 0)) count])
    end_of_input_expected s ps).
  { destruct n; reflexivity. }
  apply aba_entire; auto.
  - rewrite Es at 1. apply cs_fold; auto; lia.
  - apply constexpr_cs; auto; [apply fs2 | lia].
  - apply cs_fold; auto; lia.
Qed.

End Aba.

Lemma constexpr_spec : forall n i j k rest s, aba i j k rest s -> (length s < n)%nat ->
  constexpr_parse n s = Some (mkparsed (Z.of_nat i) (Z.of_nat j) (Z.of_nat k)).
Proof.
  intros n i j k rest s A L.
  assert (A' : aba i j k (rest ++ [0]) (s ++ [0])).
  { destruct A as (-> & H1 & H2 & H3). unfold aba. splits; auto.
    - rewrite <- !app_assoc. reflexivity.
    - destruct rest; simpl in *; auto. lia.
    - intros K. specialize (H3 K). destruct rest; simpl in *; auto. lia. }
  destruct (aba_first _ _ _ _ _ A') as (N1 & N2 & N3).
  assert (Ls : length s = (i + (j + (k + length rest)))%nat)
    by (destruct A as (-> & _); rewrite !app_length, !repeat_length; auto).
  unfold constexpr_parse, parse_impl. destruct A' as (-> & _).
  unfold str, char in *.
  assert (P1 := parse_cs_spec 97 i n [] (repeat 98 j ++ repeat 97 k ++ rest ++ [0]) ltac:(lia) N1).
  cbn [app length plus] in P1. change (Z.of_nat 0) with 0 in P1. unfold str, char in *. rewrite P1.
  assert (P2 := parse_cs_spec 98 j n (repeat 97 i) (repeat 97 k ++ rest ++ [0]) ltac:(lia) N2).
  rewrite repeat_length in P2. unfold str, char in *. rewrite P2.
  assert (P3 := parse_cs_spec 97 k n (repeat 97 i ++ repeat 98 j) (rest ++ [0]) ltac:(lia) N3).
  rewrite app_length, !repeat_length, <- app_assoc in P3. unfold str, char in *. rewrite P3. reflexivity.
Qed.

Lemma aba_unique : forall i j k rest s i' j' k' rest', aba i j k rest s -> aba i' j' k' rest' s ->
  i = i' /\ j = j' /\ k = k' /\ rest = rest'.
Proof.
  intros i j k rest s i' j' k' rest' A A'.
  destruct (aba_first _ _ _ _ _ A) as (N1 & N2 & N3).
  destruct (aba_first _ _ _ _ _ A') as (N1' & N2' & N3').
  destruct A as (E & _). destruct A' as (E' & _).
  assert (R : forall (c : char) a b, repeat c a = repeat c b -> a = b).
  { intros c a b H. apply (f_equal (@length char)) in H. rewrite !repeat_length in H. auto. }
  rewrite E in E'.
  apply (split_unique (fun c => c = 97)) in E' as (X1 & E'); auto using repeat_class.
  apply (split_unique (fun c => c = 98)) in E' as (X2 & E'); auto using repeat_class.
  apply (split_unique (fun c => c = 97)) in E' as (X3 & E'); auto using repeat_class.
  apply R in X1, X2, X3. auto.
Qed.

(** ** parsing_error *)

Lemma ev_parsing_error : forall cfg env n s ps, fits_sequence cfg 2 ->
  eval cfg env n parsing_error_grammar s ps =
  match repeated n (lit_c 97) s ps with
  | Accept v1 s1 p1 => match lit_c 98 s1 p1 with Accept v2 s2 p2 => Accept (VSeq [v1; v2]) s2 p2 | o => o end
  | o => o
  end.
Proof.
  intros cfg env n s ps F.
  transitivity (sequence cfg [repeated n (lit_c 97); lit_c 98] s ps).
  - destruct n; reflexivity.
  - rewrite sequence_cfg by (auto; discriminate). cbn [sequence_11].
    destruct (repeated n (lit_c 97) s ps); auto. unfold transform at 1. destruct (lit_c 98 rem p); auto.
Qed.

Lemma parsing_error_spec : forall cfg env n k rest ps, fits_sequence cfg 2 -> (k < n)%nat ->
  not_starting_with (fun c => c = 97) rest ->
  eval cfg env n parsing_error_grammar (repeat 97 k ++ rest) ps =
  match rest with
  | c :: t => if c =? 98 then Accept (VSeq [VSeq (map VChar (repeat 97 k)); VChar 98]) t (adv ps (repeat 97 k ++ [98]))
              else Reject (literal_expected 98) (adv ps (repeat 97 k))
  | [] => Reject (literal_expected 98) (adv ps (repeat 97 k))
  end.
Proof.
  intros cfg env n k rest ps F L N. rewrite ev_parsing_error by auto.
  assert (R : repeated n (lit_c 97) (repeat 97 k ++ rest) ps
    = Accept (VSeq (map VChar (repeat 97 k))) rest (adv ps (repeat 97 k))).
  { destruct (lit_reads 97) as (_ & B). destruct (B rest (adv ps (repeat 97 k)) N) as (m & E).
    apply repeated_accept. exists (map VChar (repeat 97 k)), m, (adv ps (repeat 97 k)). splits; auto.
    - rewrite map_length, repeat_length. auto.
    - apply (class_runs _ _ _ _ (lit_c_class 97) (fun d => Z.eq_dec d 97)). exists (repeat 97 k).
      splits; auto using repeat_class. apply walk_adv. }
  rewrite R. destruct (lit_c_class 98) as (A & B & C). destruct rest as [|c t].
  - rewrite C. reflexivity.
  - destruct (Z.eqb_spec c 98) as [->|Ne].
    + rewrite (A 98 t (adv ps (repeat 97 k)) (adv (adv ps (repeat 97 k)) [98])) by (auto; apply walk_adv).
      rewrite adv_app. reflexivity.
    + rewrite B by auto. reflexivity.
Qed.

Lemma adv_letters : forall c k l cl p, is_eol c = false ->
  line (adv (mkpos l cl p) (repeat c k)) = l /\ col (adv (mkpos l cl p) (repeat c k)) = cl + Z.of_nat k.
Proof.
  intros c k. induction k as [|k IH]; intros l cl p H; cbn [repeat adv].
  - simpl. lia.
  - unfold is_eol in H. apply orb_false_iff in H as (H1 & H2).
    assert (E : next_pos c (mkpos l cl p) = mkpos l (cl + 1) c).
    { unfold next_pos, next_char, c_cr, c_lf. rewrite H1, H2. reflexivity. }
    rewrite E. destruct (IH l (cl + 1) c) as (-> & ->); [unfold is_eol; rewrite H1, H2; auto|]. lia.
Qed.

(** ** Regular expressions *)

Definition simple_value (c : char) : value := if c =? 46 then r_any_char else VTmpl 3 [VChar c].
Definition simple_atom (c : char) : atom := if c =? 46 then AnyChar else ThisChar c.
Definition to_atom (a : pattern) : atom := match a with Any => AnyChar | Char c => ThisChar c end.
Definition to_pattern (c : char) : pattern := if c =? 46 then Any else Char c.

Lemma simple_pattern_iff : forall c a, simple_pattern c a <-> plain c /\ a = to_pattern c.
Proof.
  intros c a. unfold to_pattern, plain. split.
  - intros H. inversion H as [|d N]; subst; [split; [lia|reflexivity]|]. unfold special in N.
    destruct (Z.eqb_spec c 46); [tauto|]. split; [|auto]. split; intros ->; tauto.
  - intros ((H1 & H2) & ->). destruct (Z.eqb_spec c 46) as [->|H]; constructor. unfold special. lia.
Qed.

Lemma simple_patterns_iff : forall g l, Forall2 simple_pattern g l <-> Forall plain g /\ l = map to_pattern g.
Proof.
  induction g as [|c g IH]; intros l; split.
  - intros H. inversion H. auto.
  - intros (_ & ->). constructor.
  - intros H. inversion H as [|? a ? l' A B]; subst. apply simple_pattern_iff in A as (A & ->).
    apply IH in B as (B & ->). auto.
  - intros (F & ->). inversion F; subst. simpl. constructor.
    + apply simple_pattern_iff; auto.
    + apply IH; auto.
Qed.

Lemma plain_dec : forall c, {plain c} + {~ plain c}.
Proof.
  intros c. unfold plain. destruct (Z.eq_dec c 40); [right; tauto|].
  destruct (Z.eq_dec c 41); [right; tauto|]. left; auto.
Qed.

Lemma append_lfold : forall g st re, run_type st = Some re ->
  exists v, lfold r_append (map simple_value g) st = Some v /\ run_type v = Some (re ++ map simple_atom g).
Proof.
  induction g as [|c g IH]; intros st re H; cbn [map lfold].
  - exists st. rewrite app_nil_r. auto.
  - unfold r_append at 1.
    assert (E : run_type (VTmpl 4 [simple_value c; st]) = Some (re ++ [simple_atom c])).
    { cbn [run_type]. rewrite H. unfold simple_value, simple_atom. destruct (c =? 46); reflexivity. }
    destruct (IH _ _ E) as (v & A & B). exists v. rewrite A, B, <- app_assoc. auto.
Qed.

Lemma simple_atoms : forall g, map simple_atom g = map to_atom (map to_pattern g).
Proof.
  intros g. rewrite map_map. apply map_ext. intros c. unfold simple_atom, to_pattern.
  destruct (c =? 46); reflexivity.
Qed.

Lemma finishes_reject : forall (p : pfun) s ps m pe, p s ps = Reject m pe -> finishes p s ps.
Proof. intros. right. do 2 eexists; eauto. Qed.

Section Regexp.
Variable cfg : config.
Hypothesis F : regexp_fits cfg.
Variable N : nat.

Let item := one_of cfg [always (lit_c 46) r_any_char; transform (one_char_except_c cfg [46; 40; 41]) r_char_lit].
Let run := foldl_reject_incomplete1 N item (Some r_epsilon) r_append.
Let group := middle_of cfg (lit_c 40) run (lit_c 41).
Let part := one_of cfg [group; run].

Lemma item_reads : reads plain simple_value item.
Proof.
  destruct F as (_ & F2 & F3).
  destruct (reads_always _ _ _ r_any_char (lit_reads 46)) as (A & B).
  assert (C : reads (fun d => ~ In d [46; 40; 41]) (fun c => VTmpl 3 [VChar c])
                (transform (one_char_except_c cfg [46; 40; 41]) r_char_lit)).
  { eapply reads_transform; [eapply class_reads; apply one_char_except_c_class; exact F3|]. reflexivity. }
  destruct C as (C & D). split.
  - intros c s ps (H1 & H2). unfold simple_value. destruct (Z.eqb_spec c 46) as [->|H].
    + apply one_of_2_first; auto. destruct (D (46 :: s) ps) as (m & E); [simpl; tauto|].
      eapply finishes_reject; eauto.
    + apply one_of_2_second; auto.
      * destruct (B (c :: s) ps) as (m & E); [exact H|]. do 2 eexists; eauto.
      * apply C. simpl. intuition.
  - intros s ps Ns.
    destruct (B s ps) as (m & E). { destruct s as [|c s]; simpl in *; auto. unfold plain in Ns. lia. }
    destruct (D s ps) as (m' & E'). { destruct s as [|c s]; simpl in *; auto. unfold plain in Ns. lia. }
    eapply one_of_2_near; eauto.
Qed.

Lemma run_accept : forall g t ps, g <> [] -> Forall plain g -> not_starting_with plain t -> (length g < N)%nat ->
  exists v, run (g ++ t) ps = Accept v t (adv ps g) /\ run_type v = Some (map simple_atom g).
Proof.
  intros g t ps Ng Fg Nt L. unfold run, foldl_reject_incomplete1. destruct g as [|c g]; [congruence|].
  inversion Fg; subst. assert (A := proj1 item_reads c (g ++ t) ps H1). cbn [app]. rewrite A.
  change (c :: g ++ t) with ((c :: g) ++ t). rewrite (reads_foldl_ri _ _ _ item_reads) by auto.
  destruct (append_lfold (c :: g) r_epsilon [] eq_refl) as (v & E & R). exists v.
  unfold lfold_o. rewrite E. auto.
Qed.

Lemma run_reject : forall t ps, not_starting_with plain t -> exists m, run t ps = Reject m ps.
Proof.
  intros t ps Nt. destruct (proj2 item_reads t ps Nt) as (m & E). exists m.
  unfold run, foldl_reject_incomplete1. rewrite E. auto.
Qed.

Lemma group_reject : forall t ps, not_starting_with (fun c => c = 40) t -> exists m, group t ps = Reject m ps.
Proof.
  intros t ps Nt. destruct (proj2 (lit_reads 40) t ps Nt) as (m & E). exists m.
  unfold group. rewrite middle_of_spec by apply F. rewrite E. auto.
Qed.

Lemma group_accept : forall g t ps, g <> [] -> Forall plain g -> (length g < N)%nat ->
  exists v, group (40 :: g ++ 41 :: t) ps = Accept v t (adv ps (40 :: g ++ [41]))
    /\ run_type v = Some (map simple_atom g).
Proof.
  intros g t ps Ng Fg L. unfold group. rewrite middle_of_spec by apply F.
  rewrite (proj1 (lit_reads 40)) by auto.
  destruct (run_accept g (41 :: t) (next_pos 40 ps) Ng Fg) as (v & -> & R); auto.
  { simpl. unfold plain. lia. }
  rewrite (proj1 (lit_reads 41)) by auto. exists v. split; auto. cbn [adv]. rewrite adv_app. reflexivity.
Qed.

Lemma group_broken : forall g t ps, broken_group g t -> (length t < N)%nat ->
  exists m, group t ps = Reject m (adv ps (40 :: g)).
Proof.
  intros g t ps (r & -> & Fg & Nr & H) L. unfold group. rewrite middle_of_spec by apply F.
  rewrite (proj1 (lit_reads 40)) by auto. cbn [length] in L. rewrite app_length in L.
  destruct g as [|c g].
  - destruct (run_reject r (next_pos 40 ps) Nr) as (m & E). cbn [app]. rewrite E. exists m. reflexivity.
  - destruct H as [H|H]; [discriminate|].
    destruct (run_accept (c :: g) r (next_pos 40 ps)) as (v & -> & R); auto; [discriminate|slia|].
    destruct (proj2 (lit_reads 41) r (adv (next_pos 40 ps) (c :: g)) H) as (m & ->). eexists. reflexivity.
Qed.

Lemma text_shape : forall t, t = []
  \/ (exists g r, t = g ++ r /\ g <> [] /\ Forall plain g /\ not_starting_with plain r)
  \/ (exists r, t = 41 :: r)
  \/ (exists g r, t = 40 :: g ++ 41 :: r /\ g <> [] /\ Forall plain g)
  \/ (exists g, broken_group g t).
Proof.
  intros [|c t]; auto. right. destruct (plain_dec c) as [P|P].
  - left. destruct (take_while plain plain_dec (c :: t)) as (g & r & E & Fg & Nr). exists g, r. splits; auto.
    intros ->. simpl in E. subst r. simpl in Nr. auto.
  - right. destruct (Z.eq_dec c 41) as [->|H]; [eauto|].
    assert (c = 40) by (unfold plain in P; lia). subst c. right.
    destruct (take_while plain plain_dec t) as (g & r & -> & Fg & Nr).
    destruct g as [|d g].
    + right. exists [], r. auto.
    + destruct r as [|e r].
      * right. exists (d :: g), []. splits; simpl; auto.
      * destruct (Z.eq_dec e 41) as [->|He].
        -- left. exists (d :: g), r. splits; auto. discriminate.
        -- right. exists (d :: g), (e :: r). splits; simpl; auto.
Qed.

Lemma regexp_text_plain : forall g s l, Forall plain g -> regexp_text s l ->
  regexp_text (g ++ s) (map to_pattern g ++ l).
Proof.
  induction g as [|c g IH]; intros s l Fg H; auto. inversion Fg; subst. simpl. constructor; auto.
  apply simple_pattern_iff; auto.
Qed.

Lemma regexp_fold : forall m s, (length s <= m)%nat -> (length s < N)%nat -> forall n st re ps, (length s < n)%nat ->
  run_type st = Some re ->
  exists u l t, s = u ++ t /\ regexp_text u l /\
   (((t = [] \/ exists t', t = 41 :: t') /\ exists v,
       foldl_reject_incomplete n part (Some st) r_append s ps = Accept v t (adv ps u)
       /\ run_type v = Some (re ++ map to_atom l))
    \/ exists g k, broken_group g t
       /\ foldl_reject_incomplete n part (Some st) r_append s ps = Reject k (adv ps (u ++ 40 :: g))).
Proof.
  destruct F as (F1 & F2 & F3).
  induction m as [|m IH]; intros s Lm LN n st re ps Ln R; (destruct n; [lia|]).
  - destruct s; [|simpl in Lm; lia]. exists [], [], []. splits; auto; [constructor|]. left. split; auto. exists st.
    destruct (group_reject [] ps Logic.I) as (k & A). destruct (run_reject [] ps Logic.I) as (k' & B).
    destruct (one_of_2_near cfg F2 group run [] ps k k' A B) as (k2 & C).
    cbn [foldl_reject_incomplete]. unfold part. rewrite C, pos_equal_to_refl, app_nil_r. auto.
  - assert (STOP : not_starting_with plain s -> not_starting_with (fun c => c = 40) s ->
      foldl_reject_incomplete (S n) part (Some st) r_append s ps = Accept st s ps).
    { intros N1 N2. destruct (group_reject s ps N2) as (k & A). destruct (run_reject s ps N1) as (k' & B).
      destruct (one_of_2_near cfg F2 group run s ps k k' A B) as (k2 & C).
      cbn [foldl_reject_incomplete]. unfold part. rewrite C, pos_equal_to_refl. auto. }
    assert (STEP : forall w t v g, s = w ++ t -> w <> [] -> part s ps = Accept v t (adv ps w) ->
      run_type v = Some (map simple_atom g) ->
      (forall u l, regexp_text u l -> regexp_text (w ++ u) (map to_pattern g ++ l)) ->
      exists u l t, s = u ++ t /\ regexp_text u l /\
       (((t = [] \/ exists t', t = 41 :: t') /\ exists v,
           foldl_reject_incomplete (S n) part (Some st) r_append s ps = Accept v t (adv ps u)
           /\ run_type v = Some (re ++ map to_atom l))
        \/ exists g k, broken_group g t
           /\ foldl_reject_incomplete (S n) part (Some st) r_append s ps = Reject k (adv ps (u ++ 40 :: g)))).
    { intros w t v g E Nw A Rv X. cbn [foldl_reject_incomplete]. rewrite A. unfold r_append at 1 3.
      assert (Lt : (length t < length s)%nat).
      { rewrite E, app_length. destruct w; [congruence|]. simpl. lia. }
      destruct (IH t ltac:(lia) ltac:(lia) n (VTmpl 4 [v; st]) (re ++ map simple_atom g) (adv ps w) ltac:(lia))
        as (u & l & t' & -> & Tu & C).
      { cbn [run_type]. rewrite R, Rv. reflexivity. }
      exists (w ++ u), (map to_pattern g ++ l), t'. splits.
      - rewrite E. apply app_assoc.
      - apply X, Tu.
      - destruct C as [(T & v' & E' & R')|(g' & k & Bg & E')].
        + left. split; auto. exists v'. rewrite adv_app. split; [exact E'|].
          rewrite R', simple_atoms, map_app, <- app_assoc. reflexivity.
        + right. exists g', k. split; auto. rewrite <- app_assoc, adv_app. exact E'. }
    destruct (text_shape s) as [E|[(g & r & E & Ng & Fg & Nr)|[(r & E)|[(g & r & E & Ng & Fg)|(g & Bg)]]]].
    + exists [], [], s. splits; auto; [constructor|]. left. split; auto. exists st. rewrite STOP by (subst; simpl; auto).
      rewrite app_nil_r. auto.
    + destruct (run_accept g r ps Ng Fg Nr) as (v & A & Rv).
      { rewrite E, app_length in LN. lia. }
      apply (STEP g r v g); auto.
      * rewrite E. destruct g as [|c g]; [congruence|]. inversion Fg as [|? ? Pc Fg']; subst.
        destruct (group_reject ((c :: g) ++ r) ps) as (k & B); [apply Pc|].
        apply one_of_2_second; auto. do 2 eexists; eauto.
      * intros u l. apply regexp_text_plain; auto.
    + exists [], [], s. splits; auto; [constructor|]. left. split; eauto. exists st.
      rewrite STOP by (subst; simpl; unfold plain; intuition discriminate). rewrite app_nil_r. auto.
    + destruct (group_accept g r ps Ng Fg) as (v & A & Rv).
      { rewrite E in LN. cbn [length] in LN. rewrite app_length in LN. slia. }
      apply (STEP (40 :: g ++ [41]) r v g); auto.
      * rewrite E. cbn [app]. rewrite <- app_assoc. reflexivity.
      * discriminate.
      * rewrite E. apply one_of_2_first; auto.
        destruct (run_reject (40 :: g ++ 41 :: r) ps) as (k & B); [simpl; unfold plain; lia|].
        eapply finishes_reject; eauto.
      * intros u l H. cbn [app]. rewrite <- app_assoc. cbn [app]. apply rx_group; auto.
        apply simple_patterns_iff; auto.
    + exists [], [], s. splits; auto; [constructor|]. right. exists g.
      destruct (group_broken g s ps Bg LN) as (k & A). exists k. split; auto.
      destruct Bg as (r & E & _).
      destruct (run_reject s ps) as (k' & B). { rewrite E. simpl. unfold plain. lia. }
      assert (C := one_of_2_far cfg F2 group run s ps k k' _ A B (adv_lt (40 :: g) ps ltac:(discriminate))).
      cbn [foldl_reject_incomplete]. unfold part. rewrite C.
      destruct (pos_equal_to ps (adv ps (40 :: g))) eqn:Q; auto.
      apply pos_equal_to_iff in Q. exfalso. apply (pos_lt_irrefl ps). rewrite Q at 2.
      apply adv_lt. discriminate.
Qed.

Lemma regexp_cases : forall env s ps, (length s < N)%nat ->
  exists u l t, s = u ++ t /\ regexp_text u l /\
   ((t = [] /\ exists v re, eval cfg env N regexp_parser s ps = Accept v [] (adv ps s)
       /\ run_type v = Some re /\ re = map to_atom l)
    \/ (exists t', t = 41 :: t') /\ eval cfg env N regexp_parser s ps = Reject end_of_input_expected (adv ps u)
    \/ exists g k, broken_group g t
       /\ eval cfg env N regexp_parser s ps = Reject k (adv ps (u ++ 40 :: g))).
Proof.
  intros env s ps L.
  assert (F2 : fits_sequence cfg 2). { intros H. destruct F as (F1 & _). specialize (F1 H). lia. }
  assert (EV : eval cfg env N regexp_parser s ps
    = entire_input cfg (foldl_reject_incomplete N part (Some r_epsilon) r_append) end_of_input_expected s ps).
  { destruct N; reflexivity. }
  rewrite EV, entire_input_spec by auto.
  destruct (regexp_fold (length s) s ltac:(lia) L N r_epsilon [] ps L eq_refl)
    as (u & l & t & E & T & [(Ht & v & A & R)|(g & k & B & A)]); exists u, l, t; splits; auto; rewrite A.
  - destruct Ht as [->|(t' & ->)].
    + left. split; auto. rewrite app_nil_r in E. subst u. eauto.
    + right. left. split; eauto.
  - right. right. eauto.
Qed.

End Regexp.

Lemma regexp_text_prefix : forall u l, regexp_text u l -> forall t k, regexp_text (u ++ t) k ->
  exists k', k = l ++ k' /\ regexp_text t k'.
Proof.
  intros u l H. induction H as [|c a s l P H IH|g ps s l Ng Fg H IH]; intros t k T.
  - exists k. auto.
  - apply simple_pattern_iff in P as (P & ->). cbn [app] in T.
    inversion T as [|? a' ? l' P' T'|]; subst.
    + apply simple_pattern_iff in P' as (_ & ->). destruct (IH _ _ T') as (k' & -> & Tk).
      exists k'. auto.
    + exfalso. destruct P. congruence.
  - cbn [app] in T. inversion T as [|? a' ? l' P' T'|g' ps' s' l' Ng' Fg' T' E]; subst.
    + apply simple_pattern_iff in P' as (P' & _). destruct P'. congruence.
    + apply simple_patterns_iff in Fg as (Fg & ->). apply simple_patterns_iff in Fg' as (Fg' & ->).
      rewrite <- app_assoc in E. cbn [app] in E.
      apply (split_unique plain) in E as (-> & E); auto; try (simpl; unfold plain; lia).
      inversion E; subst. destruct (IH _ _ T') as (k' & -> & Tk). exists k'. rewrite app_assoc. auto.
Qed.

Lemma regexp_text_stop : forall t k, regexp_text t k ->
  (forall t', t <> 41 :: t') /\ forall g, ~ broken_group g t.
Proof.
  intros t k T. inversion T as [|c a s l P H|g' ps s l Ng Fg H]; subst.
  - split; [discriminate|]. intros g (r & E & _). discriminate.
  - apply simple_pattern_iff in P as ((P1 & P2) & _). split; [congruence|]. intros g (r & E & _). congruence.
  - split; [congruence|]. intros g (r & E & Fg1 & Nr & D). inversion E as [E'].
    apply simple_patterns_iff in Fg as (Fg & _).
    apply (split_unique plain) in E' as (-> & <-); auto; [|simpl; unfold plain; lia].
    destruct D as [D|D]; [congruence|]. apply D. reflexivity.
Qed.

Lemma regex_match_iff : forall l s, regex_match s (map to_atom l) = true <-> matches l s.
Proof.
  unfold matches. induction l as [|a l IH]; intros [|c s]; simpl; split; intros H; auto; try discriminate;
    try (now inversion H).
  - apply andb_true_iff in H as (A & B). constructor; [|apply IH; auto].
    destruct a; simpl in *; auto. lia.
  - inversion H; subst. apply andb_true_iff. split; [|apply IH; auto].
    destruct a; simpl in *; auto. lia.
Qed.
