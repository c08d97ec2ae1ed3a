(** Proofs about the errors of the calculators (C63). *)

From Coq Require Import ZArith List Bool Lia.
From Verif Require Import Base Util Combinators Variadic Parsers Deep Calculator Spec SpecDeep SpecTerm
  SpecType SpecCalc SpecCalcErr Proofs_Pos Proofs_Fold Proofs_Variadic Proofs_Parsers Proofs_Parsers2
  Proofs_Deep Proofs_Final1 Proofs_Final2 Proofs_Final3 Proofs_Final5 Proofs_Term Proofs_Grammar
  Proofs_Peg Properties_Deep Properties_Term Proofs_Calc Proofs_Calc2.
Import ListNotations.
Open Scope Z_scope.

(** ** Tokens *)

Lemma tokens_split : forall s ts r, tokens s ts r -> exists u, s = u ++ r.
Proof.
  intros s ts r H. induction H as [s|k l w t ts rem L W N D T (u & ->)].
  - exists []. reflexivity.
  - exists (l ++ w ++ u). rewrite <- !app_assoc. reflexivity.
Qed.

(** The text after the tokens may be replaced if it starts the same way or is
    removed. *)
Lemma tokens_swap : forall s ts r, tokens s ts r -> forall u r', s = u ++ r ->
  (r' = [] \/ exists c a b, r = c :: a /\ r' = c :: b) -> tokens (u ++ r') ts r'.
Proof.
  intros s ts r H. induction H as [s|k l w t ts rem L W N D T IH]; intros u r' E R.
  - assert (u = []) as ->.
    { destruct u as [|x u]; auto. exfalso. apply (f_equal (@length Z)) in E.
      simpl in E. rewrite app_length in E. slia. }
    constructor.
  - destruct (tokens_split _ _ _ T) as (u0 & ->).
    assert (u = l ++ w ++ u0) as ->.
    { apply (app_inv_tail rem). rewrite <- !app_assoc. symmetry. exact E. }
    rewrite <- !app_assoc. 
    assert (P : forall P : char -> Prop, not_starting_with P (u0 ++ rem) -> not_starting_with P (u0 ++ r')).
    { intros P HP. destruct u0 as [|x u0]; auto. simpl in *.
      destruct R as [->|(c & a & b & -> & ->)]; simpl in *; auto. }
    constructor; auto.
Qed.

Lemma tokens_cut : forall u ts r, tokens (u ++ r) ts r -> tokens u ts [].
Proof.
  intros u ts r T. pose proof (tokens_swap _ _ _ T u [] eq_refl (or_introl eq_refl)) as H.
  rewrite app_nil_r in H. exact H.
Qed.

(** A split at the first character outside a class is unique. *)
Lemma class_split : forall (P : char -> Prop) a b c d, Forall P a -> Forall P c ->
  not_starting_with P b -> not_starting_with P d -> a ++ b = c ++ d -> a = c /\ b = d.
Proof.
  intros P a. induction a as [|x a IH]; intros b c d A C B D E.
  - destruct c as [|y c]; [auto|]. simpl in E. subst b. inversion C; subst. simpl in B. tauto.
  - inversion A; subst. destruct c as [|y c].
    + simpl in E. subst d. simpl in D. tauto.
    + simpl in E. injection E as -> E. inversion C; subst.
      destruct (IH b c d) as (-> & ->); auto.
Qed.

Lemma digit_not_space : forall w t, Forall space_char w -> not_starting_with digit_char t ->
  w <> [] \/ not_starting_with digit_char t -> not_starting_with digit_char (w ++ t).
Proof.
  intros w t W N _. destruct w as [|c w]; auto. inversion W; subst. simpl.
  unfold space_char, digit_char in *. slia.
Qed.

Lemma lexeme_text : forall k l, clexeme k l ->
  (exists ds, k = CNum ds /\ l = ds /\ ds <> [] /\ Forall digit_char ds) \/ (exists c, k = COp c /\ l = [c] /\ op_char c).
Proof. intros k l H. destruct H; [left|right]; eauto 10. Qed.

Lemma one_token_unique : forall k l w t k' l' w' t', clexeme k l -> clexeme k' l' ->
  Forall space_char w -> Forall space_char w' -> not_starting_with space_char t -> not_starting_with space_char t' ->
  (is_num k -> w = [] -> not_starting_with digit_char t) -> (is_num k' -> w' = [] -> not_starting_with digit_char t') ->
  l ++ w ++ t = l' ++ w' ++ t' -> k = k' /\ t = t'.
Proof.
  intros k l w t k' l' w' t' L L' W W' N N' D D' E.
  assert (X : forall w t, Forall space_char w -> (w = [] -> not_starting_with digit_char t) -> not_starting_with digit_char (w ++ t)).
  { clear. intros w t W D. destruct w as [|c w]; [apply D; auto|]. inversion W; subst. simpl.
    unfold space_char, digit_char in *. slia. }
  destruct (lexeme_text _ _ L) as [(ds & -> & -> & Ne & F)|(c & -> & -> & O)];
  destruct (lexeme_text _ _ L') as [(ds' & -> & -> & Ne' & F')|(c' & -> & -> & O')].
  - destruct (class_split digit_char ds (w ++ t) ds' (w' ++ t')) as (-> & E2); auto.
    + apply X; auto. intros ->. apply D; auto. eexists; eauto.
    + apply X; auto. intros ->. apply D'; auto. eexists; eauto.
    + destruct (class_split space_char w t w' t') as (_ & ->); auto.
  - exfalso. destruct ds as [|x ds]; [congruence|]. inversion F; subst. simpl in E. injection E as -> _.
    unfold op_char, digit_char in *. simpl in *. slia.
  - exfalso. destruct ds' as [|x ds']; [congruence|]. inversion F'; subst. simpl in E. injection E as -> _.
    unfold op_char, digit_char in *. simpl in *. slia.
  - simpl in E. injection E as -> E. destruct (class_split space_char w t w' t') as (_ & ->); auto.
Qed.

Lemma tokens_prefix : forall s ts m, tokens s ts m -> forall us, tokens s us [] ->
  exists vs, us = ts ++ vs /\ tokens m vs [].
Proof.
  intros s ts m H. induction H as [s|k l w t ts rem L W N D T IH]; intros us U.
  - exists us. auto.
  - destruct us as [|k' us].
    + inversion U. exfalso. apply clexeme_nonempty in L. destruct l; [congruence|discriminate].
    + apply tokens_cons_inv in U as (l' & w' & t' & E & L' & W' & N' & D' & T').
      destruct (one_token_unique k l w t k' l' w' t') as (<- & <-); auto.
      destruct (IH us T') as (vs & -> & V). exists vs. auto.
Qed.

(** ** The states of a reader of expressions *)

(** The number of open brackets, and whether an operand has just been read. *)
Definition cstate : Type := (nat * bool)%type.

Definition cstep (d : dialect) (st : cstate) (k : ctok) : option cstate :=
  match st, k with
  | (n, false), CNum _ => Some (n, true)
  | (n, false), COp c =>
      if existsb (Z.eqb c) (signs d) then Some (n, false)
      else if brackets d && (c =? 40) then Some (S n, false) else None
  | (n, true), CNum _ => None
  | (n, true), COp c =>
      if existsb (Z.eqb c) [43; 45; 42; 47] then Some (n, false)
      else if c =? 41 then match n with S n' => Some (n', true) | O => None end else None
  end.

Fixpoint crun (d : dialect) (st : cstate) (ts : list ctok) : option cstate :=
  match ts with
  | [] => Some st
  | k :: ts' => match cstep d st k with Some st' => crun d st' ts' | None => None end
  end.

Lemma crun_app : forall d ts us st,
  crun d st (ts ++ us) = match crun d st ts with Some st' => crun d st' us | None => None end.
Proof.
  intros d ts us. induction ts as [|k ts IH]; intros st; simpl; auto.
  destruct (cstep d st k); auto.
Qed.

Definition sign_chars (d : dialect) : Prop := forall c, In c (signs d) -> c = 43 \/ c = 45.

Lemma cstep_op : forall d n o, cstep d (n, true) (COp (op_of o)) = Some (n, false).
Proof. intros d n [| | | ]; reflexivity. Qed.

Lemma cstep_sign : forall d n c, In c (signs d) -> cstep d (n, false) (COp c) = Some (n, false).
Proof.
  intros d n c H. cbn [cstep]. replace (existsb (Z.eqb c) (signs d)) with true; auto.
  symmetry. apply existsb_exists. exists c. split; auto. apply Z.eqb_refl.
Qed.

Lemma cstep_open : forall d n, sign_chars d -> brackets d = true -> cstep d (n, false) (COp 40) = Some (S n, false).
Proof.
  intros d n S B. cbn [cstep]. replace (existsb (Z.eqb 40) (signs d)) with false; [rewrite B; reflexivity|].
  symmetry. destruct (existsb (Z.eqb 40) (signs d)) eqn:E; auto.
  apply existsb_exists in E as (x & I & Q). apply Z.eqb_eq in Q. subst x. apply S in I. lia.
Qed.

Lemma levels_run : forall d, sign_chars d ->
  (forall e ts, primary d e ts -> forall n, crun d (n, false) ts = Some (n, true)) /\
  (forall e ts, signed d e ts -> forall n, crun d (n, false) ts = Some (n, true)) /\
  (forall e ts, product d e ts -> forall n, crun d (n, false) ts = Some (n, true)) /\
  (forall e ts, sum d e ts -> forall n, crun d (n, false) ts = Some (n, true)).
Proof.
  intros d Sg.
  apply (exp_mutind d (fun e ts _ => forall n, crun d (n, false) ts = Some (n, true))
    (fun e ts _ => forall n, crun d (n, false) ts = Some (n, true))
    (fun e ts _ => forall n, crun d (n, false) ts = Some (n, true))
    (fun e ts _ => forall n, crun d (n, false) ts = Some (n, true))); auto.
  - intros e ts B _ IH n. cbn [crun]. rewrite cstep_open by auto. rewrite crun_app, IH. reflexivity.
  - intros e ts H _ IH n. cbn [crun]. rewrite cstep_sign; auto.
  - intros e ts H _ IH n. cbn [crun]. rewrite cstep_sign; auto.
  - intros a b ts us _ IH1 _ IH2 n. rewrite crun_app, IH1. cbn [crun]. pose proof (cstep_op d n Mul) as Q. cbn [op_of] in Q. rewrite Q. auto.
  - intros a b ts us _ IH1 _ IH2 n. rewrite crun_app, IH1. cbn [crun]. pose proof (cstep_op d n Div) as Q. cbn [op_of] in Q. rewrite Q. auto.
  - intros a b ts us _ IH1 _ IH2 n. rewrite crun_app, IH1. cbn [crun]. pose proof (cstep_op d n Add) as Q. cbn [op_of] in Q. rewrite Q. auto.
  - intros a b ts us _ IH1 _ IH2 n. rewrite crun_app, IH1. cbn [crun]. pose proof (cstep_op d n Sub) as Q. cbn [op_of] in Q. rewrite Q. auto.
Qed.

Lemma sum_run : forall d e ts n, sign_chars d -> sum d e ts -> crun d (n, false) ts = Some (n, true).
Proof. intros d e ts n S H. eapply (levels_run d S); eauto. Qed.

(** The characters with which the next token may start. *)
Definition next_char (d : dialect) (st : cstate) (c : char) : Prop :=
  match st with
  | (_, false) => digit_char c \/ In c (signs d) \/ (brackets d = true /\ c = 40)
  | (n, true) => operator_char c \/ ((0 < n)%nat /\ c = 41)
  end.

Lemma cstep_char : forall d st k st' l t c t', cstep d st k = Some st' -> clexeme k l -> l ++ t = c :: t' ->
  next_char d st c.
Proof.
  intros d (n & b) k st' l t c t' E L Q.
  destruct (lexeme_text _ _ L) as [(ds & -> & -> & Ne & F)|(x & -> & -> & O)].
  - destruct ds as [|y ds]; [congruence|]. simpl in Q. injection Q as -> _. inversion F; subst.
    destruct b; [discriminate|]. simpl. auto.
  - simpl in Q. injection Q as -> _. destruct b; cbn [cstep] in E.
    + destruct (existsb (Z.eqb c) [43; 45; 42; 47]) eqn:X.
      * left. apply existsb_exists in X as (y & I & X). apply Z.eqb_eq in X. subst y.
        unfold operator_char. simpl in I. slia.
      * destruct (c =? 41) eqn:Y; [|discriminate]. apply Z.eqb_eq in Y. destruct n; [discriminate|].
        right. split; auto. lia.
    + destruct (existsb (Z.eqb c) (signs d)) eqn:X.
      * right. left. apply existsb_exists in X as (y & I & X). apply Z.eqb_eq in X. subst y. auto.
      * destruct (brackets d) eqn:B; [|discriminate]. destruct (c =? 40) eqn:Y; [|discriminate].
        apply Z.eqb_eq in Y. right. right. auto.
Qed.

(** ** Failures *)

Section Errors.

Variable cfg : config.
Hypothesis fits_c : calc_fits cfg.
Variable env : program.
Notation ev := (eval cfg env).
Hypothesis clean_env : program_every no_natives env.
Variables (sst : sign_style) (pst : prim_style) (fu fm fp : mf2).
Hypothesis Hu : sign_op sst fu.
Hypothesis Hm : level_op Mul Div fm.
Hypothesis Hp : level_op Add Sub fp.
Notation d := (style_dialect sst pst).
Hypothesis Henv : brackets d = true -> env 0%nat = gsum sst pst true true fu fm fp.

(** The message for a missing operand. *)
Definition missing_operand : msg :=
  match pst, cfg_std cfg with
  | IntOnly, _ => digit_expected
  | IntParen, Std98 => literal_expected 40
  | IntParenFail m, Std98 => m
  | _, _ => none_of_the_expected_cases_found
  end.

Lemma style_signs : sign_chars d.
Proof. intros c. destruct sst; simpl; intros H; repeat destruct H as [<-|H]; auto; destruct H. Qed.

Definition misfit (X : cexp -> list ctok -> Prop) (s : str) (ps : pos) (m : msg) (pe : pos) : Prop :=
  exists u r ts k b us e, s = u ++ r /\ pe = adv ps u /\ tokens s ts r /\ X e (ts ++ us)
    /\ (forall i, crun d (i, false) ts = Some ((k + i)%nat, b))
    /\ not_starting_with (next_char d (k, b)) r
    /\ ((b = false /\ m = missing_operand)
        \/ (b = true /\ (0 < k)%nat /\ exists u1 u2 e', u = u1 ++ 40 :: u2 /\ calc_text d e' u2
              /\ m = unpaired (line (adv ps u1)) (col (adv ps u1)) (literal_expected 41))).

Definition senseless (s : str) : Prop :=
  exists ts1 ts2 rem e, tokens s (ts1 ++ ts2) rem /\ sum d e ts2 /\ meaningless e.

Definition fails_well (X : cexp -> list ctok -> Prop) (s : str) (ps : pos) (o : outcome) : Prop :=
  match o with
  | Reject m pe => misfit X s ps m pe
  | Illformed => senseless s
  | _ => True
  end.

Lemma misfit_prefix : forall (X Y : cexp -> list ctok -> Prop) u0 s ts0 j ps m pe,
  tokens (u0 ++ s) ts0 s -> (forall i, crun d (i, false) ts0 = Some ((j + i)%nat, false)) ->
  (forall e us, X e us -> exists e' vs, Y e' (ts0 ++ us ++ vs)) ->
  misfit X s (adv ps u0) m pe -> misfit Y (u0 ++ s) ps m pe.
Proof.
  intros X Y u0 s ts0 j ps m pe T0 R0 C (u & r & ts & k & b & us & e & -> & -> & T & Xe & R & N & M).
  destruct (C e (ts ++ us) Xe) as (e' & vs & Ye).
  exists (u0 ++ u), r, (ts0 ++ ts), (k + j)%nat, b, (us ++ vs), e'. splits.
  - rewrite <- app_assoc. reflexivity.
  - rewrite adv_app. reflexivity.
  - eapply tokens_app; eauto.
  - rewrite <- app_assoc. rewrite <- app_assoc in Ye. exact Ye.
  - intros i. rewrite crun_app, R0, R. f_equal. f_equal. lia.
  - destruct r as [|c r]; simpl in *; auto. intros H. apply N. destruct b; auto.
    destruct H as [H|(_ & H)]; auto. right. split; auto.
    destruct M as [(Q & _)|(_ & Q & _)]; [discriminate|auto].
  - destruct M as [M|(B & K & u1 & u2 & e1 & -> & Tx & ->)]; [left; auto|right].
    splits; auto; [lia|]. exists (u0 ++ u1), u2, e1. splits; auto.
    + rewrite <- app_assoc. reflexivity.
    + rewrite adv_app. reflexivity.
Qed.

Lemma senseless_prefix : forall s0 ts0 s, tokens s0 ts0 s -> senseless s -> senseless s0.
Proof.
  intros s0 ts0 s T (ts1 & ts2 & rem & e & T1 & S & M). exists (ts0 ++ ts1), ts2, rem, e.
  splits; auto. rewrite <- app_assoc. eapply tokens_app; eauto.
Qed.

Lemma fails_prefix : forall (X Y : cexp -> list ctok -> Prop) u0 s ts0 j ps o,
  tokens (u0 ++ s) ts0 s -> (forall i, crun d (i, false) ts0 = Some ((j + i)%nat, false)) ->
  (forall e us, X e us -> exists e' vs, Y e' (ts0 ++ us ++ vs)) ->
  fails_well X s (adv ps u0) o -> fails_well Y (u0 ++ s) ps o.
Proof.
  intros X Y u0 s ts0 j ps o T R C H. destruct o; simpl in *; auto.
  - eapply misfit_prefix; eauto.
  - eapply senseless_prefix; eauto.
Qed.

Lemma misfit_weaken : forall (X Y : cexp -> list ctok -> Prop) s ps o,
  (forall e us, X e us -> Y e us) -> fails_well X s ps o -> fails_well Y s ps o.
Proof.
  intros X Y s ps o H F. apply (fails_prefix X Y [] s [] 0 ps o); auto; try constructor.
  intros e us Xe. exists e, []. rewrite app_nil_r. apply H. exact Xe.
Qed.

Lemma accept_pos : forall n e s ps v rem ps', every no_natives e -> ev n e s ps = Accept v rem ps' ->
  exists w, s = w ++ rem /\ ps' = adv ps w.
Proof.
  intros n e s ps v rem ps' H E.
  assert (A : sound_accept (ev n e)).
  { apply eval_sound_accept.
    - intros k. apply no_natives_accept. apply clean_env.
    - apply no_natives_accept. auto. }
  apply A in E as (w & -> & W). exists w. split; auto. apply walk_iff. auto.
Qed.

Lemma lit_token_clean : forall c, every no_natives (lit_token c).
Proof. intros c. unfold lit_token, no_natives. every_solve; auto. Qed.
Lemma level_ops_clean : forall o1 o2, every no_natives (level_ops o1 o2).
Proof. intros o1 o2. unfold level_ops, lit_token, no_natives. every_solve; auto. Qed.
Lemma gsign_clean : every no_natives (gsign sst).
Proof. destruct sst; unfold gsign, plus_token, minus_token, no_natives; every_solve; auto. Qed.

(** *** Numbers *)

Lemma take_class : forall (P : char -> Prop), (forall c, P c \/ ~ P c) -> forall s,
  exists a b, s = a ++ b /\ Forall P a /\ not_starting_with P b.
Proof.
  intros P D s. induction s as [|c s (a & b & -> & A & B)].
  - exists [], []. splits; simpl; auto.
  - destruct (D c) as [H|H].
    + exists (c :: a), b. splits; auto.
    + exists [], (c :: a ++ b). splits; simpl; auto.
Qed.
Lemma digit_char_dec : forall c, digit_char c \/ ~ digit_char c.
Proof. intros c. unfold digit_char. slia. Qed.
Lemma space_char_dec : forall c, space_char c \/ ~ space_char c.
Proof. intros c. unfold space_char. slia. Qed.

Lemma number_token : forall c s, digit_char c -> exists ds rem, tokens (c :: s) [CNum ds] rem.
Proof.
  intros c s D. destruct (take_class digit_char digit_char_dec s) as (a & b & -> & A & B).
  destruct (take_class space_char space_char_dec b) as (w & t & -> & W & T).
  exists (c :: a), t. apply (tokens_one (CNum (c :: a)) (c :: a) w t); auto.
  - constructor; auto. discriminate.
  - intros _ ->. exact B.
Qed.

Lemma lit_sum : forall ds, sum d (CLit ds) [CNum ds].
Proof. intros ds. apply su_one, pd_one, sg_primary. constructor. Qed.

Lemma starts_digit_dec : forall s, not_starting_with digit_char s \/ exists c t, s = c :: t /\ digit_char c.
Proof.
  intros [|c s]; [left; exact Logic.I|]. destruct (digit_char_dec c); [right; eauto | left; auto].
Qed.

(** The number token only fails at its first character, or because it is no int. *)
Lemma num_fails : forall n s ps, (length s < n)%nat ->
  match ev n int_token s ps with
  | Reject m pe => m = digit_expected /\ pe = ps /\ not_starting_with digit_char s
  | Illformed => senseless s
  | _ => True
  end.
Proof.
  intros n s ps L. destruct (starts_digit_dec s) as [N|(c & t & -> & D)].
  - rewrite (num_token_rejects cfg fits_c) by auto. auto.
  - destruct (number_token c t D) as (ds & rem & T).
    destruct (num_token_complete cfg fits_c env n ds (c :: t) ps rem T L) as [(z & ps' & _ & ->)|(M & ->)]; auto.
    exists [], [CNum ds], rem, (CLit ds). splits; auto. apply lit_sum.
Qed.

(** *** Brackets *)

Lemma lit_token_only : forall n c s ps m pe, ev n (lit_token c) s ps = Reject m pe ->
  m = literal_expected c /\ pe = ps /\ not_starting_with (fun k => k = c) s.
Proof.
  intros n c s ps m pe E.
  assert (N : not_starting_with (fun k => k = c) s).
  { destruct s as [|k s]; simpl; auto. intros ->. rewrite ev_lit_token in E.
    apply token_reject in E; [|apply (cfs cfg fits_c); lia].
    destruct (lit_c_class c) as (A & _). rewrite (A c s ps (adv ps [c])) in E by (auto; apply walk_adv).
    discriminate. }
  rewrite (lit_token_rejects cfg fits_c) in E by auto. inversion E; subst. auto.
Qed.

Lemma lit_token_fine : forall n c s ps, (length s < n)%nat ->
  ev n (lit_token c) s ps <> Illformed /\ ev n (lit_token c) s ps <> OutOfFuel.
Proof.
  intros n c s ps L.
  destruct s as [|k s]; [rewrite (lit_token_rejects cfg fits_c) by (simpl; auto); split; discriminate|].
  destruct (Z.eq_dec k c) as [->|Q].
  2:{ rewrite (lit_token_rejects cfg fits_c) by (simpl; auto). split; discriminate. }
  assert (O : token cfg n (lit_c c) (c :: s) ps <> Illformed /\ token cfg n (lit_c c) (c :: s) ps <> OutOfFuel).
  { destruct (take_class space_char space_char_dec s) as (w & t & -> & W & T).
    assert (E : token cfg n (lit_c c) (c :: w ++ t) ps = Accept (VChar c) t (adv (adv ps [c]) w)).
    { apply token_accept; [apply (cfs cfg fits_c); lia|]. exists (w ++ t), (adv ps [c]), w.
      simpl in L. rewrite app_length in L. splits; auto; try apply walk_adv; [|slia].
      apply lit_accept. splits; auto. apply walk_adv. }
    rewrite E. split; discriminate. }
  rewrite ev_lit_token. exact O.
Qed.

Lemma two_fine : forall n c1 c2 s ps, (length s < n)%nat ->
  ev n (POneOf [lit_token c1; lit_token c2]) s ps <> Illformed.
Proof.
  intros n c1 c2 s ps L. rewrite ev_two.
  destruct (lit_token_fine n c1 s ps L) as (A1 & B1). destruct (lit_token_fine n c2 s ps L) as (A2 & B2).
  destruct (one_of_cases cfg [ev n (lit_token c1); ev n (lit_token c2)] (cfo cfg fits_c 2 ltac:(lia)) s ps) as [[-> _] | [-> _]];
    unfold one_of_98_impl; cbn [one_of_11 fold_left one_of_fwd_op]; unfold fail, one_of_fwd_op, later_result;
    destruct (ev n (lit_token c1) s ps); destruct (ev n (lit_token c2) s ps); try congruence;
    repeat match goal with |- context [pos_less ?a ?b] => destruct (pos_less a b) end; discriminate.
Qed.

Lemma tokens_same : forall s ts, tokens s ts s -> ts = [].
Proof.
  intros s ts T. apply tokens_length in T. destruct ts; auto. simpl in T. lia.
Qed.

(** A failure at the first character means that no operand starts there. *)
Lemma misfit_start : forall X s ps m, misfit X s ps m ps ->
  not_starting_with (next_char d (0%nat, false)) s /\ m = missing_operand.
Proof.
  intros X s ps m (u & r & ts & k & b & us & e & -> & E & T & _ & R & N & M).
  assert (u = []) as -> by (apply (adv_fix u ps); auto).
  apply tokens_same in T. subst ts. specialize (R 0%nat). simpl in R. injection R as R1 R2.
  assert (k = 0%nat) as -> by lia. subst b. split; auto. destruct M as [(_ & M)|(Q & _)]; [auto|discriminate].
Qed.

Lemma misfit_here : forall (X : cexp -> list ctok -> Prop) s ps e us, X e us ->
  not_starting_with (next_char d (0%nat, false)) s -> misfit X s ps missing_operand ps.
Proof.
  intros X s ps e us Xe N. exists [], s, [], 0%nat, false, us, e. splits; auto. constructor.
Qed.

Definition ref_ok (n : nat) : Prop :=
  forall s ps, (length s + 1 < n)%nat ->
  fails_well (sum d) s ps (ev n (PRef 0) s ps)
  /\ (forall v rem ps', ev n (PRef 0) s ps = Accept v rem ps' -> not_starting_with operator_char rem).

Lemma ref_clean : every no_natives (PRef 0).
Proof. unfold no_natives. every_solve; auto. Qed.

Lemma ref_sound_d : forall n, brackets d = true -> sound_exp (sum d) (ev n (PRef 0)).
Proof. intros n B. apply (ref_sum_sound cfg fits_c env sst pst true true fu fm fp); auto. Qed.

Lemma paren_fails : forall n t ps, brackets d = true -> ref_ok n -> (length t + 1 < n)%nat ->
  fails_well (primary d) (40 :: t) ps (ev n paren_exp (40 :: t) ps).
Proof.
  intros n t ps B RO L. rewrite ev_paren, middle_of_spec by (apply (cfs cfg fits_c); lia).
  destruct (ev n (lit_token 40) (40 :: t) ps) as [x1 s1 ps1 | m1 pe1 | | ] eqn:E1.
  - destruct (accept_pos _ _ _ _ _ _ _ (lit_token_clean 40) E1) as (u0 & Eu & ->).
    apply (lit_token_sound cfg fits_c) in E1 as (_ & T1); [|apply op40].
    assert (L1 := tokens_length _ _ _ T1). cbn [length] in L1.
    rewrite Eu in T1 |- *.
    assert (R0 : forall i, crun d (i, false) [COp 40] = Some ((1 + i)%nat, false)).
    { intros i. cbn [crun]. rewrite (cstep_open d i style_signs B). reflexivity. }
    destruct (RO s1 (adv ps u0)) as (F & A); [slia|].
    assert (FW : fails_well (primary d) (u0 ++ s1) ps (ev n (PRef 0) s1 (adv ps u0))).
    { apply (fails_prefix (sum d) (primary d) u0 s1 [COp 40] 1); auto.
      intros e us S. exists e, [COp 41]. apply (pr_brackets d e us B S). }
    destruct (ev n (PRef 0) s1 (adv ps u0)) as [x2 s2 ps2 | m2 pe2 | | ] eqn:E2; auto.
    clear FW F. specialize (A _ _ _ eq_refl).
    destruct (accept_pos _ _ _ _ _ _ _ ref_clean E2) as (u2 & -> & ->).
    apply (ref_sound_d n B) in E2 as (e & ts & z & _ & M & S & T2).
    assert (L2 := tokens_length _ _ _ T2).
    destruct (ev n (lit_token 41) s2 (adv (adv ps u0) u2)) as [x3 s3 ps3 | m3 pe3 | | ] eqn:E3.
    + exact Logic.I.
    + apply lit_token_only in E3 as (-> & -> & N). simpl.
      assert (U0 : exists w, u0 = 40 :: w /\ Forall space_char w).
      { apply tokens_one_inv in T1 as (l & w & E & L0 & W & _). inversion L0; subst.
        exists w. split; auto. apply (app_inv_tail (u2 ++ s2)). exact E. }
      destruct U0 as (w & -> & W).
      exists ((40 :: w) ++ u2), s2, (COp 40 :: ts), 1%nat, true, [COp 41], e. splits.
      * rewrite <- app_assoc. reflexivity.
      * rewrite adv_app. reflexivity.
      * apply (tokens_app _ [COp 40] (u2 ++ s2)); auto.
      * apply (pr_brackets d e ts B S).
      * intros i. cbn [crun]. rewrite (cstep_open d i style_signs B).
        rewrite (sum_run d e ts _ style_signs S). reflexivity.
      * destruct s2 as [|c s2]; simpl in *; auto. intros [H|(_ & H)]; auto.
      * right. splits; auto. exists [], (w ++ u2), e. splits; auto.
        exists w, u2, ts. splits; auto. eapply tokens_cut; eauto.
    + destruct (lit_token_fine n 41 s2 (adv (adv ps u0) u2)) as (Q & _); [slia|congruence].
    + destruct (lit_token_fine n 41 s2 (adv (adv ps u0) u2)) as (_ & Q); [slia|congruence].
  - apply lit_token_only in E1 as (_ & _ & N). simpl in N. congruence.
  - destruct (lit_token_fine n 40 (40 :: t) ps) as (Q & _); [simpl; slia|congruence].
  - destruct (lit_token_fine n 40 (40 :: t) ps) as (_ & Q); [simpl; slia|congruence].
Qed.

(** *** Operands *)

Lemma one_of_start : forall p q s ps m1 m2, p s ps = Reject m1 ps -> q s ps = Reject m2 ps ->
  one_of cfg [p; q] s ps
  = Reject (match cfg_std cfg with Std98 => m2 | _ => none_of_the_expected_cases_found end) ps.
Proof.
  intros p q s ps m1 m2 E1 E2.
  assert (Q : pos_less ps ps = false) by (apply pos_less_false_iff, pos_le_refl).
  destruct (one_of_cases cfg [p; q] (cfo cfg fits_c 2 ltac:(lia)) s ps) as [[-> K] | [-> K]].
  - cbn [one_of_11]. rewrite E1, E2. unfold fail, later_result. rewrite Q. rewrite Q.
    destruct (cfg_std cfg); congruence.
  - unfold one_of_98_impl. cbn [fold_left one_of_fwd_op]. unfold fail, one_of_fwd_op. rewrite E1.
    unfold later_result. rewrite Q, E2, Q, K. reflexivity.
Qed.
Lemma one_of_start3 : forall p q r s ps m1 m2 m3, p s ps = Reject m1 ps -> q s ps = Reject m2 ps ->
  r s ps = Reject m3 ps ->
  one_of cfg [p; q; r] s ps
  = Reject (match cfg_std cfg with Std98 => m3 | _ => none_of_the_expected_cases_found end) ps.
Proof.
  intros p q r s ps m1 m2 m3 E1 E2 E3.
  assert (Q : pos_less ps ps = false) by (apply pos_less_false_iff, pos_le_refl).
  destruct (one_of_cases cfg [p; q; r] (cfo cfg fits_c 3 ltac:(lia)) s ps) as [[-> K] | [-> K]].
  - cbn [one_of_11]. rewrite E1, E2, E3. unfold fail, later_result. rewrite Q. rewrite Q. rewrite Q.
    destruct (cfg_std cfg); congruence.
  - unfold one_of_98_impl. cbn [fold_left one_of_fwd_op]. unfold fail, one_of_fwd_op. rewrite E1.
    unfold later_result. rewrite Q, E2, Q, E3, Q, K. reflexivity.
Qed.

Lemma one_of_second : forall p q l s ps m1, (length l <= 1)%nat -> p s ps = Reject m1 ps ->
  (forall r, In r l -> exists m, r s ps = Reject m ps) ->
  (forall m pe, q s ps = Reject m pe -> pos_less ps pe = true) ->
  one_of cfg (p :: q :: l) s ps = q s ps.
Proof.
  intros p q l s ps m1 Ll E1 El P.
  assert (Q : pos_less ps ps = false) by (apply pos_less_false_iff, pos_le_refl).
  assert (P' : forall m pe, q s ps = Reject m pe -> pos_less pe ps = false).
  { intros m pe H. apply P in H. apply pos_less_iff in H. apply pos_less_false_iff. left. auto. }
  destruct (one_of_cases cfg (p :: q :: l) (cfo cfg fits_c (2 + length l) ltac:(lia)) s ps) as [[-> K] | [-> K]].
  - cbn [one_of_11]. rewrite E1.
    assert (X : exists m, one_of_11 l s ps = Reject m ps).
    { destruct l as [|r [|r' l]]; [eexists; reflexivity| |simpl in Ll; lia].
      destruct (El r) as (m & E); [left; auto|]. cbn [one_of_11]. rewrite E. unfold fail, later_result. rewrite Q. eauto. }
    destruct X as (m & ->). destruct (q s ps) as [r s' ps' | m2 pe | | ] eqn:Eq; auto.
    unfold later_result. rewrite (P m2 pe eq_refl), (P' m2 pe eq_refl). reflexivity.
  - unfold one_of_98_impl. cbn [fold_left one_of_fwd_op]. unfold fail, one_of_fwd_op. rewrite E1.
    unfold later_result. rewrite Q.
    destruct l as [|r [|r' l]]; [| |simpl in Ll; lia]; cbn [fold_left].
    + destruct (q s ps) as [r s' ps' | m2 pe | | ] eqn:Eq; auto. rewrite (P' m2 pe eq_refl). reflexivity.
    + destruct (El r) as (m & E); [left; auto|].
      destruct (q s ps) as [r0 s' ps' | m2 pe | | ] eqn:Eq; auto.
      * rewrite E. reflexivity.
      * rewrite (P' m2 pe eq_refl). rewrite E. rewrite (P m2 pe eq_refl). reflexivity.
Qed.

Lemma one_of_first : forall p l s ps, (length l <= 2)%nat ->
  (forall q, In q l -> exists m, q s ps = Reject m ps) ->
  (forall m pe, p s ps <> Reject m pe) -> one_of cfg (p :: l) s ps = p s ps.
Proof.
  intros p l s ps Ll El P.
  assert (Q : pos_less ps ps = false) by (apply pos_less_false_iff, pos_le_refl).
  destruct (one_of_cases cfg (p :: l) (cfo cfg fits_c (1 + length l) ltac:(lia)) s ps) as [[-> K] | [-> K]].
  - cbn [one_of_11].
    assert (X : exists m, one_of_11 l s ps = Reject m ps).
    { clear - El Q. induction l as [|r l IH]; [eexists; reflexivity|].
      destruct (El r) as (m & E); [left; auto|]. destruct IH as (m' & E'); [intros; apply El; right; auto|].
      cbn [one_of_11]. rewrite E, E'. unfold later_result. rewrite Q. eauto. }
    destruct X as (m & ->). destruct (p s ps) as [r s' ps' | m2 pe | | ] eqn:Eq; auto.
    destruct (P m2 pe eq_refl).
  - unfold one_of_98_impl. cbn [fold_left one_of_fwd_op]. unfold fail, one_of_fwd_op at 2.
    destruct (p s ps) as [r s' ps' | m2 pe | | ] eqn:Eq; [ | destruct (P m2 pe eq_refl) | | ].
    + clear - El. induction l as [|q l IH]; auto. destruct (El q) as (m & E); [left; auto|].
      cbn [fold_left one_of_fwd_op]. rewrite E. apply IH. intros; apply El; right; auto.
    + clear. induction l as [|q l IH]; auto.
    + clear. induction l as [|q l IH]; auto.
Qed.

Lemma prim_lit : primary d (CLit [49]) [CNum [49]].
Proof. constructor. Qed.


Lemma pst_cases : pst = IntOnly \/ pst = IntParen \/ exists m, pst = IntParenFail m.
Proof. clear. destruct pst; eauto. Qed.

Lemma prim_starts : forall n s ps, (brackets d = true -> ref_ok n) -> (length s < n)%nat ->
  ((exists c t, s = c :: t /\ digit_char c) /\ ev n (gprim pst) s ps = ev n int_token s ps)
  \/ ((exists t, s = 40 :: t) /\ brackets d = true /\ ev n (gprim pst) s ps = ev n paren_exp s ps)
  \/ (not_starting_with (fun c => digit_char c \/ (brackets d = true /\ c = 40)) s
      /\ ev n (gprim pst) s ps = Reject missing_operand ps).
Proof.
  intros n s ps RO L.
  assert (P0 : brackets d = true -> forall t, s = 40 :: t -> forall m pe,
    ev n paren_exp s ps = Reject m pe -> pos_less ps pe = true).
  { intros B t -> m pe E. assert (F := paren_fails n t ps B (RO B) ltac:(simpl in L; slia)).
    rewrite E in F. simpl in F. destruct (Proofs_Pos.pos_lt_total ps pe) as [H|[H|H]].
    - apply pos_less_iff. auto.
    - subst pe. apply misfit_start in F as (F & _). simpl in F. tauto.
    - destruct F as (u & r & _ & _ & _ & _ & _ & _ & -> & _).
      destruct (Proofs_Pos.pos_lt_irrefl ps). eapply Proofs_Pos.pos_le_lt_trans; [apply adv_le|exact H]. }
  assert (NF := num_fails n s ps L).
  destruct (starts_digit_dec s) as [N|(c & t & -> & D)].
  - assert (EN : ev n int_token s ps = Reject digit_expected ps) by (apply (num_token_rejects cfg fits_c); auto).
    assert (C : (exists t, s = 40 :: t) \/ not_starting_with (fun c => c = 40) s).
    { destruct s as [|c s]; [right; exact Logic.I|]. destruct (Z.eq_dec c 40) as [->|Q]; [left; eauto | right; auto]. }
    right. unfold missing_operand.
    destruct pst_cases as [EP|[EP|(fm0 & EP)]]; rewrite EP in P0 |- *.
    + right. split; [|exact EN]. destruct s; simpl in *; auto. intros [H|(H & _)]; [auto | discriminate].
    + destruct C as [(t & ->)|C]; [left|right].
      * splits; eauto. rewrite ev_int_paren. apply (one_of_second _ _ [] _ _ digit_expected); simpl; auto; try tauto.
        intros m pe. eapply P0; eauto.
      * split; [destruct s; simpl in *; tauto|]. rewrite ev_int_paren.
        rewrite (one_of_start _ _ _ _ digit_expected (literal_expected 40)); auto.
        apply (paren_rejects cfg fits_c env sst pst true true fu fm fp Henv); auto.
    + destruct C as [(t & ->)|C]; [left|right].
      * splits; eauto. rewrite ev_int_paren_fail. apply (one_of_second _ _ [fail fm0] _ _ digit_expected); simpl; auto.
        -- intros r [<-|[]]. eexists; reflexivity.
        -- intros m pe. eapply P0; eauto.
      * split; [destruct s; simpl in *; tauto|]. rewrite ev_int_paren_fail.
        rewrite (one_of_start3 _ _ _ _ _ digit_expected (literal_expected 40) fm0); auto.
        apply (paren_rejects cfg fits_c env sst pst true true fu fm fp Henv); auto.
  - left. split; eauto.
    assert (PR : ev n paren_exp (c :: t) ps = Reject (literal_expected 40) ps).
    { apply (paren_rejects cfg fits_c env sst pst true true fu fm fp Henv). simpl. unfold digit_char in D. slia. }
    assert (NR : forall m pe, ev n int_token (c :: t) ps <> Reject m pe).
    { intros m pe E. rewrite E in NF. destruct NF as (_ & _ & NF). simpl in NF. tauto. }
    destruct pst_cases as [EP|[EP|(fm0 & EP)]]; rewrite EP; [reflexivity| |].
    + rewrite ev_int_paren. apply one_of_first; simpl; auto. intros q [<-|[]]. eauto.
    + rewrite ev_int_paren_fail. apply one_of_first; simpl; auto. intros q [<-|[<-|[]]]; [eauto|]. eexists; reflexivity.
Qed.

Lemma prim_fails : forall n s ps, (brackets d = true -> ref_ok n) -> (length s < n)%nat ->
  not_starting_with (fun c => In c (signs d)) s ->
  fails_well (primary d) s ps (ev n (gprim pst) s ps).
Proof.
  intros n s ps RO L Ns.
  destruct (prim_starts n s ps RO L) as [((c & t & -> & D) & ->)|[((t & ->) & B & ->)|(N & ->)]].
  - assert (NF := num_fails n (c :: t) ps L). destruct (ev n int_token (c :: t) ps) as [ | m pe | | ]; auto.
    destruct NF as (_ & _ & N). simpl in N. tauto.
  - apply paren_fails; auto. simpl in L. slia.
  - simpl. eapply misfit_here; [apply prim_lit|]. destruct s as [|c s]; simpl in *; auto. tauto.
Qed.

(** *** Signs *)

Lemma sst_cases : sst = NoSigns \/ sst = MinusSign \/ sst = BothSigns.
Proof. clear. destruct sst; auto. Qed.

Lemma sign_only : forall n s ps m pe, ev n (gsign sst) s ps = Reject m pe ->
  not_starting_with (fun c => In c (signs d)) s.
Proof.
  intros n s ps m pe E. destruct sst_cases as [ES|[ES|ES]]; rewrite ES in E |- *; simpl gsign in E.
  - destruct s; simpl; auto.
  - apply (lit_token_only n 45) in E as (_ & _ & N). destruct s; simpl in *; auto. intros [H|[]]. auto.
  - apply (two_reject_only cfg fits_c env n 43 45) in E. destruct s; simpl in *; auto. intros [H|[H|[]]]; auto.
Qed.

Lemma sign_fine : forall n s ps, (length s < n)%nat -> ev n (gsign sst) s ps <> Illformed.
Proof.
  intros n s ps L. destruct sst_cases as [ES|[ES|ES]]; rewrite ES; simpl gsign.
  - destruct n; discriminate.
  - apply (lit_token_fine n 45); auto.
  - apply (two_fine n 43 45); auto.
Qed.

Lemma sign_exp : forall c e ts, In c (signs d) -> signed d e ts -> exists e', signed d e' (COp c :: ts)
  /\ (meaningless e -> meaningless e')
  /\ forall z, means e z -> fu (VInt z) (VChar c) = None -> meaningless e'.
Proof.
  intros c e ts H S. destruct (style_signs c H) as [->| ->].
  - exists (CPos e). split; [apply sg_plus; auto|]. split; [apply meaningless_pos|].
    intros z M E. exfalso. clear - H Hu E. destruct sst; simpl in H, Hu; try tauto; try (destruct H as [H|[]]; discriminate).
    destruct (Hu z) as (_ & Q). congruence.
  - exists (CNeg e). split; [apply sg_minus; auto|]. split; [apply meaningless_neg|].
    intros z M E z' M'. assert (Iz : is_int (- z)) by (inversion M'; subst; same_means; auto).
    assert (Q : fu (VInt z) (VChar 45) = int_constant (- z)).
    { clear - H Hu. destruct sst; simpl in H, Hu; try tauto; [apply Hu|]. apply (Hu z). }
    rewrite (int_constant_some (- z)) in Q by auto. congruence.
Qed.

Lemma signed_fold_sound : sst <> NoSigns -> forall n j,
  sound_exp (signed d) (foldr_start_with_parser j (ev n (gsign sst)) (ev n (gprim pst)) fu).
Proof.
  intros Ns n. assert (SP : sound_exp (primary d) (ev n (gprim pst))).
  { apply prim_sound; auto. intros B. apply ref_sound_d; auto. }
  intros j. induction j as [|j IH]; intros s ps v rem ps' E; [discriminate|].
  cbn [foldr_start_with_parser] in E.
  destruct (ev n (gsign sst) s ps) as [r s1 ps1 | m pe | | ] eqn:E1; try discriminate.
  - destruct (foldr_start_with_parser j (ev n (gsign sst)) (ev n (gprim pst)) fu s1 ps1)
      as [v1 s2 ps2 | | | ] eqn:E2; try discriminate.
    destruct (fu v1 r) as [w|] eqn:F; inversion E; subst w s2 ps2. clear E.
    apply (sign_sound cfg fits_c) in E1 as (c & I & C & -> & T1). apply IH in E2 as (e & ts & z & -> & M & S & T2).
    assert (T : tokens s (COp c :: ts) rem) by (apply (tokens_app _ [COp c] s1); auto).
    destruct C as [->| ->].
    + assert (F2 : fu (VInt z) (VChar 43) = Some (VInt z) /\ In 43 (signs d)).
      { clear - I Hu. destruct sst; simpl in I; try lia. split; [apply (Hu z) | simpl; auto]. }
      destruct F2 as (F2 & I2). rewrite F2 in F. inversion F; subst.
      exists (CPos e), (COp 43 :: ts), z. splits; auto; [constructor; auto|]. apply sg_plus; auto.
    + assert (F2 : fu (VInt z) (VChar 45) = int_constant (- z) /\ In 45 (signs d)).
      { clear - I Ns Hu. destruct sst; [congruence | split; [apply Hu | simpl; auto] | split; [apply (Hu z) | simpl; auto]]. }
      destruct F2 as (F2 & I2). rewrite F2 in F. apply int_constant_inv in F as (Iz & ->).
      exists (CNeg e), (COp 45 :: ts), (- z). splits; auto; [constructor; auto|]. apply sg_minus; auto.
  - apply SP in E as (e & ts & z & -> & M & P & T). exists e, ts, z. splits; auto. apply sg_primary; auto.
Qed.

Lemma signed_fails_fold : sst <> NoSigns -> forall n, (brackets d = true -> ref_ok n) ->
  forall j s ps, (length s < n)%nat ->
  fails_well (signed d) s ps (foldr_start_with_parser j (ev n (gsign sst)) (ev n (gprim pst)) fu s ps).
Proof.
  intros Ns n RO j. induction j as [|j IH]; intros s ps L; [exact Logic.I|].
  cbn [foldr_start_with_parser].
  destruct (ev n (gsign sst) s ps) as [v1 s1 ps1 | m1 pe1 | | ] eqn:E1.
  - destruct (accept_pos _ _ _ _ _ _ _ gsign_clean E1) as (u0 & -> & ->).
    apply (sign_sound cfg fits_c) in E1 as (c & Ic & _ & -> & T1).
    assert (Ic' : In c (signs d)) by (clear - Ic; destruct sst; exact Ic).
    assert (L1 := tokens_length _ _ _ T1). cbn [length] in L1.
    assert (R0 : forall i, crun d (i, false) [COp c] = Some ((0 + i)%nat, false)).
    { intros i. cbn [crun]. rewrite (cstep_sign d i c Ic'). reflexivity. }
    assert (FW := IH s1 (adv ps u0) ltac:(slia)).
    apply (fails_prefix (signed d) (signed d) u0 s1 [COp c] 0 ps) in FW; auto.
    2:{ intros e us S. destruct (sign_exp c e us Ic' S) as (e' & S' & _). exists e', []. rewrite app_nil_r. exact S'. }
    destruct (foldr_start_with_parser j (ev n (gsign sst)) (ev n (gprim pst)) fu s1 (adv ps u0)) as [v2 s2 ps2 | m2 pe2 | | ] eqn:E2; auto.
    destruct (fu v2 (VChar c)) as [w|] eqn:Ef; [exact Logic.I|]. simpl.
    assert (SS : exists e ts z, v2 = VInt z /\ means e z /\ signed d e ts /\ tokens s1 ts s2).
    { eapply signed_fold_sound; eauto. }
    destruct SS as (e & ts & z & -> & M & S & T2).
    destruct (sign_exp c e ts Ic' S) as (e' & S' & _ & Me).
    exists [], (COp c :: ts), s2, e'. splits; eauto.
    + apply (tokens_app _ [COp c] s1); auto.
    + apply su_one, pd_one. exact S'.
  - assert (N := sign_only n s ps m1 pe1 E1).
    apply (misfit_weaken (primary d)); [intros; apply sg_primary; auto|].
    apply prim_fails; auto.
  - destruct (sign_fine n s ps L). auto.
  - exact Logic.I.
Qed.

Lemma signed_fails : forall n s ps, (brackets d = true -> ref_ok n) -> (length s < n)%nat ->
  fails_well (signed d) s ps (ev n (gsigned sst (gprim pst) fu) s ps).
Proof.
  intros n s ps RO L.
  assert (D : sst = NoSigns \/ sst <> NoSigns) by (clear; destruct sst; auto; right; discriminate).
  destruct D as [D|D].
  - apply (misfit_weaken (primary d)); [intros; apply sg_primary; auto|].
    assert (E : gsigned sst (gprim pst) fu = gprim pst) by (rewrite D; reflexivity). rewrite E.
    apply prim_fails; auto. rewrite D. destruct s; simpl; auto.
  - rewrite ev_gsigned by auto. apply signed_fails_fold; auto.
Qed.

(** *** Chains *)

Lemma two_reject_pos : forall n o1 o2 s ps m pe, ev n (level_ops o1 o2) s ps = Reject m pe -> pe = ps.
Proof.
  intros n o1 o2 s ps m pe E. assert (N := E). unfold level_ops in N.
  apply (two_reject_only cfg fits_c) in N.
  destruct (two_rejects cfg fits_c env n (op_of o1) (op_of o2) s ps N) as (m' & E').
  unfold level_ops in E. congruence.
Qed.

Section Chain.

Variables (X Y : cexp -> list ctok -> Prop) (o1 o2 : cop) (f : mf2) (n : nat) (operand : pexpr).
Hypothesis LY : level X Y o1 o2.
Hypothesis Lf : level_op o1 o2 f.
Hypothesis YS : forall e ts, Y e ts -> sum d e ts.
Hypothesis Cl : every no_natives operand.
Hypothesis SX : sound_exp X (ev n operand).
Hypothesis FX : forall s ps, (length s < n)%nat -> fails_well X s ps (ev n operand s ps).

Lemma gfold_fails : forall j st u0 s ts a ps, tokens (u0 ++ s) ts s -> Y a ts ->
  (st = None -> meaningless a) -> (forall v, st = Some v -> exists z, v = VInt z /\ means a z) ->
  (length (u0 ++ s) < n)%nat ->
  fails_well Y (u0 ++ s) ps (gfold true j (item cfg env n (level_ops o1 o2) operand) st f s (adv ps u0)).
Proof.
  intros j. induction j as [|j IH]; intros st u0 s ts a ps T Ya Sn Ss L; [exact Logic.I|].
  assert (Ru : forall i, crun d (i, false) ts = Some (i, true)).
  { intros i. eapply sum_run; [apply style_signs|]. apply YS. exact Ya. }
  assert (None_ : st = None -> senseless (u0 ++ s)).
  { intros N. exists [], ts, s, a. splits; auto. }
  assert (L0 : (length s < n)%nat) by (rewrite app_length in L; slia).
  assert (IE := item_eq cfg fits_c env n (level_ops o1 o2) operand s (adv ps u0)).
  destruct (ev n (level_ops o1 o2) s (adv ps u0)) as [v1 s1 ps1 | m1 pe1 | | ] eqn:E1.
  - destruct (accept_pos _ _ _ _ _ _ _ (level_ops_clean o1 o2) E1) as (u1 & -> & ->).
    assert (E1' := E1). apply (two_sound cfg fits_c) in E1' as (k & K & -> & T1); try apply op_of_op_char.
    assert (O : exists o, (o = o1 \/ o = o2) /\ k = op_of o) by (destruct K; eauto).
    destruct O as (o & O & ->).
    assert (T01 : tokens ((u0 ++ u1) ++ s1) (ts ++ [COp (op_of o)]) s1).
    { rewrite <- app_assoc. eapply tokens_app; eauto. }
    assert (L1 : (length s1 < n)%nat) by (rewrite app_length in L0; slia).
    assert (FO := FX s1 (adv (adv ps u0) u1) L1).
    rewrite <- adv_app in FO.
    apply (fails_prefix X Y (u0 ++ u1) s1 (ts ++ [COp (op_of o)]) 0 ps) in FO; auto.
    2:{ intros i. rewrite crun_app, Ru. cbn [crun]. rewrite cstep_op. reflexivity. }
    2:{ intros e us Xe. exists (CBin o a e), []. rewrite app_nil_r, <- app_assoc. apply LY; auto. }
    rewrite <- app_assoc in FO. rewrite adv_app in FO.
    destruct (ev n operand s1 (adv (adv ps u0) u1)) as [v2 s2 ps2 | m2 pe2 | | ] eqn:E2.
    + destruct st as [v|].
      * rewrite (gfold_step true j _ v f _ _ _ _ _ IE).
        destruct (accept_pos _ _ _ _ _ _ _ Cl E2) as (u2 & -> & ->).
        apply SX in E2 as (b & us & y & -> & Mb & Xb & T2).
        destruct (Ss v eq_refl) as (z & -> & Ma). rewrite (Lf o z y O).
        assert (Q : forall A (x y z w : list A), x ++ y ++ z ++ w = (x ++ y ++ z) ++ w).
        { intros. rewrite <- !app_assoc. reflexivity. }
        rewrite (Q _ u0 u1 u2 s2). rewrite <- !adv_app.
        apply (IH _ _ _ (ts ++ COp (op_of o) :: us) (CBin o a b)).
        -- rewrite <- Q. eapply tokens_app; [exact T|]. apply (tokens_app _ [COp (op_of o)] (u2 ++ s2)); auto.
        -- apply LY; auto.
        -- intros A. intros x Mx. rewrite (arith_some _ _ _ _ _ _ Ma Mb Mx) in A. discriminate.
        -- intros x A. destruct (arith_inv _ _ _ _ _ _ Ma Mb A) as (x' & -> & Mx). eauto.
        -- rewrite <- Q. exact L.
      * rewrite gfold_none; [simpl; auto|]. left. do 3 eexists; eauto.
    + cbn [gfold foldl_reject_incomplete]. rewrite IE.
      destruct (pos_equal_to (adv ps u0) pe2); [|exact FO].
      destruct st; simpl; auto.
    + rewrite gfold_ill by auto. exact FO.
    + cbn [gfold foldl_reject_incomplete]. rewrite IE. exact Logic.I.
  - assert (P := two_reject_pos _ _ _ _ _ _ _ E1). subst pe1.
    destruct st as [v|].
    + rewrite (gfold_stop _ _ _ _ _ _ _ _ IE). exact Logic.I.
    + rewrite gfold_none; [simpl; auto|]. eauto.
  - destruct (two_fine n (op_of o1) (op_of o2) s (adv ps u0) L0). exact E1.
  - cbn [gfold foldl_reject_incomplete]. rewrite IE. exact Logic.I.
Qed.

Lemma chain_fails : forall s ps, (length s < n)%nat ->
  fails_well Y s ps (ev n (chain true (level_ops o1 o2) operand f) s ps).
Proof.
  intros s ps L. rewrite ev_chain.
  assert (F := FX s ps L). apply (misfit_weaken X Y) in F; [|apply LY].
  destruct (ev n operand s ps) as [v s1 ps1 | | | ] eqn:E; auto.
  destruct (accept_pos _ _ _ _ _ _ _ Cl E) as (u0 & -> & ->).
  apply SX in E as (e & ts & z & -> & M & Xe & T).
  apply (gfold_fails n (Some (VInt z)) u0 s1 ts e ps); auto.
  - apply LY. auto.
  - discriminate.
  - intros v Q. injection Q as <-. eauto.
Qed.

End Chain.

Lemma product_fails : forall n s ps, (brackets d = true -> ref_ok n) -> (length s < n)%nat ->
  fails_well (product d) s ps (ev n (gproduct sst pst true fu fm) s ps).
Proof.
  intros n s ps RO L. unfold gproduct. apply (chain_fails (signed d) (product d)); auto.
  - apply product_level.
  - apply su_one.
  - apply (gsigned_clean env sst pst true true fu fm fp); auto.
  - apply (signed_s cfg fits_c env sst pst true true fu fm fp); auto.
  - intros. apply signed_fails; auto.
Qed.

Lemma sum_fails : forall n s ps, (brackets d = true -> ref_ok n) -> (length s < n)%nat ->
  fails_well (sum d) s ps (ev n (gsum sst pst true true fu fm fp) s ps).
Proof.
  intros n s ps RO L. unfold gsum. apply (chain_fails (product d) (sum d)); auto.
  - apply sum_level.
  - apply (gproduct_clean env sst pst true true fu fm fp); auto.
  - apply (product_s cfg fits_c env sst pst true true fu fm fp); auto.
  - intros. apply product_fails; auto.
Qed.

Lemma ref_fails : forall n, brackets d = true -> ref_ok n.
Proof.
  intros n B. induction n as [|n IH]; intros s ps L; [lia|].
  assert (E : ev (S n) (PRef 0) s ps = ev n (gsum sst pst true true fu fm fp) s ps).
  { rewrite <- (Henv B). reflexivity. }
  rewrite E. split; [apply sum_fails; auto; lia|].
  intros v rem ps' A. apply (strict_sum_follow cfg fits_c env clean_env sst pst true true fu fm fp Hu Hm Hp Henv n s ps v rem ps' eq_refl). exact A.
Qed.

(** *** The whole text *)

Lemma sum_fails_top : forall n s ps, (length s < n)%nat ->
  fails_well (sum d) s ps (ev n (gsum sst pst true true fu fm fp) s ps).
Proof. intros n s ps L. apply sum_fails; auto. intros B. apply ref_fails; auto. Qed.

End Errors.

(** ** Texts and tokens *)

(** The tokens of a text that may start with whitespace. *)
Definition lexes (s : str) (ts : list ctok) : Prop :=
  exists w t, s = w ++ t /\ Forall space_char w /\ not_starting_with space_char t /\ tokens t ts [].

Lemma tokens_nil_inv : forall s m, tokens s [] m -> s = m.
Proof. intros s m H. inversion H. reflexivity. Qed.

Lemma tokens_of_nil : forall ts m, tokens [] ts m -> ts = [].
Proof.
  intros ts m H. inversion H as [|k l w t us rem L W N D T E]; auto. subst.
  apply lexeme_text in L as [(ds & -> & -> & Hn & _)|(c & -> & -> & _)].
  - destruct ds; [congruence|discriminate].
  - discriminate.
Qed.

Lemma calc_text_lexes : forall d e s, calc_text d e s <-> exists ts, lexes s ts /\ sum d e ts.
Proof.
  intros d e s. split.
  - intros (w & t & ts & -> & W & T & S). exists ts. split; auto. exists w, t. splits; auto.
    eapply tokens_not_space; eauto. eapply exp_tokens_nonempty; eauto.
  - intros (ts & (w & t & -> & W & N & T) & S). exists w, t, ts. auto.
Qed.

Lemma lexes_unique : forall s ts us, lexes s ts -> lexes s us -> ts = us.
Proof.
  intros s ts us (w & t & -> & W & N & T) (w' & t' & E & W' & N' & T').
  destruct (class_split space_char w t w' t') as (-> & ->); auto.
  destruct (tokens_prefix _ _ _ T _ T') as (vs & -> & V).
  apply tokens_of_nil in V. subst vs. rewrite app_nil_r. reflexivity.
Qed.

Lemma op_not_space : forall c, op_char c -> ~ space_char c.
Proof. intros c [<-|[<-|[<-|[<-|[<-|[<-|[]]]]]]] H; unfold space_char in H; simpl in H; lia. Qed.

Lemma op_not_digit : forall c, op_char c -> ~ digit_char c.
Proof. intros c [<-|[<-|[<-|[<-|[<-|[<-|[]]]]]]] H; unfold digit_char in H; lia. Qed.

Lemma is_space_dec : forall c, space_char c \/ ~ space_char c.
Proof. intros c. unfold space_char. simpl. lia. Qed.

Lemma digit_is_no_space : forall c, digit_char c -> ~ space_char c.
Proof. intros c D S. unfold digit_char in D. unfold space_char in S. simpl in S. lia. Qed.

Lemma lexes_space : forall c s ts, space_char c -> (lexes (c :: s) ts <-> lexes s ts).
Proof.
  intros c s ts C. split.
  - intros (w & t & E & W & N & T). destruct w as [|x w].
    + simpl in E. subst t. simpl in N. tauto.
    + simpl in E. injection E as <- ->. inversion W; subst. exists w, t. auto.
  - intros (w & t & -> & W & N & T). exists (c :: w), t. splits; auto.
Qed.

Lemma tokens_lexes : forall s ts, not_starting_with space_char s -> tokens s ts [] -> lexes s ts.
Proof. intros s ts N T. exists [], s. auto. Qed.

Lemma lexes_tokens : forall s ts, not_starting_with space_char s -> lexes s ts -> tokens s ts [].
Proof.
  intros s ts N (w & t & -> & W & N' & T). destruct w as [|x w]; auto.
  inversion W; subst. simpl in N. tauto.
Qed.

(** One token and the rest. *)
Lemma lexes_cons : forall k l s ts, clexeme k l -> (is_num k -> not_starting_with digit_char s) ->
  lexes s ts -> lexes (l ++ s) (k :: ts).
Proof.
  intros k l s ts L D (w & t & -> & W & N & T).
  apply tokens_lexes.
  - apply lexeme_text in L as [(ds & -> & -> & Hn & Fd)|(c & -> & -> & C)].
    + destruct ds; [congruence|]. inversion Fd; subst. simpl. apply digit_is_no_space; auto.
    + simpl. apply op_not_space; auto.
  - constructor; auto. intros K ->. apply D in K. auto.
Qed.

Lemma lexes_uncons : forall s k ts, not_starting_with space_char s -> lexes s (k :: ts) ->
  exists l t, s = l ++ t /\ clexeme k l /\ (is_num k -> not_starting_with digit_char t) /\ lexes t ts.
Proof.
  intros s k ts N H. apply lexes_tokens in H; auto.
  inversion H as [|k' l w t us rem L W N' D T E]; subst.
  exists l, (w ++ t). splits; auto.
  - intros K. destruct w as [|x w]; auto. inversion W; subst. simpl. intros Dx.
    eapply digit_is_no_space; eauto.
  - exists w, t. auto.
Qed.

(** The text before and after an operator. *)
Lemma lexes_split : forall u us c t, op_char c -> lexes (u ++ c :: t) us ->
  exists us1 us2, us = us1 ++ COp c :: us2 /\ lexes u us1 /\ lexes t us2.
Proof.
  intros u. remember (length u) as n eqn:En.
  assert (L : (length u <= n)%nat) by lia. clear En. revert u L.
  induction n as [|n IH]; intros u L us c t C H; destruct u as [|x u].
  1, 3: simpl in H;
    assert (N : not_starting_with space_char (c :: t)) by (simpl; apply op_not_space; auto);
    destruct us as [|k us];
    [ apply lexes_tokens in H; auto; apply tokens_nil_inv in H; discriminate
    | apply lexes_uncons in H as (l & t' & E & Lk & _ & H); auto;
      apply lexeme_text in Lk as [(ds & -> & -> & Hn & Fd)|(c' & -> & -> & C')];
      [ destruct ds as [|y ds]; [congruence|]; simpl in E; injection E as <- E; inversion Fd; subst;
        destruct (op_not_digit c); auto
      | simpl in E; injection E as <- ->; exists [], us; splits; auto; exists [], []; splits; auto; constructor ] ].
  - simpl in L. lia.
  - simpl in L. destruct (is_space_dec x) as [Sx|Sx].
    + simpl in H. apply lexes_space in H; auto.
      apply IH in H as (us1 & us2 & -> & H1 & H2); auto; [|lia].
      exists us1, us2. splits; auto. apply lexes_space; auto.
    + destruct us as [|k us].
      { apply lexes_tokens in H; auto. apply tokens_nil_inv in H. discriminate. }
      apply lexes_uncons in H as (l & t' & E & Lk & D & H); auto.
      assert (Q : exists u', x :: u = l ++ u' /\ t' = u' ++ c :: t /\ (length u' <= n)%nat).
      { apply lexeme_text in Lk as [(ds & -> & -> & Hn & Fd)|(c' & -> & -> & C')].
        - simpl in E. 
          destruct (app_eq_app (x :: u) (c :: t) ds t' E) as (z & [(E1 & E2)|(E1 & E2)]).
          + exists z. splits; auto. apply (f_equal (@length Z)) in E1. rewrite app_length in E1.
            simpl in E1. destruct ds; [congruence|]. simpl in E1. slia.
          + destruct z as [|y z].
            * rewrite app_nil_r in E1. simpl in E2. subst ds t'. exists []. splits; auto. rewrite app_nil_r. auto.
              simpl. lia.
            * simpl in E2. injection E2 as <- E2. exfalso. rewrite E1 in Fd.
              apply Forall_app in Fd as (_ & Fd). inversion Fd; subst. destruct (op_not_digit c); auto.
        - simpl in E. injection E as <- E. exists u. splits; auto. lia. }
      destruct Q as (u' & -> & -> & Lu).
      apply IH in H as (us1 & us2 & -> & H1 & H2); auto.
      exists (k :: us1), us2. splits; auto. apply lexes_cons; auto.
      intros K. apply D in K. destruct u'; simpl in *; auto.
Qed.

(** A token without the digits of a number. *)
Definition kind (k : ctok) : ctok := match k with CNum _ => CNum [] | _ => k end.

Lemma crun_kind : forall d ts st, crun d st (map kind ts) = crun d st ts.
Proof.
  intros d ts. induction ts as [|k ts IH]; intros st; auto. cbn [map crun].
  assert (E : cstep d st (kind k) = cstep d st k) by (destruct k; auto). rewrite E.
  destruct (cstep d st k); auto.
Qed.

(** The beginning of a text has the beginning of its tokens. *)
Lemma lexes_beginning : forall u t ts, lexes (u ++ t) ts ->
  exists us vs, lexes u us /\ map kind ts = map kind us ++ vs.
Proof.
  intros u. remember (length u) as n eqn:En.
  assert (L : (length u <= n)%nat) by lia. clear En. revert u L.
  assert (Z : forall ts, exists us vs, lexes [] us /\ map kind ts = map kind us ++ vs).
  { intros ts. exists [], (map kind ts). splits; auto. exists [], []. splits; auto; constructor. }
  induction n as [|n IH]; intros u L t ts H; destruct u as [|x u]; auto.
  - simpl in L. lia.
  - simpl in L. destruct (is_space_dec x) as [Sx|Sx].
    + simpl in H. apply lexes_space in H; auto. apply IH in H as (us & vs & H & E); [|lia].
      exists us, vs. split; auto. apply lexes_space; auto.
    + destruct ts as [|k ts].
      { apply lexes_tokens in H; auto. apply tokens_nil_inv in H. discriminate. }
      apply lexes_uncons in H as (l & t' & E & Lk & D & H); auto.
      destruct (app_eq_app (x :: u) t l t' E) as (z & [(E1 & ->)|(E1 & ->)]).
      * assert (Lz : (length z <= n)%nat).
        { apply (f_equal (@length _)) in E1. rewrite app_length in E1. simpl in E1.
          destruct l; [inversion Lk; congruence|]. simpl in E1. slia. }
        apply IH in H as (us & vs & H & Ek); auto.
        exists (k :: us), vs. split.
        -- rewrite E1. apply lexes_cons; auto. intros K. apply D in K. destruct z; simpl in *; auto.
        -- simpl. rewrite Ek. reflexivity.
      * (* the beginning ends within the first token *)
        apply lexeme_text in Lk as [(ds & -> & -> & Hn & Fd)|(c & -> & -> & C)].
        -- exists [CNum (x :: u)], (map kind ts). split; auto.
           rewrite E1 in Fd. apply Forall_app in Fd as (Fd & _).
           assert (Q := lexes_cons (CNum (x :: u)) (x :: u) [] [] ltac:(constructor; auto; discriminate)
             ltac:(simpl; auto)).
           rewrite app_nil_r in Q. apply Q. exists [], []. splits; auto; constructor.
        -- simpl in E1. injection E1 as <- E1. destruct u; [|discriminate].
           exists [COp c], (map kind ts). split; auto.
           apply (lexes_cons (COp c) [c] [] []); [constructor; auto | simpl; auto |].
           exists [], []. splits; auto; constructor.
Qed.

(** Some reading of a viable text. *)
Lemma prefix_run : forall d u, sign_chars d -> calc_prefix d u ->
  exists us k b, lexes u us /\ crun d (0%nat, false) us = Some (k, b).
Proof.
  intros d u Sg (t & e & H). apply calc_text_lexes in H as (ts & H & S).
  apply lexes_beginning in H as (us & vs & H & E). exists us.
  apply (sum_run d e ts 0%nat) in S; auto. rewrite <- crun_kind, E, crun_app, crun_kind in S.
  destruct (crun d (0%nat, false) us) as [(k & b)|]; [eauto|discriminate].
Qed.

(** ** The complaint is determined *)

Lemma lexes_spaces : forall w, Forall space_char w -> lexes w [].
Proof. intros w W. exists w, []. rewrite app_nil_r. splits; auto; constructor. Qed.

Lemma operator_op : forall c, operator_char c -> op_char c.
Proof. intros c [->|[->|[->| ->]]]; unfold op_char; simpl; auto 10. Qed.

Lemma cstep_due : forall d st c k b, operator_char c \/ c = 40 -> cstep d st (COp c) = Some (k, b) -> b = false.
Proof.
  intros d (n & [|]) c k b C E; cbn [cstep] in E.
  - destruct (existsb (Z.eqb c) [43; 45; 42; 47]) eqn:X; [congruence|].
    destruct C as [[->|[->|[->| ->]]]| ->]; simpl in X, E; discriminate.
  - destruct (existsb (Z.eqb c) (signs d)); [congruence|].
    destruct (brackets d && (c =? 40)); congruence.
Qed.

Lemma due_run : forall d u us k b, lexes u us -> crun d (0%nat, false) us = Some (k, b) ->
  operand_due u -> b = false.
Proof.
  intros d u us k b H R [W|(u1 & c & w & -> & C & W)].
  - assert (us = []) as -> by (eapply lexes_unique; eauto using lexes_spaces).
    simpl in R. congruence.
  - apply lexes_split in H as (us1 & us2 & -> & H1 & H2).
    2:{ destruct C as [C| ->]; [apply operator_op; auto | unfold op_char; simpl; auto 10]. }
    assert (us2 = []) as -> by (eapply lexes_unique; eauto using lexes_spaces).
    rewrite crun_app in R. destruct (crun d (0%nat, false) us1) as [st|]; [|discriminate].
    cbn [crun] in R. destruct (cstep d st (COp c)) as [(k' & b')|] eqn:E; [|discriminate].
    injection R as <- <-. eapply cstep_due; eauto.
Qed.

Lemma open_run : forall d u1 u2 us e k b, sign_chars d -> lexes (u1 ++ 40 :: u2) us ->
  calc_text d e u2 -> crun d (0%nat, false) us = Some (k, b) -> b = true /\ (0 < k)%nat.
Proof.
  intros d u1 u2 us e k b Sg H C R.
  apply lexes_split in H as (us1 & us2 & -> & H1 & H2); [|unfold op_char; simpl; auto 10].
  apply calc_text_lexes in C as (ts & T & S).
  assert (ts = us2) as -> by (eapply lexes_unique; eauto).
  rewrite crun_app in R. destruct (crun d (0%nat, false) us1) as [(j & b1)|]; [|discriminate].
  cbn [crun] in R. destruct b1; [simpl in R; discriminate|].
  cbn [cstep] in R. destruct (existsb (Z.eqb 40) (signs d)) eqn:X.
  { apply existsb_exists in X as (x & Ix & Ex). apply Z.eqb_eq in Ex. subst x.
    apply Sg in Ix. lia. }
  destruct (brackets d && (40 =? 40)); [|discriminate].
  rewrite (sum_run d e us2 (Datatypes.S j)) in R; auto. injection R as <- <-. split; auto. lia.
Qed.

Lemma complaint_state : forall d missing begin u us k b r m, sign_chars d -> lexes u us ->
  crun d (0%nat, false) us = Some (k, b) -> complaint d missing begin u r m ->
  (b = false /\ m = missing)
  \/ (b = true /\ k = 0%nat /\ m = end_of_input_expected /\ r <> [])
  \/ (b = true /\ (0 < k)%nat /\ exists e u1 u2 q, u = u1 ++ 40 :: u2 /\ calc_text d e u2 /\ walk begin u1 q
        /\ m = unpaired (line q) (col q) (literal_expected 41)).
Proof.
  intros d missing begin u us k b r m Sg H R C. destruct C as [D|e T Nr|e u1 u2 q E T W].
  - left. split; auto. eapply due_run; eauto.
  - right; left. apply calc_text_lexes in T as (ts & T & S).
    assert (ts = us) as -> by (eapply lexes_unique; eauto).
    rewrite (sum_run d e us 0%nat) in R; auto. injection R as <- <-. auto.
  - right; right. assert (E' := E). subst u. destruct (open_run d u1 u2 us e k b) as (Hb & Hk); auto.
    splits; auto. exists e, u1, u2, q. auto.
Qed.

Lemma open_unique : forall d e e' u1 u2 u1' u2', sign_chars d -> u1 ++ 40 :: u2 = u1' ++ 40 :: u2' ->
  calc_text d e u2 -> calc_text d e' u2' -> u1 = u1'.
Proof.
  assert (X : forall d e e' x u2 u2', sign_chars d -> u2 = x ++ 40 :: u2' -> calc_text d e u2 ->
    calc_text d e' u2' -> False).
  { intros d e e' x u2 u2' Sg -> C C'. apply calc_text_lexes in C as (ts & T & S).
    destruct (open_run d x u2' ts e' 0%nat true) as (_ & Hk); auto; [|lia].
    eapply sum_run; eauto. }
  intros d e e' u1 u2 u1' u2' Sg E C C'.
  destruct (app_eq_app u1 (40 :: u2) u1' (40 :: u2') E) as (z & [(E1 & E2)|(E1 & E2)]);
    destruct z as [|y z]; simpl in E2.
  - rewrite app_nil_r in E1. auto.
  - injection E2 as <- E2. destruct (X d e' e z u2' u2); auto.
  - rewrite app_nil_r in E1. auto.
  - injection E2 as <- E2. destruct (X d e e' z u2 u2'); auto.
Qed.

Lemma prefix_shorter : forall d u v, calc_prefix d (u ++ v) -> calc_prefix d u.
Proof. intros d u v (t & e & H). exists (v ++ t), e. rewrite app_assoc. exact H. Qed.

Lemma stuck_unique : forall d begin u r q u' r' q', u ++ r = u' ++ r' ->
  stuck (calc_prefix d) begin u r q -> stuck (calc_prefix d) begin u' r' q' -> u = u' /\ r = r' /\ q = q'.
Proof.
  assert (X : forall d begin u r q z r', r = z ++ r' -> stuck (calc_prefix d) begin u r q ->
    calc_prefix d (u ++ z) -> z = []).
  { intros d begin u r q [|a z] r' E (_ & _ & H) P; auto. exfalso. apply (H a (z ++ r')); auto.
    apply (prefix_shorter d _ z). rewrite <- app_assoc. exact P. }
  intros d begin u r q u' r' q' E S S'.
  assert (Q : u = u' /\ r = r').
  { destruct (app_eq_app u r u' r' E) as (z & [(E1 & E2)|(E1 & E2)]).
    - assert (z = []) as -> by (apply (X d begin u' r' q' z r); auto; rewrite <- E1; apply S).
      rewrite app_nil_r in E1. auto.
    - assert (z = []) as -> by (apply (X d begin u r q z r'); auto; rewrite <- E1; apply S').
      rewrite app_nil_r in E1. auto. }
  destruct Q as (-> & ->). splits; auto. eapply walk_functional; [apply S | apply S'].
Qed.

Lemma blames_unique : forall d missing begin s l c m l' c' m', sign_chars d ->
  blames d missing begin s l c m -> blames d missing begin s l' c' m' -> l = l' /\ c = c' /\ m = m'.
Proof.
  intros d missing begin s l c m l' c' m' Sg (u & r & q & -> & S & -> & -> & C)
    (u' & r' & q' & E & S' & -> & -> & C').
  destruct (stuck_unique d begin u r q u' r' q') as (<- & <- & <-); auto.
  splits; auto.
  destruct (prefix_run d u) as (us & k & b & H & R); [auto | apply S|].
  apply (complaint_state d missing begin u us k b r m) in C; auto.
  apply (complaint_state d missing begin u us k b r m') in C'; auto.
  destruct C as [(-> & ->)|[(-> & -> & -> & _)|(-> & Hk & e & u1 & u2 & p & E1 & T & W & ->)]];
  destruct C' as [(? & ->)|[(? & ? & -> & _)|(? & Hk' & e' & u1' & u2' & p' & E1' & T' & W' & ->)]];
    try discriminate; try lia; auto.
  subst u. destruct (open_unique d e e' u1 u2 u1' u2'); auto.
  rewrite (walk_functional _ _ _ W _ W'). reflexivity.
Qed.

Lemma blamed_is_no_text : forall d missing begin s l c m e, sign_chars d ->
  blames d missing begin s l c m -> ~ calc_text d e s.
Proof.
  intros d missing begin s l c m e Sg (u & r & q & -> & S & _ & _ & C) T.
  destruct r as [|a r].
  - rewrite app_nil_r in T. destruct (calc_text_lexes d e u) as (X & _). destruct (X T) as (us & H & Su).
    apply (complaint_state d missing begin u us 0%nat true) in C; auto.
    2: eapply sum_run; eauto.
    destruct C as [(? & _)|[(_ & _ & _ & Hr)|(_ & Hk & _)]]; [discriminate | congruence | lia].
  - destruct S as (_ & _ & S). apply (S a r eq_refl). exists r, e. rewrite <- app_assoc. exact T.
Qed.

(** ** Every reading can be continued to a text *)

Definition good_digits (ds : str) : bool :=
  match ds with [] => false | _ => forallb (fun c => (48 <=? c) && (c <=? 57)) ds end.

Definition mend_digits (ds : str) : str := if good_digits ds then ds else [49].

Fixpoint mend_exp (e : cexp) : cexp :=
  match e with
  | CLit ds => CLit (mend_digits ds)
  | CPos a => CPos (mend_exp a)
  | CNeg a => CNeg (mend_exp a)
  | CBin o a b => CBin o (mend_exp a) (mend_exp b)
  end.

Definition mend_tok (k : ctok) : ctok := match k with CNum ds => CNum (mend_digits ds) | _ => k end.

Lemma good_digits_iff : forall ds, good_digits ds = true <-> ds <> [] /\ Forall digit_char ds.
Proof.
  intros ds. destruct ds as [|c ds]; unfold good_digits; cbv iota.
  - split; [discriminate | intros (H & _); congruence].
  - rewrite forallb_forall, Forall_forall. unfold digit_char. split.
    + intros H. split; [discriminate|]. intros x Hx. apply H in Hx. apply andb_true_iff in Hx. lia.
    + intros (_ & H) x Hx. apply H in Hx. apply andb_true_iff. lia.
Qed.

Lemma mend_digits_good : forall ds, mend_digits ds <> [] /\ Forall digit_char (mend_digits ds).
Proof.
  intros ds. unfold mend_digits. destruct (good_digits ds) eqn:E.
  - apply good_digits_iff in E. auto.
  - split; [discriminate|]. constructor; auto. unfold digit_char. lia.
Qed.

Lemma op_good : forall c, op_char c -> good_tok (COp c).
Proof. intros c C. constructor. auto. Qed.

Lemma mend_levels : forall d, sign_chars d ->
  (forall e ts, primary d e ts -> primary d (mend_exp e) (map mend_tok ts) /\ Forall good_tok (map mend_tok ts))
  /\ (forall e ts, signed d e ts -> signed d (mend_exp e) (map mend_tok ts) /\ Forall good_tok (map mend_tok ts))
  /\ (forall e ts, product d e ts -> product d (mend_exp e) (map mend_tok ts) /\ Forall good_tok (map mend_tok ts))
  /\ (forall e ts, sum d e ts -> sum d (mend_exp e) (map mend_tok ts) /\ Forall good_tok (map mend_tok ts)).
Proof.
  intros d Sg.
  assert (G : forall c, In c [43; 45; 42; 47; 40; 41] -> good_tok (COp c)) by (intros; apply op_good; auto).
  assert (J : forall ts us c, In c [43; 45; 42; 47; 40; 41] -> Forall good_tok (map mend_tok ts) ->
    Forall good_tok (map mend_tok us) -> Forall good_tok (map mend_tok (ts ++ COp c :: us))).
  { intros ts us c C Ht Hu. rewrite map_app. apply Forall_app. split; auto.
    apply Forall_cons; [exact (G c C) | exact Hu]. }
  apply (exp_mutind d
    (fun e ts _ => primary d (mend_exp e) (map mend_tok ts) /\ Forall good_tok (map mend_tok ts))
    (fun e ts _ => signed d (mend_exp e) (map mend_tok ts) /\ Forall good_tok (map mend_tok ts))
    (fun e ts _ => product d (mend_exp e) (map mend_tok ts) /\ Forall good_tok (map mend_tok ts))
    (fun e ts _ => sum d (mend_exp e) (map mend_tok ts) /\ Forall good_tok (map mend_tok ts))).
  - intros ds. split; [apply pr_num|]. destruct (mend_digits_good ds). constructor; auto. constructor; auto.
  - intros e ts B _ (IH & F). simpl map. rewrite map_app. simpl map. split.
    + apply pr_brackets; auto.
    + constructor; [apply G; simpl; auto 10|]. apply Forall_app. split; auto. constructor; auto. apply G; simpl; auto 10.
  - intros e ts _ (IH & F). split; auto. apply sg_primary; auto.
  - intros e ts H _ (IH & F). split; [apply sg_plus; auto|]. constructor; auto. apply G; simpl; auto.
  - intros e ts H _ (IH & F). split; [apply sg_minus; auto|]. constructor; auto. apply G; simpl; auto.
  - intros e ts _ (IH & F). split; auto. apply pd_one; auto.
  - intros a b ts us _ (IH1 & F1) _ (IH2 & F2). split; [|apply J; simpl; auto]. rewrite map_app. apply pd_mul; auto.
  - intros a b ts us _ (IH1 & F1) _ (IH2 & F2). split; [|apply J; simpl; auto]. rewrite map_app. apply pd_div; auto.
  - intros e ts _ (IH & F). split; auto. apply su_one; auto.
  - intros a b ts us _ (IH1 & F1) _ (IH2 & F2). split; [|apply J; simpl; auto]. rewrite map_app. apply su_add; auto.
  - intros a b ts us _ (IH1 & F1) _ (IH2 & F2). split; [|apply J; simpl; auto]. rewrite map_app. apply su_sub; auto.
Qed.

Lemma tokens_good : forall s ts r, tokens s ts r -> map mend_tok ts = ts.
Proof.
  intros s ts r H. induction H as [s|k l w t ts rem L W N D T IH]; auto. simpl. rewrite IH. f_equal.
  apply lexeme_text in L as [(ds & -> & -> & Hn & Fd)|(c & -> & -> & C)]; auto.
  simpl. unfold mend_digits. destruct (good_digits_iff ds) as (_ & X). rewrite X; auto.
Qed.

Lemma tokens_join : forall u ts, tokens u ts [] -> ts <> [] -> forall v vs, not_starting_with space_char v ->
  tokens v vs [] -> tokens (u ++ 32 :: v) (ts ++ vs) [].
Proof.
  intros u ts. remember [] as r eqn:Er. intros T.
  induction T as [s|k l w t ts rem L W N D T IH]; intros Ht v vs Nv Tv; [congruence|]. subst rem.
  destruct ts as [|k' ts].
  - apply tokens_nil_inv in T. subst t.
    replace ((l ++ w ++ []) ++ 32 :: v) with (l ++ (w ++ [32]) ++ v) by (rewrite !app_nil_r, <- !app_assoc; auto).
    apply tk_cons; auto.
    + apply Forall_app. split; auto. constructor; auto. unfold space_char. simpl. lia.
    + intros _ H. destruct w; discriminate.
  - assert (X : forall P, not_starting_with P t -> not_starting_with P (t ++ 32 :: v)).
    { intros P HP. destruct t; auto. apply tokens_of_nil in T. discriminate. }
    rewrite <- !app_assoc. simpl app. apply tk_cons; auto. apply IH; auto. discriminate.
Qed.

Lemma viable : forall d u ts us e, sign_chars d -> tokens u ts [] -> sum d e (ts ++ us) -> exp_prefix d u.
Proof.
  intros d u ts us e Sg T S. apply (mend_levels d Sg) in S as (S & F).
  rewrite map_app, (tokens_good _ _ _ T) in S. rewrite map_app in F. apply Forall_app in F as (_ & F).
  assert (V := spaced_tokens _ F). set (v := flat_map _ _) in V.
  destruct ts as [|k ts].
  - apply tokens_nil_inv in T. subst u. exists v, (mend_exp e), (map mend_tok us). auto.
  - exists (32 :: v), (mend_exp e), ((k :: ts) ++ map mend_tok us). split; auto. apply tokens_join; auto.
    + discriminate.
    + destruct us as [|k1 us]; [exact Logic.I|]. eapply tokens_not_space; eauto. discriminate.
Qed.

Lemma exp_calc_prefix : forall d w u, Forall space_char w -> exp_prefix d u -> calc_prefix d (w ++ u).
Proof.
  intros d w u W (t & e & ts & T & S). exists t, e, w, (u ++ t), ts. rewrite app_assoc. auto.
Qed.

Lemma not_continued : forall d u r ts k b a r', sign_chars d -> tokens (u ++ r) ts r ->
  crun d (0%nat, false) ts = Some (k, b) -> not_starting_with (next_char d (k, b)) r -> r = a :: r' ->
  ~ exp_prefix d (u ++ [a]).
Proof.
  intros d u r ts k b a r' Sg T R N -> (t & e & ts' & T' & S).
  rewrite <- app_assoc in T'. simpl in T'.
  assert (T2 := tokens_swap _ _ _ T u (a :: t) eq_refl ltac:(right; eauto)).
  destruct (tokens_prefix _ _ _ T2 _ T') as (vs & -> & V).
  apply (sum_run d e _ 0%nat) in S; auto. rewrite crun_app, R in S.
  inversion V as [E1 E2|k1 l w t1 us rem L W N1 D T1 E1 E2]; subst.
  cbn [crun] in S. destruct (cstep d (k, b) k1) as [st|] eqn:C; [|discriminate].
  apply (cstep_char d (k, b) k1 st l (w ++ t1) a t) in C; auto.
Qed.

Lemma not_continued_calc : forall d w u r ts k b a r', sign_chars d -> Forall space_char w ->
  not_starting_with space_char (u ++ r) -> tokens (u ++ r) ts r ->
  crun d (0%nat, false) ts = Some (k, b) -> not_starting_with (next_char d (k, b)) r -> r = a :: r' ->
  ~ calc_prefix d ((w ++ u) ++ [a]).
Proof.
  intros d w u r ts k b a r' Sg W Ns T R N E (t & e & H).
  apply (not_continued d u r ts k b a r' Sg T R N E).
  apply calc_text_lexes in H as (ts' & (w' & t' & E' & W' & N' & T') & S).
  destruct (class_split space_char w (u ++ a :: t) w' t') as (-> & <-); auto.
  - subst r. destruct u; simpl in *; auto.
  - rewrite <- E', <- !app_assoc. reflexivity.
  - exists t, e, ts'. rewrite <- app_assoc. auto.
Qed.

Lemma tokens_last : forall c ts0 u, tokens u (ts0 ++ [COp c]) [] ->
  exists u1 w, u = u1 ++ c :: w /\ Forall space_char w.
Proof.
  intros c ts0. induction ts0 as [|k ts0 IH]; intros u T; inversion T as [|k' l w t us rem L W N D T1 E1 E2]; subst.
  - apply tokens_nil_inv in T1. subst t. inversion L; subst. exists [], w. rewrite app_nil_r. auto.
  - apply IH in T1 as (u1 & w1 & -> & W1). exists (l ++ w ++ u1), w1. rewrite <- !app_assoc. auto.
Qed.

Lemma last_due : forall d u ts k w, sign_chars d -> tokens u ts [] -> crun d (0%nat, false) ts = Some (k, false) ->
  Forall space_char w -> operand_due (w ++ u).
Proof.
  intros d u ts k w Sg T R W. destruct ts as [|k0 ts] using rev_ind.
  - apply tokens_nil_inv in T. subst u. left. rewrite app_nil_r. auto.
  - right. clear IHts. rewrite crun_app in R. destruct (crun d (0%nat, false) ts) as [(j & b)|]; [|discriminate].
    cbn [crun] in R. destruct (cstep d (j, b) k0) as [st|] eqn:E; [|discriminate].
    injection R as ->.
    assert (C : exists c, k0 = COp c /\ (operator_char c \/ c = 40)).
    { clear - E Sg. destruct k0 as [ds|c]; [destruct b; discriminate|]. exists c. split; auto.
      unfold operator_char. destruct b; cbn [cstep] in E.
      - destruct (existsb (Z.eqb c) [43; 45; 42; 47]) eqn:X.
        + simpl in X. rewrite !orb_true_iff, !Z.eqb_eq in X. tauto || (left; intuition discriminate).
        + destruct (c =? 41); [destruct j|]; discriminate.
      - destruct (existsb (Z.eqb c) (signs d)) eqn:X.
        + apply existsb_exists in X as (x & Ix & Ex). apply Z.eqb_eq in Ex. subst x. apply Sg in Ix. tauto.
        + destruct (brackets d && (c =? 40)) eqn:Y; [|discriminate].
          apply andb_true_iff in Y as (_ & Y). apply Z.eqb_eq in Y. auto. }
    destruct C as (c & -> & C). apply tokens_last in T as (u1 & w1 & -> & W1).
    exists (w ++ u1), c, w1. rewrite <- app_assoc. auto.
Qed.

(** ** The parsers *)

Lemma tokens_middle : forall ts1 s ts2 rem, tokens s (ts1 ++ ts2) rem ->
  exists mid, tokens s ts1 mid /\ tokens mid ts2 rem.
Proof.
  intros ts1. induction ts1 as [|k ts1 IH]; intros s ts2 rem T.
  - exists s. split; auto. constructor.
  - simpl in T. inversion T as [|k' l w t us rem' L W N D T1 E1 E2]; subst.
    apply IH in T1 as (mid & T1 & T2). exists mid. split; auto. constructor; auto.
Qed.

Lemma senseless_part : forall sst pst w s, senseless sst pst s ->
  has_senseless_part (style_dialect sst pst) (w ++ s).
Proof.
  intros sst pst w s (ts1 & ts2 & rem & e & T & S & M).
  apply tokens_middle in T as (mid & T1 & T2).
  destruct (tokens_split _ _ _ T1) as (a & ->). destruct (tokens_split _ _ _ T2) as (b & ->).
  apply tokens_cut in T2. exists (w ++ a), b, rem, e. splits; auto.
  - rewrite <- app_assoc. reflexivity.
  - exists [], b, ts2. auto.
Qed.

Lemma signs_ok : forall sst pst, sign_chars (style_dialect sst pst).
Proof. intros [] pst c H; simpl in H; intuition lia. Qed.

Lemma misfit_begin : forall cfg sst pst s ps m pe,
  misfit cfg sst pst (sum (style_dialect sst pst)) s ps m pe ->
  blames_begin (style_dialect sst pst) (missing_operand cfg pst) ps s m pe.
Proof.
  intros cfg sst pst s ps m pe (u & r & ts & k & b & us & e & -> & -> & T & S & R & N & C).
  assert (Sg := signs_ok sst pst). assert (Tu := tokens_cut _ _ _ T).
  assert (R0 := R 0%nat). rewrite Nat.add_0_r in R0.
  exists u, r. split; [auto|]. split.
  - split; [apply walk_adv|]. split; [eapply viable; eauto|].
    intros a r' E. eapply not_continued; eauto.
  - destruct C as [(-> & ->)|(-> & Hk & u1 & u2 & e' & -> & Te & ->)].
    + left. split; auto. apply (last_due (style_dialect sst pst) u ts k []); auto.
    + right. exists e', u1, u2, (adv ps u1). splits; auto. apply walk_adv.
Qed.

Lemma misfit_blames : forall cfg sst pst w s begin m pe, Forall space_char w ->
  not_starting_with space_char s ->
  misfit cfg sst pst (sum (style_dialect sst pst)) s (adv begin w) m pe ->
  blames (style_dialect sst pst) (missing_operand cfg pst) begin (w ++ s) (line pe) (col pe) m.
Proof.
  intros cfg sst pst w s begin m pe W Ns (u & r & ts & k & b & us & e & -> & -> & T & S & R & N & C).
  assert (Sg := signs_ok sst pst). assert (Tu := tokens_cut _ _ _ T).
  assert (R0 := R 0%nat). rewrite Nat.add_0_r in R0.
  exists (w ++ u), r, (adv begin (w ++ u)). rewrite adv_app. splits; auto.
  - apply app_assoc.
  - split; [rewrite <- adv_app; apply walk_adv|].
    split; [apply exp_calc_prefix; auto; eapply viable; eauto|].
    intros a r' E. eapply not_continued_calc; eauto.
  - destruct C as [(-> & ->)|(-> & Hk & u1 & u2 & e' & -> & Te & ->)].
    + apply cp_operand. eapply last_due; eauto.
    + rewrite <- adv_app. apply (cp_bracket _ _ _ _ _ e' (w ++ u1) u2); auto; [|apply walk_adv].
      rewrite <- app_assoc. reflexivity.
Qed.

Lemma rest_blames : forall d missing w u rem begin e ts, sign_chars d -> Forall space_char w ->
  not_starting_with space_char (u ++ rem) -> tokens (u ++ rem) ts rem -> sum d e ts ->
  not_starting_with operator_char rem -> rem <> [] ->
  blames d missing begin (w ++ u ++ rem) (line (adv begin (w ++ u))) (col (adv begin (w ++ u)))
    end_of_input_expected.
Proof.
  intros d missing w u rem begin e ts Sg W Ns T S N Hr. assert (Tu := tokens_cut _ _ _ T).
  exists (w ++ u), rem, (adv begin (w ++ u)). splits; auto.
  - apply app_assoc.
  - split; [apply walk_adv|]. split.
    + apply exp_calc_prefix; auto. apply (viable d u ts [] e); auto. rewrite app_nil_r. auto.
    + intros a r' E. apply (not_continued_calc d w u rem ts 0%nat true a r'); auto.
      * eapply sum_run; eauto.
      * destruct rem; simpl in *; auto. intros [H|(H & _)]; [auto|lia].
  - apply (cp_end _ _ _ _ _ e); auto. exists w, u, ts. auto.
Qed.

Definition reports (d : dialect) (missing : msg) (s : str) (o : build_result) : Prop :=
  match o with
  | ParsingFailed l c m => blames d missing start s l c m
  | BuildIllformed => has_senseless_part d s
  | _ => True
  end.

Lemma calc_fails : forall cfg env sst pst top n s, calc_fits cfg -> program_every no_natives env ->
  every no_natives top -> sound_exp (sum (style_dialect sst pst)) (eval cfg env n top) ->
  (forall s ps, (length s + 1 < n)%nat ->
     fails_well cfg sst pst (sum (style_dialect sst pst)) s ps (eval cfg env n top s ps)) ->
  (forall s ps v rem ps', eval cfg env n top s ps = Accept v rem ps' -> not_starting_with operator_char rem) ->
  (length s + 1 < n)%nat ->
  reports (style_dialect sst pst) (missing_operand cfg pst) s (build_parser (eval cfg env n (calc top)) s).
Proof.
  intros cfg env sst pst top n s F Ce Ct So Fa Fo L. unfold build_parser.
  rewrite ev_calc, entire_input_spec by (apply (cfs cfg F); lia).
  rewrite last_of_2 by (apply (cfs cfg F); lia).
  destruct (repeated_space_finishes n s start ltac:(lia)) as (v1 & s1 & ps1 & E1). rewrite E1.
  apply repeated_space_accept in E1 as (w & -> & W & Ns & _ & Wk & _).
  apply walk_iff in Wk. subst ps1. rewrite app_length in L.
  assert (H := Fa s1 (adv start w) ltac:(slia)).
  destruct (eval cfg env n top s1 (adv start w)) as [v rem ps' | m pe | | ] eqn:E; cbn [fails_well] in H.
  - destruct rem as [|a rem]; [exact Logic.I|]. cbn [reports].
    destruct (accept_pos cfg env Ce _ _ _ _ _ _ _ Ct E) as (u & -> & ->).
    assert (N := Fo _ _ _ _ _ E). apply So in E as (e & ts & z & _ & _ & S & T).
    rewrite <- adv_app. eapply rest_blames; eauto; [apply signs_ok | discriminate].
  - cbn [reports]. apply misfit_blames; auto.
  - cbn [reports]. apply senseless_part; auto.
  - exact Logic.I.
Qed.

Lemma blame_complete : forall d missing s o l c m, sign_chars d -> reports d missing s o ->
  (forall v, o = Built v -> exists e, calc_text d e s) -> o <> BuildOutOfFuel ->
  blames d missing start s l c m ->
  o = ParsingFailed l c m \/ (o = BuildIllformed /\ has_senseless_part d s).
Proof.
  intros d missing s o l c m Sg R Bu Fu B. destruct o as [v|l' c' m'| |]; cbn [reports] in R.
  - destruct (Bu v eq_refl) as (e & T). destruct (blamed_is_no_text d missing start s l c m e); auto.
  - left. destruct (blames_unique d missing start s l c m l' c' m') as (-> & -> & ->); auto.
  - auto.
  - congruence.
Qed.

Lemma calculator_fails : forall cfg n s, calc_fits cfg -> (length s + 1 < n)%nat ->
  reports plain_dialect digit_expected s (build_parser (eval cfg no_program n calculator) s).
Proof.
  intros cfg n s F L. rewrite calculator_is.
  assert (Ce : program_every no_natives no_program) by (apply programs_clean; simpl; auto).
  assert (Hu : sign_op NoSigns negate_first) by exact Logic.I.
  assert (Hm := eval_mult_ok). assert (Hp := eval_plus_ok).
  assert (He : brackets (style_dialect NoSigns IntOnly) = true ->
    no_program 0%nat = gsum NoSigns IntOnly true true negate_first eval_mult eval_plus) by discriminate.
  apply (calc_fails cfg no_program NoSigns IntOnly); auto.
  - apply chain_clean. apply (gproduct_clean no_program NoSigns IntOnly true true negate_first eval_mult eval_plus); auto.
  - apply (gsum_sound cfg F no_program NoSigns IntOnly true true); auto.
  - intros t ps Lt. apply sum_fails_top; auto. lia.
  - intros t ps v rem ps' E.
    apply (strict_sum_follow cfg F no_program Ce NoSigns IntOnly true true negate_first eval_mult eval_plus
             Hu Hm Hp He n t ps v rem ps' eq_refl E).
Qed.

(** The parsers that start with the reference. *)
Lemma ref_calc_fails : forall cfg env sst pst fu fm fp n s, calc_fits cfg -> program_every no_natives env ->
  sign_op sst fu -> level_op Mul Div fm -> level_op Add Sub fp -> brackets (style_dialect sst pst) = true ->
  env 0%nat = gsum sst pst true true fu fm fp -> (length s + 1 < n)%nat ->
  reports (style_dialect sst pst) (missing_operand cfg pst) s (build_parser (eval cfg env n (calc (PRef 0))) s).
Proof.
  intros cfg env sst pst fu fm fp n s F Ce Hu Hm Hp B He L.
  apply calc_fails; auto.
  - exact ref_clean.
  - eapply ref_sound; eauto.
  - intros t ps Lt. apply (ref_fails cfg F env Ce sst pst fu fm fp Hu Hm Hp (fun _ => He) n B t ps Lt).
  - intros t ps v rem ps' E. destruct n as [|n]; [lia|].
    apply (strict_sum_follow cfg F env Ce sst pst true true fu fm fp Hu Hm Hp (fun _ => He) n t ps v rem ps' eq_refl).
    rewrite <- He. exact E.
Qed.

Lemma calc2_fails : forall cfg n s, calc_fits cfg -> (length s + 1 < n)%nat ->
  reports parens_dialect (match cfg_std cfg with Std98 => literal_expected 40 | _ => none_of_the_expected_cases_found end)
    s (build_parser (eval cfg calc2_program n calculator_with_parens) s).
Proof.
  intros cfg n s F L. destruct calc2_is as (E1 & E2). rewrite E1.
  apply (ref_calc_fails cfg calc2_program NoSigns IntParen negate_first eval_mult eval_plus); auto.
  - apply programs_clean. simpl. auto.
  - exact Logic.I.
  - apply eval_mult_ok.
  - apply eval_plus_ok.
Qed.

Lemma calc3_fails : forall cfg n s, calc_fits cfg -> (length s + 1 < n)%nat ->
  reports unary_dialect (match cfg_std cfg with Std98 => literal_expected 40 | _ => none_of_the_expected_cases_found end)
    s (build_parser (eval cfg calc3_program n calculator_with_unary_ops) s).
Proof.
  intros cfg n s F L. destruct calc3_is as (E1 & E2). rewrite E1.
  apply (ref_calc_fails cfg calc3_program BothSigns IntParen eval_unary_plus eval_mult eval_plus); auto.
  - apply programs_clean. simpl. auto.
  - apply eval_unary_plus_ok.
  - apply eval_mult_ok.
  - apply eval_plus_ok.
Qed.

Lemma tut23_fails : forall cfg n s ps, calc_fits cfg -> (length s + 1 < n)%nat ->
  match eval cfg tut23_program n exp_parser23 s ps with
  | Reject m pe => blames_begin tutorial_dialect
      (match cfg_std cfg with Std98 => missing_primary_expression | _ => none_of_the_expected_cases_found end)
      ps s m pe
  | Illformed => has_senseless_part tutorial_dialect s
  | _ => True
  end.
Proof.
  intros cfg n s ps F L.
  assert (H := ref_fails cfg F tut23_program (programs_clean tut23_program ltac:(simpl; auto 10))
    MinusSign (IntParenFail missing_primary_expression) negate_first binary_op binary_op
    negate_first_ok (binary_op_ok Mul Div) (binary_op_ok Add Sub) (fun _ => eq_refl) n eq_refl s ps L).
  destruct H as (H & _). unfold exp_parser23.
  destruct (eval cfg tut23_program n (PRef 0) s ps) as [v rem ps' | m pe | | ]; auto; cbn [fails_well] in H.
  - apply (misfit_begin cfg MinusSign (IntParenFail missing_primary_expression)). exact H.
  - apply (senseless_part MinusSign (IntParenFail missing_primary_expression) [] s). exact H.
Qed.
