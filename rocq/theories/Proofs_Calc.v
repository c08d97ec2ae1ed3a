(** Proofs about the calculators (C48, C49). *)

From Coq Require Import ZArith Zquot List Bool Lia.
From Verif Require Import Base Util Combinators Variadic Parsers Deep Calculator Spec SpecDeep SpecTerm
  SpecType SpecCalc Proofs_Pos Proofs_Fold Proofs_Variadic Proofs_Parsers Proofs_Parsers2
  Proofs_Deep Proofs_Final1 Proofs_Final2 Proofs_Final3 Proofs_Final5 Proofs_Term Proofs_Grammar
  Proofs_Peg Properties_Deep Properties_Term.
Import ListNotations.
Open Scope Z_scope.

Ltac slia := unfold str, char in *; lia.

(** ** Values *)

Lemma int_ok_iff : forall z, int_ok z = true <-> is_int z.
Proof.
  intros z. unfold int_ok, is_int, int_min, int_max. change (2 ^ 31) with 2147483648.
  rewrite andb_true_iff, !Z.leb_le. lia.
Qed.

Lemma int_constant_some : forall z, is_int z -> int_constant z = Some (VInt z).
Proof. intros z H. unfold int_constant. apply int_ok_iff in H. rewrite H. reflexivity. Qed.
Lemma int_constant_none : forall z, ~ is_int z -> int_constant z = None.
Proof.
  intros z H. unfold int_constant. destruct (int_ok z) eqn:E; auto.
  apply int_ok_iff in E. contradiction.
Qed.
Lemma int_constant_inv : forall z v, int_constant z = Some v -> is_int z /\ v = VInt z.
Proof.
  intros z v H. unfold int_constant in H. destruct (int_ok z) eqn:E; [|discriminate].
  apply int_ok_iff in E. inversion H; auto.
Qed.

Lemma is_int_dec : forall z, is_int z \/ ~ is_int z.
Proof.
  intros z. destruct (int_ok z) eqn:E; [left | right].
  - apply int_ok_iff; auto.
  - intros H. apply int_ok_iff in H. congruence.
Qed.

Lemma quotient_iff : forall a b q, quotient a b q <-> b <> 0 /\ q = Z.quot a b.
Proof.
  intros a b q. split.
  - intros (r & E & L & S). assert (b <> 0) by lia. split; auto.
    apply (Zquot_unique_full a b q r); auto.
    unfold Remainder. lia.
  - intros (N & ->). exists (Z.rem a b). split; [apply Z.quot_rem; auto|].
    split; [apply Z.rem_bound_abs; auto|].
    destruct (Z.eq_dec (Z.rem a b) 0) as [E|E]; auto. right.
    pose proof (Z.rem_sign_nz a b N E) as S. lia.
Qed.

Lemma means_unique : forall e x, means e x -> forall y, means e y -> x = y.
Proof.
  intros e x H. induction H; intros z' H'; inversion H'; subst; auto;
    repeat match goal with
    | IH : forall y, means ?e y -> ?x = y, M : means ?e ?z |- _ =>
        assert_fails (constr_eq x z); apply IH in M
    end; subst; auto.
  repeat match goal with Q : quotient _ _ _ |- _ => apply quotient_iff in Q as (_ & ->) end.
  congruence.
Qed.

Ltac same_means :=
  repeat match goal with
  | A : means ?e ?x, B : means ?e ?y |- _ =>
      assert_fails (constr_eq x y); pose proof (means_unique _ _ A _ B); subst
  end.

Lemma means_int : forall e z, means e z -> is_int z.
Proof. intros e z H. destruct H; auto. induction H; auto. Qed.

Lemma means_dec : forall e, (exists z, means e z) \/ meaningless e.
Proof.
  unfold meaningless. induction e as [ds | e [(z & IH)|IH] | e [(z & IH)|IH] | o a [(x & Ia)|Ia] b [(y & Ib)|Ib]];
    try (right; intros z' H; inversion H; subst;
         match goal with N : forall z, ~ means ?e z, M : means ?e _ |- _ => exact (N _ M) end).
  - destruct (is_int_dec (decimal ds)); [left; eexists; constructor; auto | right].
    intros z H'. inversion H'; subst; auto.
  - left. exists z. constructor; auto.
  - destruct (is_int_dec (- z)); [left; eexists; econstructor; eauto | right].
    intros z' H'. inversion H'; subst. pose proof (means_unique _ _ IH _ H1). subst. auto.
  - destruct o.
    + destruct (is_int_dec (x + y)); [left; eexists; econstructor; eauto | right].
      intros z H'. inversion H'; subst. same_means. auto.
    + destruct (is_int_dec (x - y)); [left; eexists; econstructor; eauto | right].
      intros z H'. inversion H'; subst. same_means. auto.
    + destruct (is_int_dec (x * y)); [left; eexists; econstructor; eauto | right].
      intros z H'. inversion H'; subst. same_means. auto.
    + destruct (Z.eq_dec y 0) as [->|N].
      { right. intros z H'. inversion H'; subst. same_means.
        match goal with Q : quotient _ _ _ |- _ => apply quotient_iff in Q as (N & _) end. auto. }
      destruct (is_int_dec (Z.quot x y)).
      { left. exists (Z.quot x y). econstructor; eauto. apply quotient_iff; auto. }
      right. intros z H'. inversion H'; subst. same_means.
      match goal with Q : quotient _ _ _ |- _ => apply quotient_iff in Q as (_ & ->) end. auto.
Qed.

Definition arith (o : cop) (x y : Z) : option value :=
  match o with
  | Add => int_constant (x + y)
  | Sub => int_constant (x - y)
  | Mul => int_constant (x * y)
  | Div => if y =? 0 then None else int_constant (Z.quot x y)
  end.

Lemma arith_some : forall o a b x y z, means a x -> means b y -> means (CBin o a b) z ->
  arith o x y = Some (VInt z).
Proof.
  intros o a b x y z A B C. inversion C; subst; same_means; simpl;
    try (apply int_constant_some; auto; fail).
  match goal with Q : quotient _ _ _ |- _ => apply quotient_iff in Q as (N & ->) end.
  apply Z.eqb_neq in N. rewrite N. apply int_constant_some; auto.
Qed.

Lemma arith_none : forall o a b x y, means a x -> means b y -> meaningless (CBin o a b) ->
  arith o x y = None.
Proof.
  intros o a b x y A B C. destruct o; simpl.
  - apply int_constant_none. intros H. apply (C (x + y)). constructor; auto.
  - apply int_constant_none. intros H. apply (C (x - y)). constructor; auto.
  - apply int_constant_none. intros H. apply (C (x * y)). constructor; auto.
  - destruct (y =? 0) eqn:E; auto. apply Z.eqb_neq in E.
    apply int_constant_none. intros H. apply (C (Z.quot x y)). econstructor; eauto.
    apply quotient_iff; auto.
Qed.

Lemma arith_inv : forall o a b x y v, means a x -> means b y -> arith o x y = Some v ->
  exists z, v = VInt z /\ means (CBin o a b) z.
Proof.
  intros o a b x y v A B H. destruct (means_dec (CBin o a b)) as [(z & M)|M].
  - rewrite (arith_some _ _ _ _ _ _ A B M) in H. inversion H; subst. eauto.
  - rewrite (arith_none _ _ _ _ _ A B M) in H. discriminate.
Qed.

(** The two operations of a level. *)
Definition level_op (o1 o2 : cop) (f : mf2) : Prop :=
  forall o x y, o = o1 \/ o = o2 -> f (VInt x) (VSeq [VChar (op_of o); VInt y]) = arith o x y.

Lemma eval_plus_ok : level_op Add Sub eval_plus.
Proof. intros o x y [->| ->]; reflexivity. Qed.
Lemma eval_mult_ok : level_op Mul Div eval_mult.
Proof. intros o x y [->| ->]; reflexivity. Qed.
Lemma binary_op_ok : forall o1 o2, level_op o1 o2 binary_op.
Proof. intros o1 o2 o x y _. destruct o; reflexivity. Qed.

(** ** Tokens *)

Lemma tokens_cons_inv : forall s k ts rem, tokens s (k :: ts) rem -> exists l w t, s = l ++ w ++ t /\
  clexeme k l /\ Forall space_char w /\ not_starting_with space_char t /\
  (is_num k -> w = [] -> not_starting_with digit_char t) /\ tokens t ts rem.
Proof. intros s k ts rem H. inversion H; subst. exists l, w, t. repeat split; auto. Qed.

Lemma tokens_app : forall s ts m us rem, tokens s ts m -> tokens m us rem -> tokens s (ts ++ us) rem.
Proof. intros s ts m us rem H. induction H; simpl; auto. intros. constructor; auto. Qed.

Lemma tokens_app_inv : forall ts s us rem, tokens s (ts ++ us) rem ->
  exists m, tokens s ts m /\ tokens m us rem.
Proof.
  induction ts as [|k ts IH]; simpl; intros s us rem H.
  - exists s. split; auto. constructor.
  - apply tokens_cons_inv in H as (l & w & t & -> & ? & ? & ? & ? & H).
    destruct (IH _ _ _ H) as (m & A & B). exists m. split; auto. constructor; auto.
Qed.

Lemma tokens_cons_app : forall s k us rem, tokens s (k :: us) rem ->
  exists m, tokens s [k] m /\ tokens m us rem.
Proof. intros s k us rem H. apply (tokens_app_inv [k]) in H. exact H. Qed.

Lemma tokens_one : forall k l w t, clexeme k l -> Forall space_char w ->
  not_starting_with space_char t -> (is_num k -> w = [] -> not_starting_with digit_char t) ->
  tokens (l ++ w ++ t) [k] t.
Proof. intros. constructor; auto. constructor. Qed.

Lemma tokens_one_inv : forall s k rem, tokens s [k] rem -> exists l w, s = l ++ w ++ rem /\
  clexeme k l /\ Forall space_char w /\ not_starting_with space_char rem /\
  (is_num k -> w = [] -> not_starting_with digit_char rem).
Proof.
  intros s k rem H. apply tokens_cons_inv in H as (l & w & t & -> & ? & ? & ? & ? & H).
  inversion H; subst. exists l, w. auto.
Qed.

Lemma clexeme_nonempty : forall k l, clexeme k l -> l <> [].
Proof. intros k l H. destruct H; auto; discriminate. Qed.

Lemma tokens_length : forall s ts rem, tokens s ts rem -> (length rem + length ts <= length s)%nat.
Proof.
  intros s ts rem H. induction H; simpl; try lia.
  rewrite !app_length. apply clexeme_nonempty in H. destruct l; [congruence|]. simpl. lia.
Qed.

Lemma op_head : forall s c ts rem, tokens s (COp c :: ts) rem -> exists t, s = c :: t.
Proof.
  intros s c ts rem H. apply tokens_cons_inv in H as (l & w & t & -> & L & _).
  inversion L; subst. exists (w ++ t). reflexivity.
Qed.

Lemma num_head : forall s ds ts rem, tokens s (CNum ds :: ts) rem ->
  exists c t, s = c :: t /\ digit_char c.
Proof.
  intros s ds ts rem H. apply tokens_cons_inv in H as (l & w & t & -> & L & _).
  inversion L; subst. destruct l as [|c l]; [congruence|]. inversion H1; subst.
  exists c, (l ++ w ++ t). auto.
Qed.

Section Calc.

Variable cfg : config.
Hypothesis fits_c : calc_fits cfg.

Lemma cfo : forall k, (k <= 3)%nat -> fits_one_of cfg k.
Proof. intros k L E. destruct fits_c as (H & _). specialize (H E). lia. Qed.
Lemma cfs : forall k, (k <= 3)%nat -> fits_sequence cfg k.
Proof. intros k L E. destruct fits_c as (_ & H). specialize (H E). lia. Qed.

Variable env : program.
Notation ev := (eval cfg env).

(** ** The token parsers *)

Definition lit_token (c : char) : pexpr := PToken (PLitC c).

Lemma ev_lit_token : forall n c, ev n (lit_token c) = token cfg n (lit_c c).
Proof. destruct n; reflexivity. Qed.
Lemma ev_int_token : forall n, ev n int_token = token cfg n (int_ n).
Proof. destruct n; reflexivity. Qed.

Lemma lit_token_sound : forall n c s ps v rem ps', op_char c ->
  ev n (lit_token c) s ps = Accept v rem ps' -> v = VChar c /\ tokens s [COp c] rem.
Proof.
  intros n c s ps v rem ps' O E. rewrite ev_lit_token in E.
  apply token_accept in E; [|apply cfs; lia].
  destruct E as (s1 & ps1 & w & E & -> & Fw & Ns & _ & _).
  apply lit_accept in E as (-> & -> & _). split; auto.
  apply (tokens_one (COp c) [c] w rem); auto; [constructor; auto|]. intros (x & X); discriminate.
Qed.

Lemma lit_token_complete : forall n c s ps rem, tokens s [COp c] rem -> (length s <= n)%nat ->
  exists ps', ev n (lit_token c) s ps = Accept (VChar c) rem ps'.
Proof.
  intros n c s ps rem T L. apply tokens_one_inv in T as (l & w & -> & Lx & Fw & Ns & _).
  inversion Lx; subst. rewrite !app_length in L. simpl in L.
  exists (adv (adv ps [c]) w). rewrite ev_lit_token. apply token_accept; [apply cfs; lia|].
  exists (w ++ rem), (adv ps [c]), w. repeat split; auto.
  - apply lit_accept. repeat split; auto. apply walk_adv.
  - slia.
  - apply walk_adv.
Qed.

Lemma lit_token_rejects : forall n c s ps, not_starting_with (fun d => d = c) s ->
  ev n (lit_token c) s ps = Reject (literal_expected c) ps.
Proof.
  intros n c s ps N. rewrite ev_lit_token. apply token_reject; [apply cfs; lia|].
  destruct (proj2 (lit_chars c) s ps) as [(v & s' & ps' & E)|(m & pe & E)].
  - apply lit_accept in E as (-> & _). simpl in N. congruence.
  - rewrite E. destruct (lit_c_class c) as (_ & B & C). destruct s as [|d s].
    + rewrite C in E. congruence.
    + simpl in N. rewrite B in E by auto. congruence.
Qed.

Lemma num_token_sound : forall n s ps v rem ps', ev n int_token s ps = Accept v rem ps' ->
  exists ds z, v = VInt z /\ means (CLit ds) z /\ tokens s [CNum ds] rem.
Proof.
  intros n s ps v rem ps' E. rewrite ev_int_token in E.
  apply token_accept in E; [|apply cfs; lia].
  destruct E as (s1 & ps1 & w & E & -> & Fw & Ns & _ & _).
  apply int_accept in E as (ds & Ne & D & -> & Nd & _ & _ & M & ->).
  exists ds, (decimal ds). splits; auto.
  - constructor. unfold is_int. change (2 ^ 31) with 2147483648.
    pose proof (decimal_acc_ge ds 0 ltac:(lia) D). unfold decimal, int_max in *. lia.
  - apply (tokens_one (CNum ds) ds w rem); auto; [constructor; auto|].
    intros _ ->. exact Nd.
Qed.

(** The outcome agrees with the value of [e]. *)
Definition says (e : cexp) (rem : str) (o : outcome) : Prop :=
  (exists z ps', means e z /\ o = Accept (VInt z) rem ps') \/ (meaningless e /\ o = Illformed).

Lemma num_token_complete : forall n ds s ps rem, tokens s [CNum ds] rem -> (length s < n)%nat ->
  says (CLit ds) rem (ev n int_token s ps).
Proof.
  intros n ds s ps rem T L. apply tokens_one_inv in T as (l & w & -> & Lx & Fw & Ns & Nd).
  inversion Lx; subst. rewrite !app_length in L. rewrite ev_int_token.
  assert (Nw : not_starting_with digit_char (w ++ rem)).
  { destruct w as [|c w]; simpl; [apply Nd; auto; eexists; eauto|].
    inversion Fw; subst. unfold space_char, digit_char in *. lia. }
  destruct (Z_le_gt_dec (decimal l) int_max) as [M|M].
  - left. exists (decimal l), (adv (adv ps l) w). split.
    + constructor. unfold is_int. change (2 ^ 31) with 2147483648.
      pose proof (decimal_acc_ge l 0 ltac:(lia) H1). unfold decimal, int_max in *. lia.
    + apply token_accept; [apply cfs; lia|]. exists (w ++ rem), (adv ps l), w.
      splits; auto; try slia; try apply walk_adv.
      apply int_accept. exists l. splits; auto; try slia. apply walk_adv.
  - right. split.
    + intros z Hz. inversion Hz; subst. unfold is_int, int_max in *.
      change (2 ^ 31) with 2147483648 in *. lia.
    + unfold token. rewrite first_of_2 by (apply cfs; lia).
      rewrite int_overflow; auto; slia.
Qed.

Lemma num_token_rejects : forall n s ps, not_starting_with digit_char s ->
  ev n int_token s ps = Reject digit_expected ps.
Proof.
  intros n s ps N. rewrite ev_int_token. apply token_reject; [apply cfs; lia|].
  apply int_reject. auto.
Qed.

(** Two tokens to choose from. *)
Lemma ev_two : forall n c d, ev n (POneOf [lit_token c; lit_token d])
  = one_of cfg [ev n (lit_token c); ev n (lit_token d)].
Proof. destruct n; reflexivity. Qed.

Lemma two_sound : forall n c d s ps v rem ps', op_char c -> op_char d ->
  ev n (POneOf [lit_token c; lit_token d]) s ps = Accept v rem ps' ->
  exists k, (k = c \/ k = d) /\ v = VChar k /\ tokens s [COp k] rem.
Proof.
  intros n c d s ps v rem ps' Oc Od E. rewrite ev_two in E.
  apply one_of_cfg_accept in E; [|apply cfo; simpl; lia].
  rewrite !first_accepting_cons in E. destruct E as [(E & _)|(_ & [(E & _)|(_ & E)])].
  - apply lit_token_sound in E as (-> & T); auto. exists c. auto.
  - apply lit_token_sound in E as (-> & T); auto. exists d. auto.
  - destruct (first_accepting_nil _ _ _ E).
Qed.

Lemma two_complete : forall n c d k s ps rem, k = c \/ k = d -> c <> d ->
  tokens s [COp k] rem -> (length s <= n)%nat ->
  exists ps', ev n (POneOf [lit_token c; lit_token d]) s ps = Accept (VChar k) rem ps'.
Proof.
  intros n c d k s ps rem K N T L. rewrite ev_two.
  destruct (lit_token_complete n k s ps rem T L) as (ps' & E).
  destruct (op_head _ _ _ _ T) as (t & ->). exists ps'.
  apply one_of_cfg_accept; [apply cfo; simpl; lia|]. rewrite !first_accepting_cons.
  destruct K as [->| ->].
  - left. splits; auto; [do 3 eexists; eauto|]. intros q [<-|[]].
    right. do 2 eexists. apply lit_token_rejects. simpl. auto.
  - right. split; [do 2 eexists; apply lit_token_rejects; simpl; auto|].
    left. splits; auto; [do 3 eexists; eauto | intros ? []].
Qed.

Lemma reject_at_start : forall l s ps, l <> [] -> (length l <= 3)%nat ->
  (forall p, In p l -> exists m, p s ps = Reject m ps) -> exists m, one_of cfg l s ps = Reject m ps.
Proof.
  intros l s ps Ne Le H. destruct (one_of_cases cfg l (cfo _ Le) s ps) as [[-> _] | [-> _]].
  - clear Le. induction l as [|p l IH]; [congruence|].
    destruct (H p) as (m1 & E); [simpl; auto|]. simpl. rewrite E.
    destruct l as [|q l].
    + simpl. unfold fail, later_result. destruct (pos_less ps ps); eauto.
    + destruct IH as (m2 & E2); [discriminate | intros; apply H; simpl in *; tauto|].
      rewrite E2. unfold later_result. destruct (pos_less ps ps); eauto.
  - unfold one_of_98_impl. unfold fail at 1.
    assert (G : forall l m, (forall p, In p l -> exists m, p s ps = Reject m ps) ->
              exists m', fold_left (one_of_fwd_op s ps) l (Reject m ps) = Reject m' ps).
    { clear. induction l as [|p l IH]; intros m H; simpl; eauto.
      destruct (H p) as (m1 & E); [simpl; auto|]. rewrite E. unfold later_result.
      destruct (pos_less ps ps); apply IH; intros; apply H; simpl; auto. }
    apply G; auto.
Qed.

Lemma two_rejects : forall n c d s ps, not_starting_with (fun k => k = c \/ k = d) s ->
  exists m, ev n (POneOf [lit_token c; lit_token d]) s ps = Reject m ps.
Proof.
  intros n c d s ps N. rewrite ev_two. apply reject_at_start; [discriminate | simpl; lia|].
  intros p [<-|[<-|[]]]; eexists; apply lit_token_rejects; destruct s; simpl in *; auto.
Qed.

(** ** Chains of operations *)

(** The folds of the chains: [strict] for foldl_reject_incomplete. *)
Definition chain (strict : bool) (ops operand : pexpr) (f : mf2) : pexpr :=
  if strict then PFoldlRejectIncompleteStartWithParser (PSequence [ops; operand]) operand f
  else PFoldlStartWithParser (PSequence [ops; operand]) operand f.

Definition gfold (strict : bool) : nat -> pfun -> option value -> mf2 -> str -> pos -> outcome :=
  if strict then foldl_reject_incomplete else foldl.

Definition item (n : nat) (ops operand : pexpr) : pfun := sequence cfg [ev n ops; ev n operand].

Lemma ev_chain : forall strict n ops operand f s ps,
  ev n (chain strict ops operand f) s ps =
  match ev n operand s ps with
  | Accept r s' ps' => gfold strict n (item n ops operand) (type_of r) f s' ps'
  | o => o
  end.
Proof. intros [|] [|n]; reflexivity. Qed.

Lemma item_eq : forall n ops operand s ps,
  item n ops operand s ps =
  match ev n ops s ps with
  | Accept v1 s1 ps1 =>
      match ev n operand s1 ps1 with Accept v2 s2 ps2 => Accept (VSeq [v1; v2]) s2 ps2 | o => o end
  | o => o
  end.
Proof.
  intros. unfold item. rewrite sequence_cfg; [| apply cfs; simpl; lia | discriminate].
  cbn [sequence_11]. unfold transform, return_.
  destruct (ev n ops s ps) as [v1 s1 ps1 | | | ]; auto.
  destruct (ev n operand s1 ps1) as [v2 s2 ps2 | | | ]; auto.
Qed.

Lemma gfold_step : forall strict n p st f s ps r s' ps', p s ps = Accept r s' ps' ->
  gfold strict (S n) p (Some st) f s ps = gfold strict n p (f st r) f s' ps'.
Proof. intros [|] n p st f s ps r s' ps' E; simpl; rewrite E; reflexivity. Qed.
Lemma gfold_none : forall strict n p f s ps, accepts p s ps \/ p s ps = Illformed \/ (exists m, p s ps = Reject m ps) ->
  gfold strict (S n) p None f s ps = Illformed.
Proof.
  intros strict n p f s ps [(r & s' & ps' & E)|[E|(m & E)]]; destruct strict; simpl; rewrite E; auto.
  rewrite pos_equal_to_refl. reflexivity.
Qed.
Lemma gfold_ill : forall strict n p st f s ps, p s ps = Illformed ->
  gfold strict (S n) p st f s ps = Illformed.
Proof. intros [|] n p st f s ps E; simpl; rewrite E; reflexivity. Qed.
Lemma gfold_stop : forall strict n p v f s ps m, p s ps = Reject m ps ->
  gfold strict (S n) p (Some v) f s ps = Accept v s ps.
Proof.
  intros [|] n p v f s ps m E; simpl; rewrite E; auto. rewrite pos_equal_to_refl. reflexivity.
Qed.


Definition sound_exp (X : cexp -> list ctok -> Prop) (p : pfun) : Prop :=
  forall s ps v rem ps', p s ps = Accept v rem ps' ->
  exists e ts z, v = VInt z /\ means e z /\ X e ts /\ tokens s ts rem.

(** A level of the grammar: operands of [X], the operations [o1] and [o2]. *)
Definition level (X Y : cexp -> list ctok -> Prop) (o1 o2 : cop) : Prop :=
  (forall e ts, X e ts -> Y e ts) /\
  (forall o a b ts us, o = o1 \/ o = o2 -> Y a ts -> X b us ->
     Y (CBin o a b) (ts ++ COp (op_of o) :: us)).

Lemma product_level : forall d, level (signed d) (product d) Mul Div.
Proof.
  intros d. split; [apply pd_one|]. intros o a b ts us [->| ->] A B; [apply pd_mul | apply pd_div]; auto.
Qed.
Lemma sum_level : forall d, level (product d) (sum d) Add Sub.
Proof.
  intros d. split; [apply su_one|]. intros o a b ts us [->| ->] A B; [apply su_add | apply su_sub]; auto.
Qed.

Definition level_ops (o1 o2 : cop) : pexpr := POneOf [lit_token (op_of o1); lit_token (op_of o2)].

Lemma op_of_op_char : forall o, op_char (op_of o).
Proof. intros o. unfold op_char. destruct o; simpl; auto 10. Qed.

Lemma item_sound : forall n X o1 o2 operand s ps r rem ps', sound_exp X (ev n operand) ->
  item n (level_ops o1 o2) operand s ps = Accept r rem ps' ->
  exists o b us y, (o = o1 \/ o = o2) /\ r = VSeq [VChar (op_of o); VInt y] /\ means b y /\ X b us
    /\ tokens s (COp (op_of o) :: us) rem /\ exists s0 ps0, ev n operand s0 ps0 = Accept (VInt y) rem ps'.
Proof.
  intros n X o1 o2 operand s ps r rem ps' SX E. rewrite item_eq in E.
  destruct (ev n (level_ops o1 o2) s ps) as [v1 s1 ps1 | | | ] eqn:E1; try discriminate.
  destruct (ev n operand s1 ps1) as [v2 s2 ps2 | | | ] eqn:E2; try discriminate.
  inversion E; subst. apply two_sound in E1 as (k & K & -> & T); try apply op_of_op_char.
  assert (E2' := E2).
  apply SX in E2 as (b & us & y & -> & M & Xb & T2).
  assert (O : exists o, (o = o1 \/ o = o2) /\ k = op_of o) by (destruct K; eauto).
  destruct O as (o & O & ->). exists o, b, us, y. splits; auto.
  - apply (tokens_app _ [COp (op_of o)] s1); auto.
  - eauto.
Qed.

Lemma gfold_accept_step : forall strict n p st f s ps v rem ps',
  gfold strict n p st f s ps = Accept v rem ps' -> exists n' v0, n = S n' /\ st = Some v0 /\
  ((exists r s1 ps1, p s ps = Accept r s1 ps1 /\ gfold strict n' p (f v0 r) f s1 ps1 = Accept v rem ps')
   \/ (exists m pe, p s ps = Reject m pe /\ (strict = true -> pe = ps) /\ v = v0 /\ rem = s /\ ps' = ps)).
Proof.
  intros strict n p st f s ps v rem ps' H. destruct n as [|n]; [destruct strict; discriminate|].
  destruct strict; simpl in H; destruct (p s ps) as [r s1 ps1 | m pe | | ] eqn:E; try discriminate.
  - destruct st as [v0|]; [|discriminate]. exists n, v0. splits; auto. left. eauto.
  - destruct (pos_equal_to ps pe) eqn:Q; [|discriminate]. apply pos_equal_to_iff in Q as ->.
    destruct st as [v0|]; [|discriminate]. inversion H; subst. exists n, v. splits; auto. right. eauto 10.
  - destruct st as [v0|]; [|discriminate]. exists n, v0. splits; auto. left. eauto.
  - destruct st as [v0|]; [|discriminate]. inversion H; subst. exists n, v. splits; auto. right.
    exists m, pe. splits; auto. discriminate.
Qed.

Lemma gfold_sound : forall X Y o1 o2 f strict n operand, level X Y o1 o2 -> level_op o1 o2 f ->
  sound_exp X (ev n operand) ->
  forall j s e ts z m ps v rem ps', Y e ts -> tokens s ts m -> means e z ->
    gfold strict j (item n (level_ops o1 o2) operand) (Some (VInt z)) f m ps = Accept v rem ps' ->
    exists e' ts' z', v = VInt z' /\ means e' z' /\ Y e' ts' /\ tokens s ts' rem.
Proof.
  intros X Y o1 o2 f strict n operand (_ & LY) Lf SX j.
  induction j as [|j IH]; intros s e ts z m ps v rem ps' Ye T M H.
  - destruct strict; discriminate.
  - apply gfold_accept_step in H as (j' & v0 & Ej & Ev & H). injection Ej as <-. injection Ev as <-.
    destruct H as [(r & s1 & ps1 & E & H)|(m' & pe & E & _ & -> & -> & ->)]; [|eauto 10].
    apply (item_sound n X) in E as (o & b & us & y & O & -> & Mb & Xb & T2 & _); auto.
    rewrite (Lf o z y O) in H.
    destruct (arith o z y) as [v1|] eqn:A; [|destruct j, strict; simpl in H; destruct (item n (level_ops o1 o2) operand s1 ps1); try discriminate; destruct (pos_equal_to ps1 p); discriminate].
    destruct (arith_inv _ _ _ _ _ _ M Mb A) as (z' & -> & M').
    eapply (IH s (CBin o e b) (ts ++ COp (op_of o) :: us)); [| |exact M'|exact H].
    + apply LY; auto.
    + eapply tokens_app; eauto.
Qed.

Lemma chain_sound : forall X Y o1 o2 f strict n operand, level X Y o1 o2 -> level_op o1 o2 f ->
  sound_exp X (ev n operand) -> sound_exp Y (ev n (chain strict (level_ops o1 o2) operand f)).
Proof.
  intros X Y o1 o2 f strict n operand L Lf SX s ps v rem ps' E. rewrite ev_chain in E.
  destruct (ev n operand s ps) as [r s1 ps1 | | | ] eqn:E1; try discriminate.
  apply SX in E1 as (e & ts & z & -> & M & Xe & T).
  eapply (gfold_sound X Y); eauto. apply L. auto.
Qed.

(** The text after a strict chain. *)
Lemma chain_last : forall o1 o2 f strict n operand X s ps v rem ps', sound_exp X (ev n operand) ->
  ev n (chain strict (level_ops o1 o2) operand f) s ps = Accept v rem ps' ->
  (exists s0 ps0 v0, ev n operand s0 ps0 = Accept v0 rem ps') /\
  (exists m pe, item n (level_ops o1 o2) operand rem ps' = Reject m pe /\ (strict = true -> pe = ps')).
Proof.
  intros o1 o2 f strict n operand X s ps v rem ps' SX E. rewrite ev_chain in E.
  destruct (ev n operand s ps) as [r s1 ps1 | | | ] eqn:E1; try discriminate.
  assert (H1 : exists s0 ps0 v0, ev n operand s0 ps0 = Accept v0 s1 ps1) by eauto.
  clear E1. revert E H1. generalize (type_of r). generalize n at 1. clear r. intros j.
  revert s1 ps1. induction j as [|j IH]; intros s1 ps1 st E H1.
  - destruct strict; discriminate.
  - apply gfold_accept_step in E as (j' & v0 & Ej & -> & [(r & s2 & ps2 & E & H)|(m' & pe & E & P & -> & -> & ->)]).
    + injection Ej as <-. eapply IH; [exact H|].
      apply (item_sound n X) in E as (o & b & us & y & _ & _ & _ & _ & _ & s0 & ps0 & E0); eauto.
    + split; auto. eauto.
Qed.

(** *** Completeness *)

Definition starts_op (o1 o2 : cop) (c : char) : Prop := c = op_of o1 \/ c = op_of o2.

Definition chain_continues (strict : bool) (o1 o2 : cop) (operand : pexpr) (f : mf2)
  (follow : str -> Prop) (e : cexp) (ts : list ctok) : Prop :=
  forall n s ps m, tokens s ts m -> follow m -> (length s < n)%nat ->
  (exists z j ps', means e z /\ (length m < j)%nat /\
     ev n (chain strict (level_ops o1 o2) operand f) s ps
     = gfold strict j (item n (level_ops o1 o2) operand) (Some (VInt z)) f m ps')
  \/ (meaningless e /\
      (ev n (chain strict (level_ops o1 o2) operand f) s ps = Illformed
       \/ exists j ps', (length m < j)%nat /\
          ev n (chain strict (level_ops o1 o2) operand f) s ps
          = gfold strict j (item n (level_ops o1 o2) operand) None f m ps')).

Definition complete_for (follow : str -> Prop) (p : nat -> pfun) (e : cexp) (ts : list ctok) : Prop :=
  forall n s ps rem, tokens s ts rem -> follow rem -> (length s < n)%nat -> says e rem (p n s ps).

Lemma continues_one : forall strict o1 o2 operand f follow e ts,
  complete_for follow (fun n => ev n operand) e ts ->
  chain_continues strict o1 o2 operand f follow e ts.
Proof.
  intros strict o1 o2 operand f follow e ts C n s ps m T F L.
  pose proof (tokens_length _ _ _ T) as Lm.
  rewrite ev_chain. destruct (C n s ps m T F L) as [(z & ps' & M & ->)|(M & ->)].
  - left. exists z, n, ps'. splits; auto. lia.
  - right. auto.
Qed.

Lemma meaningless_left : forall o a b, meaningless a -> meaningless (CBin o a b).
Proof. intros o a b H z M. inversion M; subst; eapply H; eauto. Qed.
Lemma meaningless_right : forall o a b, meaningless b -> meaningless (CBin o a b).
Proof. intros o a b H z M. inversion M; subst; eapply H; eauto. Qed.

Lemma continues_more : forall strict o1 o2 operand f (follow : str -> Prop) o a b ts us,
  o = o1 \/ o = o2 -> op_of o1 <> op_of o2 -> level_op o1 o2 f ->
  (forall t, follow (op_of o :: t)) ->
  chain_continues strict o1 o2 operand f follow a ts ->
  complete_for follow (fun n => ev n operand) b us ->
  chain_continues strict o1 o2 operand f follow (CBin o a b) (ts ++ COp (op_of o) :: us).
Proof.
  intros strict o1 o2 operand f follow o a b ts us O N Lf Fo Ca Cb n s ps m T F L.
  apply tokens_app_inv in T as (m1 & T1 & T2).
  assert (L1 := tokens_length _ _ _ T1). assert (L2 := tokens_length _ _ _ T2). simpl in L2.
  assert (F1 : follow m1) by (destruct (op_head _ _ _ _ T2) as (t & ->); apply Fo).
  destruct (tokens_cons_app _ _ _ _ T2) as (m2 & T3 & T4).
  assert (L3 := tokens_length _ _ _ T3). simpl in L3.
  assert (Ei : forall ps1, (exists y ps2, means b y /\
      item n (level_ops o1 o2) operand m1 ps1 = Accept (VSeq [VChar (op_of o); VInt y]) m ps2)
    \/ (meaningless b /\ item n (level_ops o1 o2) operand m1 ps1 = Illformed)).
  { intros ps1. destruct (two_complete n (op_of o1) (op_of o2) (op_of o) m1 ps1 m2) as (ps2 & E2);
      auto; [destruct O; subst; auto | lia|].
    rewrite item_eq. unfold level_ops. rewrite E2.
    destruct (Cb n m2 ps2 m T4 F ltac:(lia)) as [(y & ps3 & Mb & ->)|(Mb & ->)]; [left | right]; eauto. }
  destruct (Ca n s ps m1 T1 F1 L) as [(z & j & ps1 & Ma & Lj & E)|(Ma & H)].
  - destruct j as [|j]; [lia|]. rewrite E.
    destruct (Ei ps1) as [(y & ps2 & Mb & Ei1)|(Mb & Ei1)].
    + rewrite (gfold_step _ _ _ _ _ _ _ _ _ _ Ei1), (Lf o z y O).
      destruct (means_dec (CBin o a b)) as [(x & M)|M].
      * left. exists x, j, ps2. rewrite (arith_some _ _ _ _ _ _ Ma Mb M). splits; auto. lia.
      * right. split; auto. right. exists j, ps2. rewrite (arith_none _ _ _ _ _ Ma Mb M).
        split; auto. lia.
    + right. split; [apply meaningless_right; auto|]. left. apply gfold_ill. exact Ei1.
  - right. split; [apply meaningless_left; auto|]. left.
    destruct H as [H|(j & ps1 & Lj & E)]; auto. destruct j as [|j]; [lia|]. rewrite E.
    apply gfold_none. destruct (Ei ps1) as [(y & ps2 & Mb & Ei1)|(Mb & Ei1)]; auto.
    left. do 3 eexists; eauto.
Qed.

Lemma item_stops : forall n o1 o2 operand s ps, not_starting_with (starts_op o1 o2) s ->
  exists m, item n (level_ops o1 o2) operand s ps = Reject m ps.
Proof.
  intros n o1 o2 operand s ps N. destruct (two_rejects n (op_of o1) (op_of o2) s ps N) as (m & E).
  exists m. rewrite item_eq. unfold level_ops. rewrite E. reflexivity.
Qed.

Lemma continues_complete : forall strict o1 o2 operand f (follow follow' : str -> Prop) e ts,
  (forall s, follow' s -> follow s /\ not_starting_with (starts_op o1 o2) s) ->
  chain_continues strict o1 o2 operand f follow e ts ->
  complete_for follow' (fun n => ev n (chain strict (level_ops o1 o2) operand f)) e ts.
Proof.
  intros strict o1 o2 operand f follow follow' e ts H C n s ps rem T F L.
  destruct (H _ F) as (F1 & N).
  destruct (C n s ps rem T F1 L) as [(z & j & ps1 & M & Lj & E)|(M & [E|(j & ps1 & Lj & E)])].
  - destruct j as [|j]; [lia|]. destruct (item_stops n o1 o2 operand rem ps1 N) as (m & Em).
    left. exists z, ps1. split; auto. etransitivity; [exact E|]. eapply gfold_stop; eauto.
  - right. auto.
  - destruct j as [|j]; [lia|]. destruct (item_stops n o1 o2 operand rem ps1 N) as (m & Em).
    right. split; auto. etransitivity; [exact E|]. apply gfold_none. eauto.
Qed.

(** ** Operands *)

Inductive prim_style : Type := IntOnly | IntParen | IntParenFail (m : msg).
Inductive sign_style : Type := NoSigns | MinusSign | BothSigns.

Definition gprim (st : prim_style) : pexpr :=
  match st with
  | IntOnly => int_token
  | IntParen => POneOf [int_token; paren_exp]
  | IntParenFail m => POneOf [int_token; paren_exp; PFail m]
  end.

Definition gsign (st : sign_style) : pexpr :=
  match st with
  | NoSigns => PFail none_of_the_expected_cases_found
  | MinusSign => minus_token
  | BothSigns => POneOf [plus_token; minus_token]
  end.

Definition gsigned (st : sign_style) (prim : pexpr) (fu : mf2) : pexpr :=
  match st with
  | NoSigns => prim
  | _ => PFoldrStartWithParser (gsign st) prim fu
  end.

Definition style_dialect (sst : sign_style) (pst : prim_style) : dialect :=
  mkdialect
    (match sst with NoSigns => [] | MinusSign => [45] | BothSigns => [43; 45] end)
    (match pst with IntOnly => false | _ => true end).

(** What the sign operations do. *)
Definition sign_op (sst : sign_style) (fu : mf2) : Prop :=
  match sst with
  | NoSigns => True
  | MinusSign => forall x, fu (VInt x) (VChar 45) = int_constant (- x)
  | BothSigns => forall x, fu (VInt x) (VChar 45) = int_constant (- x) /\
                           fu (VInt x) (VChar 43) = Some (VInt x)
  end.

Lemma eval_unary_plus_ok : sign_op BothSigns eval_unary_plus.
Proof. intros x. split; reflexivity. Qed.
Lemma negate_first_ok : sign_op MinusSign negate_first.
Proof. intros x. reflexivity. Qed.

Lemma ev_paren : forall n, ev n paren_exp
  = middle_of cfg (ev n (lit_token 40)) (ev n (PRef 0)) (ev n (lit_token 41)).
Proof. destruct n; reflexivity. Qed.
Lemma ev_int_paren : forall n, ev n (gprim IntParen) = one_of cfg [ev n int_token; ev n paren_exp].
Proof. destruct n; reflexivity. Qed.
Lemma ev_int_paren_fail : forall n m, ev n (gprim (IntParenFail m))
  = one_of cfg [ev n int_token; ev n paren_exp; fail m].
Proof. destruct n; reflexivity. Qed.

Lemma op40 : op_char 40. Proof. unfold op_char; simpl; auto 10. Qed.
Lemma op41 : op_char 41. Proof. unfold op_char; simpl; auto 10. Qed.
Lemma op43 : op_char 43. Proof. unfold op_char; simpl; auto 10. Qed.
Lemma op45 : op_char 45. Proof. unfold op_char; simpl; auto 10. Qed.

Lemma paren_sound : forall n X s ps v rem ps', sound_exp X (ev n (PRef 0)) ->
  ev n paren_exp s ps = Accept v rem ps' ->
  exists e ts z, v = VInt z /\ means e z /\ X e ts /\ tokens s (COp 40 :: ts ++ [COp 41]) rem.
Proof.
  intros n X s ps v rem ps' SX E. rewrite ev_paren, middle_of_spec in E by (apply cfs; lia).
  destruct (ev n (lit_token 40) s ps) as [x1 s1 ps1 | | | ] eqn:E1; try discriminate.
  destruct (ev n (PRef 0) s1 ps1) as [x2 s2 ps2 | | | ] eqn:E2; try discriminate.
  destruct (ev n (lit_token 41) s2 ps2) as [x3 s3 ps3 | | | ] eqn:E3; try discriminate.
  inversion E; subst.
  apply lit_token_sound in E1 as (_ & T1); [|apply op40].
  apply lit_token_sound in E3 as (_ & T3); [|apply op41].
  apply SX in E2 as (e & ts & z & -> & M & Xe & T2). exists e, ts, z. splits; auto.
  apply (tokens_app _ [COp 40] s1); auto. eapply tokens_app; eauto.
Qed.

Lemma prim_sound : forall n sst pst,
  (brackets (style_dialect sst pst) = true -> sound_exp (sum (style_dialect sst pst)) (ev n (PRef 0))) ->
  sound_exp (primary (style_dialect sst pst)) (ev n (gprim pst)).
Proof.
  intros n sst pst SR s ps v rem ps' E.
  assert (Num : forall v', ev n int_token s ps = Accept v' rem ps' ->
    exists e ts z, v' = VInt z /\ means e z /\ primary (style_dialect sst pst) e ts /\ tokens s ts rem).
  { intros v' E'. apply num_token_sound in E' as (ds & z & -> & M & T).
    exists (CLit ds), [CNum ds], z. splits; auto. constructor. }
  assert (Par : forall v', brackets (style_dialect sst pst) = true -> ev n paren_exp s ps = Accept v' rem ps' ->
    exists e ts z, v' = VInt z /\ means e z /\ primary (style_dialect sst pst) e ts /\ tokens s ts rem).
  { intros v' B E'. apply (paren_sound n _ _ _ _ _ _ (SR B)) in E' as (e & ts & z & -> & M & Xe & T).
    exists e, (COp 40 :: ts ++ [COp 41]), z. splits; auto. constructor; auto. }
  destruct pst.
  - apply Num. exact E.
  - rewrite ev_int_paren in E. apply one_of_cfg_accept in E; [|apply cfo; simpl; lia].
    rewrite !first_accepting_cons in E. destruct E as [(E & _)|(_ & [(E & _)|(_ & E)])]; auto.
    destruct (first_accepting_nil _ _ _ E).
  - rewrite ev_int_paren_fail in E. apply one_of_cfg_accept in E; [|apply cfo; simpl; lia].
    rewrite !first_accepting_cons in E.
    destruct E as [(E & _)|(_ & [(E & _)|(_ & [(E & _)|(_ & E)])])]; auto; [discriminate|].
    destruct (first_accepting_nil _ _ _ E).
Qed.

Lemma sign_sound : forall n sst s ps v rem ps', ev n (gsign sst) s ps = Accept v rem ps' ->
  exists c, In c (signs (style_dialect sst IntOnly)) /\ (c = 43 \/ c = 45) /\ v = VChar c /\ tokens s [COp c] rem.
Proof.
  intros n sst s ps v rem ps' E. destruct sst; simpl gsign in E.
  - destruct n; discriminate.
  - apply (lit_token_sound n 45) in E as (-> & T); [|apply op45]. exists 45. simpl. auto.
  - apply (two_sound n 43 45) in E as (k & K & -> & T); [|apply op43 | apply op45].
    exists k. simpl. destruct K as [->| ->]; auto 6.
Qed.

Lemma ev_gsigned : forall n sst prim fu, sst <> NoSigns ->
  ev n (gsigned sst prim fu) = foldr_start_with_parser n (ev n (gsign sst)) (ev n prim) fu.
Proof. intros n sst prim fu H. destruct sst; [congruence| |]; destruct n; reflexivity. Qed.

Lemma signed_sound : forall n sst pst fu, sign_op sst fu ->
  sound_exp (primary (style_dialect sst pst)) (ev n (gprim pst)) ->
  sound_exp (signed (style_dialect sst pst)) (ev n (gsigned sst (gprim pst) fu)).
Proof.
  intros n sst pst fu Fu SP.
  assert (D : sst = NoSigns \/ sst <> NoSigns) by (destruct sst; auto; right; discriminate).
  destruct D as [->|D].
  { intros s ps v rem ps' E. apply SP in E as (e & ts & z & -> & M & P & T).
    exists e, ts, z. splits; auto. apply sg_primary; auto. }
  rewrite ev_gsigned by auto. generalize n at 1. intros j. induction j as [|j IH]; intros s ps v rem ps' E.
  { discriminate. }
  simpl in E. destruct (ev n (gsign sst) s ps) as [r s1 ps1 | m pe | | ] eqn:E1; try discriminate.
  - destruct (foldr_start_with_parser j (ev n (gsign sst)) (ev n (gprim pst)) fu s1 ps1)
      as [v1 s2 ps2 | | | ] eqn:E2; try discriminate.
    destruct (fu v1 r) as [w|] eqn:F; inversion E; subst w s2 ps2. clear E.
    apply sign_sound in E1 as (c & I & C & -> & T1). apply IH in E2 as (e & ts & z & -> & M & S & T2).
    assert (T : tokens s (COp c :: ts) rem) by (apply (tokens_app _ [COp c] s1); auto).
    destruct C as [->| ->].
    + destruct sst; simpl in I; try lia. destruct (Fu z) as (_ & F2). rewrite F2 in F. inversion F; subst.
      exists (CPos e), (COp 43 :: ts), z. splits; auto; [constructor; auto|]. apply sg_plus; simpl; auto.
    + assert (F2 : fu (VInt z) (VChar 45) = int_constant (- z)) by (destruct sst; [congruence | apply Fu | apply Fu]).
      rewrite F2 in F. apply int_constant_inv in F as (Iz & ->).
      exists (CNeg e), (COp 45 :: ts), (- z). splits; auto; [constructor; auto|]. apply sg_minus; auto.
  - apply SP in E as (e & ts & z & -> & M & P & T). exists e, ts, z. splits; auto. apply sg_primary; auto.
Qed.

(** *** The parsers *)

Definition gproduct (sst : sign_style) (pst : prim_style) (strict : bool) (fu fm : mf2) : pexpr :=
  chain strict (level_ops Mul Div) (gsigned sst (gprim pst) fu) fm.
Definition gsum (sst : sign_style) (pst : prim_style) (strict1 strict2 : bool) (fu fm fp : mf2) : pexpr :=
  chain strict2 (level_ops Add Sub) (gproduct sst pst strict1 fu fm) fp.

Section Style.

Variables (sst : sign_style) (pst : prim_style) (strict1 strict0 : bool) (fu fm fp : mf2).
Hypothesis Hu : sign_op sst fu.
Hypothesis Hm : level_op Mul Div fm.
Hypothesis Hp : level_op Add Sub fp.
Notation d := (style_dialect sst pst).
(** brackets are around the parser 0 of the program *)
Hypothesis Henv : brackets d = true -> env 0%nat = gsum sst pst strict1 strict0 fu fm fp.

Lemma gproduct_sound : forall n, (brackets d = true -> sound_exp (sum d) (ev n (PRef 0))) ->
  sound_exp (product d) (ev n (gproduct sst pst strict1 fu fm)).
Proof.
  intros n SR. eapply chain_sound; [apply product_level | exact Hm|].
  apply signed_sound; auto. apply prim_sound; auto.
Qed.

Lemma gsum_sound_at : forall n strict2, (brackets d = true -> sound_exp (sum d) (ev n (PRef 0))) ->
  sound_exp (sum d) (ev n (gsum sst pst strict1 strict2 fu fm fp)).
Proof.
  intros n strict2 SR. eapply chain_sound; [apply sum_level | exact Hp|].
  apply gproduct_sound; auto.
Qed.

Lemma ref_sum_sound : forall n, brackets d = true -> sound_exp (sum d) (ev n (PRef 0)).
Proof.
  intros n B. induction n as [|n IH]; intros s ps v rem ps' E; [discriminate|].
  change (ev n (env 0%nat) s ps = Accept v rem ps') in E. rewrite (Henv B) in E.
  eapply gsum_sound_at; eauto.
Qed.

Lemma gsum_sound : forall n strict2, sound_exp (sum d) (ev n (gsum sst pst strict1 strict2 fu fm fp)).
Proof. intros n strict2. apply gsum_sound_at. apply ref_sum_sound. Qed.

(** *** Completeness *)

Definition any_follow (s : str) : Prop := True.
Definition product_follow (s : str) : Prop := not_starting_with (starts_op Mul Div) s.
Definition sum_follow (s : str) : Prop := not_starting_with operator_char s.

Lemma product_follow_of : forall s, product_follow s ->
  any_follow s /\ not_starting_with (starts_op Mul Div) s.
Proof. intros s H. split; [exact I | exact H]. Qed.
Lemma sum_follow_of : forall s, sum_follow s ->
  product_follow s /\ not_starting_with (starts_op Add Sub) s.
Proof.
  intros [|c s]; unfold sum_follow, product_follow, operator_char, starts_op; simpl; auto.
  intros H. split; intros K; apply H; lia.
Qed.

(** The first character of an operand. *)
Lemma primary_head : forall e ts s rem, primary d e ts -> tokens s ts rem ->
  exists c t, s = c :: t /\ (digit_char c \/ c = 40).
Proof.
  intros e ts s rem P T. destruct P.
  - apply num_head in T as (c & t & -> & D). eauto.
  - apply op_head in T as (t & ->). eauto.
Qed.

Lemma paren_rejects : forall n s ps, not_starting_with (fun c => c = 40) s ->
  ev n paren_exp s ps = Reject (literal_expected 40) ps.
Proof.
  intros n s ps N. rewrite ev_paren, middle_of_spec by (apply cfs; lia).
  rewrite lit_token_rejects by auto. reflexivity.
Qed.

Lemma one_of_says : forall l1 p l2 s ps e rem, (length (l1 ++ p :: l2) <= 3)%nat ->
  (forall q, In q (l1 ++ l2) -> rejects q s ps) -> says e rem (p s ps) ->
  says e rem (one_of cfg (l1 ++ p :: l2) s ps).
Proof.
  intros l1 p l2 s ps e rem L R [(z & ps' & M & E)|(M & E)].
  - left. exists z, ps'. split; auto. apply one_of_cfg_accept; [apply cfo; auto|].
    split.
    + intros q I. apply in_app_or in I as [I|[<-|I]].
      * right. apply R. apply in_or_app; auto.
      * left. do 3 eexists; eauto.
      * right. apply R. apply in_or_app; auto.
    + exists l1, p, l2. splits; auto; [intros; apply R; apply in_or_app; auto|]. do 3 eexists; eauto.
  - right. split; auto. apply one_of_cfg_unfinished; [apply cfo; auto|].
    exists l1, p, l2. splits; auto. intros q I. right. apply R; apply in_or_app; auto.
Qed.

Lemma num_complete : forall ds,
  complete_for any_follow (fun n => ev n (gprim pst)) (CLit ds) [CNum ds].
Proof.
  intros ds n s ps rem T _ L. assert (H := num_token_complete n ds s ps rem T L).
  assert (R : rejects (ev n paren_exp) s ps).
  { do 2 eexists. apply paren_rejects. apply num_head in T as (c & t & -> & D). simpl.
    unfold digit_char in D. lia. }
  destruct pst.
  - exact H.
  - rewrite ev_int_paren. apply (one_of_says [] _ [_]); [simpl; lia | | exact H].
    intros q [<-|[]]. auto.
  - rewrite ev_int_paren_fail. apply (one_of_says [] _ [_; _]); [simpl; lia | | exact H].
    intros q [<-|[<-|[]]]; auto. do 2 eexists. reflexivity.
Qed.

Lemma brackets_complete : forall e ts, brackets d = true ->
  complete_for sum_follow (fun n => ev n (gsum sst pst strict1 strict0 fu fm fp)) e ts ->
  complete_for any_follow (fun n => ev n (gprim pst)) e (COp 40 :: ts ++ [COp 41]).
Proof.
  intros e ts B C n s ps rem T _ L.
  assert (H : says e rem (ev n paren_exp s ps)).
  { destruct (tokens_cons_app _ _ _ _ T) as (m1 & T1 & T2). apply tokens_app_inv in T2 as (m2 & T2 & T3).
    assert (L1 := tokens_length _ _ _ T1). assert (L2 := tokens_length _ _ _ T2).
    assert (L3 := tokens_length _ _ _ T3). simpl in *.
    destruct n as [|n]; [lia|].
    destruct (lit_token_complete (S n) 40 s ps m1 T1) as (ps1 & E1); [lia|].
    assert (F : sum_follow m2).
    { destruct (op_head _ _ _ _ T3) as (t & ->). unfold sum_follow, operator_char. simpl. lia. }
    rewrite ev_paren, middle_of_spec by (apply cfs; lia). rewrite E1.
    change (ev (S n) (PRef 0) m1 ps1) with (ev n (env 0%nat) m1 ps1). rewrite (Henv B).
    destruct (C n m1 ps1 m2 T2 F ltac:(lia)) as [(z & ps2 & M & ->)|(M & ->)].
    - destruct (lit_token_complete (S n) 41 m2 ps2 rem T3) as (ps3 & E3); [lia|].
      left. exists z, ps3. split; auto. rewrite E3. reflexivity.
    - right. auto. }
  assert (R : rejects (ev n int_token) s ps).
  { do 2 eexists. apply num_token_rejects. destruct (op_head _ _ _ _ T) as (t & ->). simpl.
    unfold digit_char. lia. }
  destruct pst.
  - discriminate.
  - rewrite ev_int_paren. apply (one_of_says [_] _ []); [simpl; lia | | exact H].
    intros q [<-|[]]. auto.
  - rewrite ev_int_paren_fail. apply (one_of_says [_] _ [_]); [simpl; lia | | exact H].
    intros q [<-|[<-|[]]]; auto. do 2 eexists. reflexivity.
Qed.

Lemma sign_complete : forall n c s ps rem, sst <> NoSigns -> In c (signs d) -> tokens s [COp c] rem ->
  (length s <= n)%nat -> exists ps', ev n (gsign sst) s ps = Accept (VChar c) rem ps'.
Proof.
  intros n c s ps rem N I T L. destruct sst; simpl in I; try contradiction; simpl gsign.
  - destruct I as [<-|[]]. apply (lit_token_complete n 45); auto.
  - apply (two_complete n 43 45); auto; [|lia]. destruct I as [<-|[<-|[]]]; auto.
Qed.

Lemma sign_rejects : forall n c s ps, digit_char c \/ c = 40 ->
  exists m, ev n (gsign sst) (c :: s) ps = Reject m ps.
Proof.
  intros n c s ps H. assert (c <> 43 /\ c <> 45) by (unfold digit_char in H; lia).
  destruct sst; simpl gsign.
  - eexists. destruct n; reflexivity.
  - eexists. apply (lit_token_rejects n 45). simpl. lia.
  - apply (two_rejects n 43 45). simpl. lia.
Qed.

(** The signs in front of an operand; the bound [j] of the fold. *)
Definition signed_complete (e : cexp) (ts : list ctok) : Prop :=
  (sst = NoSigns -> complete_for any_follow (fun n => ev n (gprim pst)) e ts) /\
  (sst <> NoSigns -> forall n j s ps rem, tokens s ts rem -> (length s < n)%nat -> (length s < j)%nat ->
   says e rem (foldr_start_with_parser j (ev n (gsign sst)) (ev n (gprim pst)) fu s ps)).

Lemma signed_complete_for : forall e ts, signed_complete e ts ->
  complete_for any_follow (fun n => ev n (gsigned sst (gprim pst) fu)) e ts.
Proof.
  intros e ts (A & B) n s ps rem T F L.
  assert (D : sst = NoSigns \/ sst <> NoSigns) by (destruct sst; auto; right; discriminate).
  destruct D as [D|D].
  - specialize (A D n s ps rem T F L). rewrite D. exact A.
  - rewrite ev_gsigned by auto. apply B; auto.
Qed.

Lemma meaningless_pos : forall e, meaningless e -> meaningless (CPos e).
Proof. intros e H z M. inversion M; subst. eapply H; eauto. Qed.
Lemma meaningless_neg : forall e, meaningless e -> meaningless (CNeg e).
Proof. intros e H z M. inversion M; subst. eapply H; eauto. Qed.

Lemma signed_step : forall c e e' ts, In c (signs d) ->
  (meaningless e -> meaningless e') ->
  (forall z, means e z -> (exists z', means e' z' /\ fu (VInt z) (VChar c) = Some (VInt z'))
     \/ (meaningless e' /\ fu (VInt z) (VChar c) = None)) ->
  signed_complete e ts -> signed_complete e' (COp c :: ts).
Proof.
  intros c e e' ts I Ml St (_ & B). split.
  { intros E. rewrite E in I. destruct I. }
  intros D n j s ps rem T L Lj. destruct (tokens_cons_app _ _ _ _ T) as (m1 & T1 & T2).
  assert (L1 := tokens_length _ _ _ T1). simpl in L1.
  destruct j as [|j]; [lia|]. simpl.
  destruct (sign_complete n c s ps m1 D I T1) as (ps1 & E1); [lia|]. rewrite E1.
  destruct (B D n j m1 ps1 rem T2 ltac:(lia) ltac:(lia)) as [(z & ps2 & M & ->)|(M & ->)].
  - destruct (St z M) as [(z' & M' & ->)|(M' & ->)]; [left; eauto | right; auto].
  - right. auto.
Qed.

Scheme primary_mind := Induction for primary Sort Prop
  with signed_mind := Induction for signed Sort Prop
  with product_mind := Induction for product Sort Prop
  with sum_mind := Induction for sum Sort Prop.
Combined Scheme exp_mutind from primary_mind, signed_mind, product_mind, sum_mind.

Definition product_complete (e : cexp) (ts : list ctok) : Prop :=
  chain_continues strict1 Mul Div (gsigned sst (gprim pst) fu) fm any_follow e ts.
Definition sum_complete (e : cexp) (ts : list ctok) : Prop :=
  forall strict2, chain_continues strict2 Add Sub (gproduct sst pst strict1 fu fm) fp product_follow e ts.

Lemma sum_complete_for : forall e ts strict2, sum_complete e ts ->
  complete_for sum_follow (fun n => ev n (gsum sst pst strict1 strict2 fu fm fp)) e ts.
Proof.
  intros e ts strict2 H. eapply continues_complete; [apply sum_follow_of | apply H].
Qed.
Lemma product_complete_for : forall e ts, product_complete e ts ->
  complete_for product_follow (fun n => ev n (gproduct sst pst strict1 fu fm)) e ts.
Proof.
  intros e ts H. eapply continues_complete; [apply product_follow_of | apply H].
Qed.

Lemma levels_complete :
  (forall e ts, primary d e ts ->
     (forall s rem, tokens s ts rem -> exists c t, s = c :: t /\ (digit_char c \/ c = 40)) /\
     complete_for any_follow (fun n => ev n (gprim pst)) e ts) /\
  (forall e ts, signed d e ts -> signed_complete e ts) /\
  (forall e ts, product d e ts -> product_complete e ts) /\
  (forall e ts, sum d e ts -> sum_complete e ts).
Proof.
  apply (exp_mutind d
    (fun e ts _ =>
      (forall s rem, tokens s ts rem -> exists c t, s = c :: t /\ (digit_char c \/ c = 40)) /\
      complete_for any_follow (fun n => ev n (gprim pst)) e ts)
    (fun e ts _ => signed_complete e ts)
    (fun e ts _ => product_complete e ts)
    (fun e ts _ => sum_complete e ts)).
  - intros ds. split; [intros; eapply (primary_head (CLit ds)); eauto; constructor | apply num_complete].
  - intros e ts B S IH. split.
    + intros s rem T. apply op_head in T as (t & ->). eauto.
    + apply brackets_complete; auto. apply sum_complete_for; auto.
  - intros e ts P (Hd & C). split; [intros _; exact C|].
    intros D n j s ps rem T L Lj. destruct j as [|j]; [lia|]. simpl.
    destruct (Hd _ _ T) as (c & t & -> & Hc). destruct (sign_rejects n c t ps Hc) as (m & ->).
    apply C; auto. exact I.
  - intros e ts i S IH. apply (signed_step 43 e); auto; [apply meaningless_pos|].
    intros z M. left. exists z. split; [constructor; auto|].
    destruct sst; simpl in i; try lia. apply Hu.
  - intros e ts i S IH. apply (signed_step 45 e); auto; [apply meaningless_neg|]. intros z M.
    assert (F2 : fu (VInt z) (VChar 45) = int_constant (- z)).
    { destruct sst; simpl in i; try lia; apply Hu. }
    rewrite F2. destruct (is_int_dec (- z)) as [Iz|Iz].
    + left. exists (- z). split; [constructor; auto | apply int_constant_some; auto].
    + right. split; [|apply int_constant_none; auto]. intros y Y. inversion Y; subst.
      same_means. auto.
  - intros e ts S IH. apply continues_one. apply signed_complete_for; auto.
  - intros a b ts us Pa IHa Sb IHb.
    apply (continues_more strict1 Mul Div _ fm any_follow Mul); auto; try discriminate.
    + intros; exact I.
    + apply signed_complete_for; auto.
  - intros a b ts us Pa IHa Sb IHb.
    apply (continues_more strict1 Mul Div _ fm any_follow Div); auto; try discriminate.
    + intros; exact I.
    + apply signed_complete_for; auto.
  - intros e ts P IH strict2. apply continues_one. apply product_complete_for; auto.
  - intros a b ts us Sa IHa Pb IHb strict2.
    apply (continues_more strict2 Add Sub _ fp product_follow Add); auto; try discriminate.
    + intros t. unfold product_follow, starts_op. simpl. lia.
    + apply product_complete_for; auto.
  - intros a b ts us Sa IHa Pb IHb strict2.
    apply (continues_more strict2 Add Sub _ fp product_follow Sub); auto; try discriminate.
    + intros t. unfold product_follow, starts_op. simpl. lia.
    + apply product_complete_for; auto.
Qed.

Lemma all_complete : forall e ts, sum d e ts -> sum_complete e ts.
Proof. apply levels_complete. Qed.
Lemma products_complete : forall e ts, product d e ts -> product_complete e ts.
Proof. apply levels_complete. Qed.

Lemma gsum_complete : forall strict2 e ts n s ps rem, sum d e ts -> tokens s ts rem ->
  not_starting_with operator_char rem -> (length s < n)%nat ->
  says e rem (ev n (gsum sst pst strict1 strict2 fu fm fp) s ps).
Proof.
  intros strict2 e ts n s ps rem S T F L.
  apply (sum_complete_for e ts strict2 (all_complete e ts S)); auto.
Qed.

End Style.

End Calc.
