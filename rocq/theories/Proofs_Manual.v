(** Proofs about the parsers of the user manual (C77). *)

From Coq Require Import String ZArith List Bool Lia.
From Verif Require Import Base Util Combinators Variadic Parsers Deep Messages Calculator Grammar Functions Manual
  Spec SpecDeep SpecCalc SpecTutorial SpecManual
  SpecFun SpecGrammar Proofs_Pos Proofs_Fold Proofs_Parsers Proofs_Deep Proofs_Final1 Proofs_Calc Proofs_Calc2 Proofs_CalcErr
  Proofs_Grammar Proofs_Parsers2 Proofs_Examples Proofs_Tutorial Proofs_Functions.
Import ListNotations.
Open Scope Z_scope.

(** ** Separated lists *)

Section Separated.
Variable cfg : config.
Hypothesis fits : fits_sequence cfg 2.
Variables p q : pfun.
Hypothesis Ap : sound_accept p.
Hypothesis Rp : sound_reject p.
Hypothesis Aq : sound_accept q.
Hypothesis Cq : consuming q.
Hypothesis Rq : rejects_at_once q.
Variable D : value -> Prop.
Variable f : mf2.
Hypothesis Dp : forall s ps r t pt, p s ps = Accept r t pt -> D r.
Hypothesis Hf : sum_like D f.

Local Notation P := (last_of cfg [q; p]).
Local Notation I := (first_of cfg [p; q]).

Definition onto (a : option value) (v : value) : option value :=
  match a with None => Some v | Some x => f x v end.
Definition then_onto (a : option value) (o : outcome) : outcome :=
  match o with
  | Accept v t pt => match onto a v with Some w => Accept w t pt | None => Illformed end
  | _ => o
  end.
(** the same, or ill-formed instead of not accepted *)
Definition agree (o1 o2 : outcome) : Prop :=
  o1 = o2 \/ (o1 = Illformed /\ forall v t pt, o2 <> Accept v t pt).
Definition in_domain (a : option value) : Prop := match a with Some x => D x | None => True end.

Lemma sound_shrinks : forall r s ps v t pt, sound_accept r -> r s ps = Accept v t pt -> (length t <= length s)%nat.
Proof. intros r s ps v t pt A E. apply A in E as (w & -> & _). rewrite app_length. lia. Qed.

Lemma dangling : forall s1 ps1 v s2 ps2 m pe,
  q s1 ps1 = Accept v s2 ps2 -> p s2 ps2 = Reject m pe -> pos_equal_to ps1 pe = false.
Proof.
  intros s1 ps1 v s2 ps2 m pe E1 E2. destruct (pos_equal_to ps1 pe) eqn:E; auto.
  apply pos_equal_to_iff in E. subst pe. pose proof (Cq _ _ _ _ _ E1) as L.
  apply Aq in E1 as (w & -> & W). apply Rp in E2 as (u & _ & U).
  rewrite walk_iff in W, U. rewrite W, <- adv_app in U. symmetry in U. apply adv_fix in U.
  destruct w; [simpl in L; lia | discriminate].
Qed.

Lemma onto_domain : forall a r x, in_domain a -> D r -> onto a r = Some x -> D x.
Proof.
  intros [a|] r x Ha Hr E; simpl in *.
  - eapply (sum_closed _ _ Hf a r); eauto.
  - congruence.
Qed.

(** what [onto] does before the rest is added, it does after it *)
Lemma onto_first : forall a r v, in_domain a -> D r -> D v ->
  match onto a r with Some b => f b v | None => None end
  = match f v r with Some w => onto a w | None => None end.
Proof.
  intros [a|] r v Ha Hr Hv; simpl in *.
  - rewrite (sum_associates _ _ Hf a r v), (sum_commutes _ _ Hf r v); auto.
  - rewrite (sum_commutes _ _ Hf r v) by auto. destruct (f v r); auto.
Qed.

Lemma right_domain : forall j s ps v t pt, foldr_start_with_parser j I p f s ps = Accept v t pt -> D v.
Proof.
  induction j as [|j IH]; intros s ps v t pt E; [discriminate|]. cbn [foldr_start_with_parser] in E.
  rewrite first_of_2 in E by auto. destruct (p s ps) as [r s1 ps1| | |] eqn:E1; try discriminate.
  destruct (q s1 ps1) as [v2 s2 ps2| | |]; try discriminate.
  - destruct (foldr_start_with_parser j I p f s2 ps2) as [v3 s3 ps3| | |] eqn:E3; try discriminate.
    destruct (f v3 r) as [w|] eqn:E4; try discriminate. injection E as <- <- <-.
    eapply (sum_closed _ _ Hf v3 r); eauto.
  - injection E as <- _ _. eauto.
Qed.

Lemma both_ways : forall k j i s ps r s1 ps1 a, (length s1 <= k)%nat -> (length s < j)%nat -> (length s1 < i)%nat ->
  p s ps = Accept r s1 ps1 -> in_domain a ->
  agree (foldl_reject_incomplete i P (onto a r) f s1 ps1)
        (then_onto a (foldr_start_with_parser j I p f s ps)).
Proof.
  induction k as [|k IH]; intros j i s ps r s1 ps1 a Lk Lj Li E Ha;
    (destruct j as [|j]; [lia|]); (destruct i as [|i]; [lia|]);
    cbn [foldr_start_with_parser foldl_reject_incomplete]; rewrite first_of_2, last_of_2, E by auto;
    (destruct (q s1 ps1) as [v2 s2 ps2|m pe| |] eqn:E2;
     [pose proof (Cq _ _ _ _ _ E2) as L2
     | apply Rq in E2; subst pe; rewrite pos_equal_to_refl; left; reflexivity
     | left; reflexivity | left; reflexivity]); [lia|].
  assert (Dr : D r) by eauto.
  assert (L1 := sound_shrinks _ _ _ _ _ _ Ap E).
  destruct (p s2 ps2) as [r2 s3 ps3|m pe| |] eqn:E3.
  - assert (L3 := sound_shrinks _ _ _ _ _ _ Ap E3). assert (D2 : D r2) by eauto.
    assert (K : forall v3 s4 ps4, foldr_start_with_parser j I p f s2 ps2 = Accept v3 s4 ps4 ->
      match onto a r with Some b => f b v3 | None => None end
      = match f v3 r with Some w => onto a w | None => None end).
    { intros v3 s4 ps4 E4. apply onto_first; auto. eapply right_domain; eauto. }
    destruct (onto a r) as [b|] eqn:Eb.
    + assert (H : in_domain (Some b)) by exact (onto_domain a r b Ha Dr Eb).
      destruct (IH j i s2 ps2 r2 s3 ps3 (Some b) ltac:(lia) ltac:(lia) ltac:(lia) E3 H) as [A|(A & B)];
        cbn [onto] in A; rewrite A.
      * destruct (foldr_start_with_parser j I p f s2 ps2) as [v3 s4 ps4| | |]; try (left; reflexivity).
        specialize (K _ _ _ eq_refl). cbn [then_onto onto]. left. rewrite K. destruct (f v3 r); reflexivity.
      * destruct (foldr_start_with_parser j I p f s2 ps2) as [v3 s4 ps4| | |];
          try (right; split; auto; intros; discriminate).
        specialize (K _ _ _ eq_refl). cbn [then_onto onto] in B. left.
        destruct (f b v3); [destruct (B _ _ _ eq_refl)|]. destruct (f v3 r); cbn [then_onto]; [rewrite <- K|]; reflexivity.
    + destruct (foldr_start_with_parser j I p f s2 ps2) as [v3 s4 ps4| | |];
        try (right; split; auto; intros; discriminate).
      specialize (K _ _ _ eq_refl). left. destruct (f v3 r); cbn [then_onto]; [rewrite <- K|]; reflexivity.
  - rewrite (dangling _ _ _ _ _ _ _ E2 E3). destruct j as [|j]; [lia|]. cbn [foldr_start_with_parser].
    rewrite first_of_2, E3 by auto. left. reflexivity.
  - destruct j as [|j]; [lia|]. cbn [foldr_start_with_parser].
    rewrite first_of_2, E3 by auto. left. reflexivity.
  - destruct j as [|j]; [lia|]. cbn [foldr_start_with_parser].
    rewrite first_of_2, E3 by auto. left. reflexivity.
Qed.

Lemma separated_agree : forall n s ps, (length s < n)%nat ->
  agree (foldl_reject_incomplete_start_with_parser n P p f s ps) (foldr_start_with_parser n I p f s ps).
Proof.
  intros n s ps L. unfold foldl_reject_incomplete_start_with_parser.
  destruct (p s ps) as [r s1 ps1| | |] eqn:E;
    try (destruct n as [|n]; [lia|]; cbn [foldr_start_with_parser]; rewrite first_of_2, E by auto; left; reflexivity).
  assert (L1 := sound_shrinks _ _ _ _ _ _ Ap E).
  rewrite type_of_some by (intros ->; exact (sum_not_void _ _ Hf (Dp _ _ _ _ _ E))).
  pose proof (both_ways (length s1) n n s ps r s1 ps1 None ltac:(lia) L ltac:(lia) E Logic.I) as H.
  cbn [onto] in H. destruct (foldr_start_with_parser n I p f s ps); exact H.
Qed.

(** the fold that does not look at what stopped it *)
Lemma separated_foldl : forall n s ps v t pt,
  foldl_reject_incomplete_start_with_parser n P p f s ps = Accept v t pt
  <-> foldl_start_with_parser n P p f s ps = Accept v t pt /\ rejects q t pt.
Proof.
  intros n s ps v t pt. unfold foldl_reject_incomplete_start_with_parser, foldl_start_with_parser.
  destruct (p s ps) as [r s1 ps1| | |] eqn:E; try (split; [|intros (? & _)]; discriminate).
  rewrite type_of_some by (intros ->; exact (sum_not_void _ _ Hf (Dp _ _ _ _ _ E))).
  rewrite foldl_ri_accept, foldl_accept. split.
  - intros (rs & m & Ln & R & Er & F). split; [eauto 9|]. rewrite last_of_2 in Er by auto.
    destruct (q t pt) as [v2 s2 ps2|m2 pe2| |] eqn:E2; try discriminate; [|unfold rejects; eauto].
    destruct (p s2 ps2) as [| m3 pe3 | |] eqn:E3; try discriminate. injection Er as -> ->.
    pose proof (dangling _ _ _ _ _ _ _ E2 E3) as N. rewrite pos_equal_to_refl in N. discriminate.
  - intros ((rs & m & pe & Ln & R & Er & F) & m2 & pe2 & E2). exists rs, m2. splits; auto.
    rewrite last_of_2, E2 by auto. apply Rq in E2. subst. reflexivity.
Qed.

End Separated.

(** ** Sums *)

Definition nonneg (x : option Z) : Prop := match x with Some a => 0 <= a | None => True end.

Lemma plain_sum_nonneg : forall l z, Forall nonneg l -> plain_sum l = Some z -> 0 <= z.
Proof.
  induction l as [|[a|] l IH]; intros z F E; simpl in E; try discriminate.
  - injection E as <-. lia.
  - inversion F; subst. simpl in H1. destruct (plain_sum l); [|discriminate]. injection E as <-.
    specialize (IH _ H2 eq_refl). lia.
Qed.

Definition fold_plus (l : list (option Z)) (st : option value) : option value :=
  fold_left (fun st x => match st, x with Some v, Some b => sum_op v (VInt b) | _, _ => None end) l st.

Lemma fold_plus_none : forall l, fold_plus l None = None.
Proof. induction l; auto. Qed.

Lemma fold_plus_sum : forall l z, 0 <= z -> is_int z -> Forall nonneg l ->
  fold_plus l (Some (VInt z)) = match plain_sum l with Some r => option_map VInt (an_int (z + r)) | None => None end.
Proof.
  induction l as [|[b|] l IH]; intros z P J F.
  - simpl. rewrite Z.add_0_r. destruct (an_int_is z) as [(-> & _)|(_ & N)]; [reflexivity|contradiction].
  - inversion F; subst. simpl in H1. unfold fold_plus. cbn [fold_left plain_sum]. unfold sum_op. rewrite mpl_plus_ints.
    fold (fold_plus l (option_map VInt (an_int (z + b)))).
    destruct (an_int_is (z + b)) as [(-> & K)|(-> & K)]; cbn [option_map].
    + rewrite IH by (auto; lia). destruct (plain_sum l) as [r|]; auto. do 2 f_equal. lia.
    + rewrite fold_plus_none. destruct (plain_sum l) as [r|] eqn:Er; auto.
      apply plain_sum_nonneg in Er; auto.
      destruct (an_int_is (z + (b + r))) as [(_ & Q)|(-> & _)]; [|reflexivity]. exfalso. unfold is_int in *. lia.
  - unfold fold_plus. cbn [fold_left plain_sum]. apply fold_plus_none.
Qed.

Lemma all_ints_sum : forall l, plain_sum (map snd l) = option_map total (all_ints l).
Proof.
  induction l as [|[c [b|]] l IH]; simpl; auto. rewrite IH. destruct (all_ints l); auto.
Qed.

Lemma number_list_total : forall k s, (length s <= k)%nat -> exists l t, number_list l s t.
Proof.
  induction k as [|k IH]; intros s L; destruct (a_number_cases s) as [(x & t & H)|(N & _)].
  - apply a_number_shrinks in H. lia.
  - exists [], s. constructor; auto.
  - pose proof (a_number_shrinks _ _ _ H). destruct (IH t ltac:(lia)) as (l & u & Hl).
    exists (x :: l), u. econstructor; eauto.
  - exists [], s. constructor; auto.
Qed.

Lemma number_list_nonneg : forall l s t, number_list l s t -> Forall nonneg l.
Proof. induction 1; constructor; auto. destruct x; simpl; auto. eapply a_number_nonneg; eauto. Qed.

Section Manual.
Variable cfg : config.
Hypothesis fits : calc_fits cfg.
Variable env : program.
Variable n : nat.
Local Notation ev := (eval cfg env n).

Lemma fits2 : fits_sequence cfg 2.
Proof. apply (cfs cfg fits). lia. Qed.

Lemma foldl_list : forall l s t, number_list l s t -> (length s < n)%nat -> forall f j st ps, (length s < j)%nat ->
  match fold_left (fun st x => match st, x with Some v, Some b => f v (VInt b) | _, _ => None end) l st with
  | Some v => exists ps', foldl j (ev int_token) st f s ps = Accept v t ps'
  | None => foldl j (ev int_token) st f s ps = Illformed
  end.
Proof.
  intros l s t H. induction H as [s N | x l s s1 t Hx Hl IH]; intros L f j st ps Lj;
    (destruct j as [|j]; [lia|]); cbn [fold_left foldl].
  - destruct (number_good cfg fits env n s ps L) as (_ & _ & G3 & _). destruct (G3 N) as (m & pe & ->).
    destruct st; eauto.
  - pose proof (a_number_shrinks _ _ _ Hx) as S1.
    destruct (number_good cfg fits env n s ps L) as (G1 & G2 & _). destruct x as [a|].
    + destruct (G1 _ _ Hx) as (ps1 & ->). destruct st as [v|].
      * exact (IH ltac:(lia) f j (f v (VInt a)) ps1 ltac:(lia)).
      * assert (E : forall l, fold_left (fun st x => match st, x with Some v, Some b => f v (VInt b) | _, _ => None end) l None = None)
          by (clear; induction l; auto).
        rewrite E. reflexivity.
    + rewrite (G2 _ Hx). destruct st; cbn iota;
      assert (E : forall l, fold_left (fun st x => match st, x with Some v, Some b => f v (VInt b) | _, _ => None end) l None = None)
          by (clear; induction l; auto); rewrite E; reflexivity.
Qed.

Lemma foldr_list : forall l s t, number_list l s t -> (length s < n)%nat -> forall j ps, (length s < j)%nat ->
  match sum_of l with
  | Some z => exists ps', foldr_start_with_parser j (ev int_token) (return_ (VInt 0)) sum_op s ps = Accept (VInt z) t ps'
  | None => foldr_start_with_parser j (ev int_token) (return_ (VInt 0)) sum_op s ps = Illformed
  end.
Proof.
  intros l s t H. induction H as [s N | x l s s1 t Hx Hl IH]; intros L j ps Lj;
    (destruct j as [|j]; [lia|]); cbn [foldr_start_with_parser].
  - destruct (number_good cfg fits env n s ps L) as (_ & _ & G3 & _). destruct (G3 N) as (m & pe & ->).
    vm_compute. eauto.
  - pose proof (a_number_shrinks _ _ _ Hx) as S1.
    destruct (number_good cfg fits env n s ps L) as (G1 & G2 & _). destruct x as [a|].
    + destruct (G1 _ _ Hx) as (ps1 & ->). specialize (IH ltac:(lia) j ps1 ltac:(lia)).
      unfold sum_of in *. cbn [plain_sum]. pose proof (number_list_nonneg _ _ _ Hl) as F.
      destruct (plain_sum l) as [b|] eqn:Eb; [|rewrite IH; reflexivity].
      apply plain_sum_nonneg in Eb; auto. pose proof (a_number_nonneg _ _ _ Hx) as Pa.
      destruct (an_int_is b) as [(E & K)|(E & K)]; rewrite E in IH.
      * destruct IH as (ps' & ->). unfold sum_op. rewrite mpl_plus_ints, (Z.add_comm b a).
        destruct (an_int (a + b)); simpl; eauto.
      * rewrite IH. destruct (an_int_is (a + b)) as [(_ & Q)|(-> & _)]; [|reflexivity]. exfalso. unfold is_int in *. lia.
    + rewrite (G2 _ Hx). reflexivity.
Qed.

Lemma list_good_of : forall p : pfun,
  (forall l s t ps, number_list l s t -> (length s < n)%nat ->
    match sum_of l with
    | Some z => exists ps', p s ps = Accept (VInt z) t ps'
    | None => p s ps = Illformed
    end) -> good list_sum_reading VInt n p.
Proof.
  intros p H s ps L. splits.
  - intros a t (l & Hl & E). specialize (H l s t ps Hl L). rewrite <- E in H. auto.
  - intros t (l & Hl & E). specialize (H l s t ps Hl L). rewrite <- E in H. auto.
  - intros N. destruct (number_list_total (length s) s ltac:(lia)) as (l & t & Hl). destruct (N (sum_of l) t).
    exists l. auto.
  - left. destruct (number_list_total (length s) s ltac:(lia)) as (l & t & Hl). exists (sum_of l), t, l. auto.
Qed.

Lemma better_good : good list_sum_reading VInt n (ev better_sum_parser).
Proof.
  apply list_good_of. intros l s t ps Hl L.
  assert (E : ev better_sum_parser = foldl n (ev int_token) (Some (VInt 0)) sum_op) by (destruct n; reflexivity).
  rewrite E. pose proof (foldl_list l s t Hl L sum_op n (Some (VInt 0)) ps L) as H.
  change (fold_left _ l (Some (VInt 0))) with (fold_plus l (Some (VInt 0))) in H.
  rewrite fold_plus_sum in H; [|lia | apply an_int_zero | eapply number_list_nonneg; eauto].
  unfold sum_of. destruct (plain_sum l); [|exact H]. rewrite Z.add_0_l in H. destruct (an_int z); exact H.
Qed.

Lemma better_r_good : good list_sum_reading VInt n (ev better_sum_parser_r).
Proof.
  apply list_good_of. intros l s t ps Hl L.
  assert (E : ev better_sum_parser_r = foldr_start_with_parser n (ev int_token) (return_ (VInt 0)) sum_op) by (destruct n; reflexivity).
  rewrite E. apply foldr_list; auto.
Qed.

Fixpoint all_given (l : list (option Z)) : option (list Z) :=
  match l with
  | [] => Some []
  | x :: l' => match x, all_given l' with Some a, Some r => Some (a :: r) | _, _ => None end
  end.

Lemma collect_given : forall l acc,
  fold_left (fun st x => match st, x with Some v, Some b => back_inserter v (VInt b) | _, _ => None end) l (Some (VSeq acc))
  = match all_given l with Some r => Some (VSeq (acc ++ map VInt r)) | None => None end.
Proof.
  assert (E : forall l, fold_left (fun st x => match st, x with Some v, Some b => back_inserter v (VInt b) | _, _ => None end) l None = None)
    by (induction l; auto).
  induction l as [|[b|] l IH]; intros acc; cbn [fold_left all_given].
  - rewrite app_nil_r. reflexivity.
  - change (back_inserter (VSeq acc) (VInt b)) with (Some (VSeq (acc ++ [VInt b]))).
    rewrite IH. destruct (all_given l); auto. rewrite <- app_assoc. reflexivity.
  - apply E.
Qed.

Lemma given_sum : forall l, match all_given l with
  | Some r => fold_plus l (Some (VInt 0)) = mpl_fold mpl_plus (map VInt r) (VInt 0)
  | None => plain_sum l = None
  end.
Proof.
  assert (G : forall l r, all_given l = Some r -> l = map Some r).
  { induction l as [|[b|] l IH]; intros r E; simpl in E; try discriminate.
    - injection E as <-. reflexivity.
    - destruct (all_given l); [|discriminate]. injection E as <-. simpl. rewrite (IH _ eq_refl). reflexivity. }
  assert (F : forall r v, fold_plus (map Some r) (Some v) = mpl_fold mpl_plus (map VInt r) v).
  { induction r as [|b r IH]; intros v; auto. unfold fold_plus. cbn [map fold_left mpl_fold]. unfold sum_op.
    destruct (mpl_plus v (VInt b)) as [w|]; [apply IH | apply fold_plus_none]. }
  intros l. destruct (all_given l) as [r|] eqn:E.
  - rewrite (G _ _ E). apply F.
  - clear F G. induction l as [|[b|] l IH]; simpl in *; try discriminate; auto.
    destruct (all_given l); [discriminate|]. rewrite IH; auto.
Qed.

Lemma sum_parser_good : good list_sum_reading VInt n (ev sum_parser).
Proof.
  apply list_good_of. intros l s t ps Hl L.
  assert (E : ev sum_parser = transform (foldl n (ev int_token) (Some (VSeq [])) back_inserter) sum_vector) by (destruct n; reflexivity).
  rewrite E. unfold transform. pose proof (foldl_list l s t Hl L back_inserter n (Some (VSeq [])) ps L) as H.
  rewrite collect_given in H. pose proof (given_sum l) as G.
  pose proof (fold_plus_sum l 0 ltac:(lia) an_int_zero (number_list_nonneg _ _ _ Hl)) as S.
  unfold sum_of. destruct (all_given l) as [r|].
  - destruct H as (ps' & ->). cbn [app sum_vector]. rewrite <- G, S.
    destruct (plain_sum l) as [z|]; [|reflexivity]. rewrite Z.add_0_l. destruct (an_int z); simpl; eauto.
  - rewrite G, H. reflexivity.
Qed.

Lemma no_number_rejects : forall s ps, not_starting_with digit_char s -> ev int_token s ps = Reject digit_expected ps.
Proof.
  intros s ps N. rewrite ev_int_token. unfold token. rewrite first_of_2 by exact fits2.
  unfold int_, foldl1, digit_val, transform. destruct digit_class as (_ & B & C).
  destruct s as [|c s]; [rewrite C|rewrite B by exact N]; reflexivity.
Qed.

(** *** [+] and numbers *)

(** [last_of] where the tutorial has [sequence] *)
Lemma foldl_last : forall (q r : pexpr) j st s ps,
  foldl j (last_of cfg [ev q; ev r]) st sum_op s ps = foldl j (item cfg env n q r) st sum_items s ps.
Proof.
  intros q r. induction j as [|j IH]; intros st s ps; [reflexivity|]. cbn [foldl].
  rewrite last_of_2 by exact fits2. unfold item at 1. rewrite (sequence_2 cfg fits2).
  destruct (ev q s ps) as [v1 s1 ps1| | |]; auto. destruct (ev r s1 ps1) as [v2 s2 ps2| | |]; auto.
  destruct st; auto.
Qed.

Lemma sum3_is_11 : forall s ps, ev sum_parser3 s ps = ev exp_parser11 s ps.
Proof.
  intros s ps. change exp_parser11 with (chain false plus_token int_token sum_items). rewrite (ev_chain cfg).
  assert (E : ev sum_parser3 s ps = match ev int_token s ps with
    | Accept r s' ps' => foldl n (last_of cfg [ev plus_token; ev int_token]) (type_of r) sum_op s' ps' | o => o end)
    by (destruct n; reflexivity).
  rewrite E. cbn [gfold]. destruct (ev int_token s ps); auto. apply foldl_last.
Qed.

Lemma plus_exp_iff : forall x s t,
  computing (numbers [43]) whole_total x s t <-> plus_exp_reading x s t.
Proof.
  intros x s t. unfold computing, numbers, plus_exp_reading, sum_of. cbn [plain_sum]. split.
  - intros (w & (x0 & s1 & l & Hx & It & ->) & ->). exists x0, s1, l. splits; auto.
    rewrite all_ints_sum. destruct x0, (all_ints l); reflexivity.
  - intros (x0 & s1 & l & Hx & It & ->). eexists. split; [exists x0, s1, l; splits; eauto|].
    rewrite all_ints_sum. destruct x0, (all_ints l); reflexivity.
Qed.

Lemma sum3_good : good plus_exp_reading VInt n (ev sum_parser3).
Proof.
  assert (G : good plus_exp_reading VInt n (ev exp_parser11)).
  { apply (good_iff n Z (computing (numbers [43]) whole_total)); [exact plus_exp_iff|].
    apply started_good; auto. apply plus_good; auto. }
  intros s ps L. rewrite sum3_is_11. apply G; auto.
Qed.

Lemma sum2_good : good plus_list_reading VInt n (ev sum_parser2).
Proof.
  intros s ps L.
  assert (E : ev sum_parser2 s ps = foldl n (last_of cfg [ev plus_token; ev int_token]) (Some (VInt 0)) sum_op s ps)
    by (destruct n; reflexivity).
  rewrite E, foldl_last. clear E. pose proof (plus_good cfg fits env n) as Q. pose proof (number_good cfg fits env n) as N.
  assert (C : forall l t, items [43] a_number l s t ->
    match sum_of (map snd l) with
    | Some z => exists ps', foldl n (item cfg env n plus_token int_token) (Some (VInt 0)) sum_items s ps = Accept (VInt z) t ps'
    | None => foldl n (item cfg env n plus_token int_token) (Some (VInt 0)) sum_items s ps = Illformed
    end).
  { intros l t It.
    assert (H := foldl_items cfg fits env n [43] a_number plus_token int_token Q N a_number_shrinks sum_items l s t It
      L n (Some (VInt 0)) ps L).
    rewrite fold_sum_items in H; [| lia | apply an_int_zero | apply (items_nonneg [43] a_number a_number_nonneg l s t It)].
    unfold sum_of. rewrite all_ints_sum. destruct (all_ints l) as [x|]; [|exact H]. cbn [option_map].
    rewrite Z.add_0_l in H. destruct (an_int (total x)); exact H. }
  destruct (items_total cfg env n [43] a_number plus_token int_token Q N a_number_shrinks (length s) s ltac:(lia) L)
    as (l & t & It).
  splits.
  - intros a u (l' & It' & E). specialize (C l' u It'). rewrite <- E in C. exact C.
  - intros u (l' & It' & E). specialize (C l' u It'). rewrite <- E in C. exact C.
  - intros NN. destruct (NN (sum_of (map snd l)) t). exists l. auto.
  - left. exists (sum_of (map snd l)), t, l. auto.
Qed.

(** *** the order of the sums *)

Lemma int_token_accepts : sound_accept (ev int_token).
Proof.
  assert (E : ev int_token = eval cfg no_program n int_token) by (rewrite !ev_int_token; reflexivity).
  rewrite E. apply eval_sound_accept; [intros k|]; unfold no_program, int_token; every_solve; auto.
Qed.
Lemma int_token_rejects : sound_reject (ev int_token).
Proof.
  assert (E : ev int_token = eval cfg no_program n int_token) by (rewrite !ev_int_token; reflexivity).
  rewrite E. apply eval_sound_reject; [intros k|]; unfold no_program, int_token; every_solve; auto.
Qed.
Lemma plus_token_accepts : sound_accept (ev plus_token).
Proof.
  assert (E : ev plus_token = eval cfg no_program n plus_token).
  { change plus_token with (lit_token 43). rewrite !ev_lit_token. reflexivity. }
  rewrite E. apply eval_sound_accept; [intros k|]; unfold no_program, plus_token; every_solve; auto.
Qed.
Lemma plus_token_consumes : consuming (ev plus_token).
Proof.
  intros s ps r t pt E. apply (lit_token_sound cfg fits) in E as (_ & T); [|unfold op_char; simpl; auto].
  apply tokens_length in T. simpl in T. slia.
Qed.
Lemma plus_token_only : forall s ps m pe, ev plus_token s ps = Reject m pe ->
  pe = ps /\ not_starting_with (fun k => k = 43) s.
Proof.
  intros s ps m pe E. change plus_token with (lit_token 43) in E.
  assert (N : not_starting_with (fun k => k = 43) s).
  { destruct s as [|k s]; simpl; auto. intros ->. rewrite ev_lit_token in E.
    apply token_reject in E; [|exact fits2].
    destruct (lit_c_class 43) as (A & _). rewrite (A 43 s ps (adv ps [43])) in E by (auto; apply walk_adv).
    discriminate. }
  rewrite (lit_token_rejects cfg fits) in E by auto. inversion E; subst. auto.
Qed.
Lemma plus_token_at_once : rejects_at_once (ev plus_token).
Proof. intros s ps m pe E. apply plus_token_only in E as (-> & _). reflexivity. Qed.

Definition natural (v : value) : Prop := exists z, v = VInt z /\ 0 <= z.

Lemma int_token_natural : forall s ps r t pt, ev int_token s ps = Accept r t pt -> natural r.
Proof.
  intros s ps r t pt E. apply (num_token_sound cfg fits) in E as (ds & z & -> & M & T). exists z. split; auto.
  inversion M; subst. apply tokens_one_inv in T as (l & w & _ & L & _). inversion L; subst. apply decimal_nonneg; auto.
Qed.

Lemma plus_sum_like : sum_like natural sum_op.
Proof.
  assert (S : forall a b, sum_op (VInt a) (VInt b) = option_map VInt (an_int (a + b))) by (intros; apply mpl_plus_ints).
  constructor.
  - intros (z & [=] & _).
  - intros a b c (x & -> & X) (y & -> & Y) E. rewrite S in E. destruct (an_int_is (x + y)) as [(Q & _)|(Q & _)];
      rewrite Q in E; [|discriminate]. injection E as <-. exists (x + y). split; auto. lia.
  - intros a b (x & -> & X) (y & -> & Y). rewrite !S, Z.add_comm. reflexivity.
  - intros a b c (x & -> & X) (y & -> & Y) (z & -> & Z'). rewrite !S.
    destruct (an_int_is (x + y)) as [(-> & J1)|(-> & J1)], (an_int_is (y + z)) as [(-> & J2)|(-> & J2)];
      cbn [option_map]; rewrite ?S.
    + rewrite Z.add_assoc. reflexivity.
    + destruct (an_int_is (x + y + z)) as [(_ & Q)|(-> & _)]; [|reflexivity]. exfalso. unfold is_int in *. lia.
    + destruct (an_int_is (x + (y + z))) as [(_ & Q)|(-> & _)]; [|reflexivity]. exfalso. unfold is_int in *. lia.
    + reflexivity.
Qed.

Lemma ev_sum4 : ev sum_parser4 = foldr_start_with_parser n (first_of cfg [ev int_token; ev plus_token]) (ev int_token) sum_op.
Proof. destruct n; reflexivity. Qed.
Lemma ev_sum5 : ev sum_parser5
  = foldl_reject_incomplete_start_with_parser n (last_of cfg [ev plus_token; ev int_token]) (ev int_token) sum_op.
Proof. destruct n; reflexivity. Qed.
Lemma ev_sum3 : ev sum_parser3
  = foldl_start_with_parser n (last_of cfg [ev plus_token; ev int_token]) (ev int_token) sum_op.
Proof. destruct n; reflexivity. Qed.

Lemma sums_agree : forall s ps, (length s < n)%nat -> agree (ev sum_parser5 s ps) (ev sum_parser4 s ps).
Proof.
  intros s ps L. rewrite ev_sum4, ev_sum5. apply (separated_agree cfg fits2 _ _ int_token_accepts int_token_rejects
    plus_token_accepts plus_token_consumes plus_token_at_once natural sum_op int_token_natural plus_sum_like); auto.
Qed.

Lemma plus_rejects_iff : forall t pt, rejects (ev plus_token) t pt <-> not_starting_with (fun c => c = 43) t.
Proof.
  intros t pt. split.
  - intros (m & pe & E). apply plus_token_only in E as (_ & H). exact H.
  - intros H. do 2 eexists. apply (lit_token_rejects cfg fits). exact H.
Qed.

Lemma sum5_sum3 : forall s ps v t pt, ev sum_parser5 s ps = Accept v t pt
  <-> ev sum_parser3 s ps = Accept v t pt /\ not_starting_with (fun c => c = 43) t.
Proof.
  intros s ps v t pt. rewrite ev_sum5, ev_sum3, <- (plus_rejects_iff t pt).
  apply (separated_foldl cfg fits2 _ _ int_token_rejects plus_token_accepts plus_token_consumes plus_token_at_once
    natural sum_op int_token_natural plus_sum_like).
Qed.

(** a [+] without a number after it *)
Lemma sum5_dangling : forall s ps v t pt u, (length s < n)%nat ->
  ev sum_parser3 s ps = Accept v t pt -> dangling_plus t u ->
  exists w pe, t = w ++ u /\ walk pt w pe /\ ev sum_parser5 s ps = Reject digit_expected pe.
Proof.
  intros s ps v t pt u L E (O & N). rewrite ev_sum3 in E. rewrite ev_sum5.
  unfold foldl_start_with_parser in E. unfold foldl_reject_incomplete_start_with_parser.
  destruct (ev int_token s ps) as [r s1 ps1| | |] eqn:E1; try discriminate.
  assert (Nv : r <> VVoid) by (apply int_token_natural in E1 as (z & -> & _); discriminate).
  rewrite type_of_some in E by auto. rewrite type_of_some by auto.
  apply foldl_accept in E as (rs & m & pe & Ln & R & Er & F).
  assert (Lt : (length t < n)%nat).
  { assert (A3 := proj2 (foldl_accept n (last_of cfg [ev plus_token; ev int_token]) r sum_op s1 ps1 v t pt)
      (ex_intro _ rs (ex_intro _ m (ex_intro _ pe (conj Ln (conj R (conj Er F))))))).
    assert (A4 : ev sum_parser3 s ps = Accept v t pt)
      by (rewrite ev_sum3; unfold foldl_start_with_parser; rewrite E1, type_of_some by auto; exact A3).
    assert (S3 : sound_accept (ev sum_parser3)).
    { assert (Q : ev sum_parser3 = eval cfg no_program n sum_parser3) by (destruct n; reflexivity).
      rewrite Q. apply eval_sound_accept; [intros k|];
        unfold no_program, sum_parser3, plus_int, int_token, plus_token; every_solve; auto. }
    apply S3 in A4 as (w & -> & _). rewrite app_length in L. lia. }
  destruct O as (_ & T). destruct (lit_token_complete cfg fits env n 43 t pt u T ltac:(lia)) as (ps2 & E2).
  change (ev (lit_token 43) t pt) with (ev plus_token t pt) in E2.
  pose proof (plus_token_accepts _ _ _ _ _ E2) as (w & -> & W). exists w, ps2. splits; auto.
  assert (E3 : last_of cfg [ev plus_token; ev int_token] (w ++ u) pt = Reject digit_expected ps2)
    by (rewrite last_of_2, E2 by exact fits2; apply no_number_rejects; auto).
  rewrite foldl_ri_reject. exists rs, (w ++ u), pt. splits; auto.
  - intros ->. pose proof (plus_token_consumes _ _ _ _ _ E2) as Lc. rewrite app_length in Lc.
    rewrite walk_iff in W. symmetry in W. apply adv_fix in W. subst w. simpl in Lc. lia.
  - clear - F. revert r v F. induction rs as [|x rs IH]; intros r v F; [discriminate|].
    cbn [lfold] in F. destruct rs as [|y rs]; [discriminate|]. cbn [removelast lfold].
    destruct (sum_op r x) as [r'|]; [|discriminate]. eapply IH; eauto.
Qed.

(** *** the grammar *)

Definition e_plus : pexpr :=
  PTransform (PSequence [int_token; PRepeated (PSequence [e_token seq_front 43; int_token])]) sum_action.

Lemma e_token_good : op_good [43] n (ev (e_token seq_front 43)).
Proof.
  assert (Fo : fits_one_of cfg 2) by (apply (cfo cfg fits); lia).
  assert (E : ev (e_token seq_front 43) = transform (sequence cfg [lit_c 43; repeated n (ws_char cfg)]) seq_front)
    by (destruct n; reflexivity).
  rewrite E. destruct (pair_reads_token cfg n 43 (ws_char cfg) fits2 (ws_reads cfg Fo)) as (A & B).
  intros s ps L. splits.
  - intros c t O. pose proof (op_at_head _ _ _ _ O) as (r & ->). destruct O as ([<-|[]] & T).
    apply tokens_one_inv in T as (l & w & E2 & Lx & Fw & Nw & _). inversion Lx; subst.
    apply A; auto. exists w. injection E2 as ->. auto.
  - intros N. destruct (op_at_cases [43] s ltac:(intros c [<-|[]]; unfold op_char; simpl; auto)) as [(c & t & O)|(_ & H)].
    + destruct (N _ _ O).
    + destruct (B s ps) as (m & Em); [|eauto]. destruct s; simpl in *; auto.
  - destruct (op_at_cases [43] s ltac:(intros c [<-|[]]; unfold op_char; simpl; auto)) as [(c & t & O)|(H & _)]; eauto.
Qed.

Lemma sum_action_folds : forall a x, sum_action (VSeq [VInt a; VSeq (map item_value x)])
  = fold_items sum_items (Some (VInt a)) (map (fun i => (fst i, Some (snd i))) x).
Proof.
  intros a x. rewrite <- mpl_fold_sum. unfold sum_action, fold_tail. cbn [seq_front seq_back last].
  generalize (VInt a). induction x as [|[c b] x IH]; intros v; auto. cbn [map mpl_fold]. unfold item_value at 1 3.
  cbn [seq_back last fst snd]. unfold sum_items at 1. simpl at_c. destruct (mpl_plus v (VInt b)); auto.
Qed.

Lemma e_plus_good : good plus_exp_reading VInt n (ev e_plus).
Proof.
  apply (good_iff n Z (computing (numbers [43]) whole_total)); [exact plus_exp_iff|].
  assert (E : ev e_plus = transform (ev (PSequence [int_token; PRepeated (PSequence [e_token seq_front 43; int_token])])) sum_action)
    by (destruct n; reflexivity).
  rewrite E. apply (number_then_good cfg fits env n [43] (e_token seq_front 43) e_token_good _ _ _
    (PRepeated (PSequence [e_token seq_front 43; int_token])) (fun a w => sum_action (VSeq [VInt a; w]))).
  - intros s ps. unfold transform. rewrite (ev_seq2 cfg fits env n [43] (e_token seq_front 43) e_token_good). destruct (ev int_token s ps) as [v s1 ps1| | |] eqn:Ei; auto.
    destruct (ev (PRepeated (PSequence [e_token seq_front 43; int_token])) s1 ps1); auto.
    destruct (int_token_natural _ _ _ _ _ Ei) as (z & -> & _). auto.
  - intros a s l t ps P J L It F.
    assert (H := fold_numbers cfg fits env n [43] (e_token seq_front 43) e_token_good l s t ps It L).
    destruct (all_ints l) as [x|] eqn:A; auto. destruct H as (ps' & ->).
    assert (V : sum_action (VSeq [VInt a; VSeq (map item_value x)]) = option_map VInt (an_int (a + total x)))
      by (rewrite sum_action_folds, (all_ints_some _ _ A), fold_sum_items, A by auto; reflexivity).
    unfold whole_total. cbn [fst snd]. destruct (an_int (a + total x)); cbn [option_map] in *; eauto.
Qed.

(** *** at least one number *)

Lemma one_number_good : forall (p1 p : pfun),
  (forall s ps, p1 s ps = match ev int_token s ps with Accept _ _ _ => p s ps | o => o end) ->
  good list_sum_reading VInt n p -> good list_sum_reading1 VInt n p1.
Proof.
  intros p1 p E G s ps L. rewrite E. destruct (G s ps L) as (A & B & _ & _).
  destruct (number_good cfg fits env n s ps L) as (Na & Nb & Nc & Nd).
  assert (C : forall l t, l <> [] -> number_list l s t -> exists x s1, a_number x s s1 /\ (x = None -> sum_of l = None)).
  { intros l t Nl Hl. inversion Hl; subst; [congruence|]. exists x, s1. split; auto. intros ->. reflexivity. }
  splits.
  - intros z t (l & Nl & Hl & Ez). destruct (C _ _ Nl Hl) as (x & s1 & Hx & Hn). destruct x as [a|].
    + destruct (Na _ _ Hx) as (ps1 & ->). apply A. exists l. auto.
    + rewrite Hn in Ez by auto. discriminate.
  - intros t (l & Nl & Hl & Ez). destruct (C _ _ Nl Hl) as (x & s1 & Hx & Hn). destruct x as [a|].
    + destruct (Na _ _ Hx) as (ps1 & ->). apply (B t). exists l. auto.
    + rewrite (Nb _ Hx). auto.
  - intros N. destruct Nd as [(x & s1 & Hx)|Nd].
    + destruct (number_list_total (length s1) s1 ltac:(lia)) as (l & t & Hl).
      destruct (N (sum_of (x :: l)) t). exists (x :: l). splits; [discriminate | econstructor; eauto | reflexivity].
    + destruct (Nc Nd) as (m & pe & ->). eauto.
  - destruct Nd as [(x & s1 & Hx)|Nd].
    + left. destruct (number_list_total (length s1) s1 ltac:(lia)) as (l & t & Hl).
      exists (sum_of (x :: l)), t, (x :: l). splits; [discriminate | econstructor; eauto | reflexivity].
    + right. intros x t (l & Nl & Hl & _). destruct (C _ _ Nl Hl) as (y & s1 & Hy & _). exact (Nd _ _ Hy).
Qed.

Lemma better1_good : good list_sum_reading1 VInt n (ev better_sum_parser1).
Proof.
  apply (one_number_good _ (ev better_sum_parser)); [|exact better_good]. intros s ps. destruct n; reflexivity.
Qed.
Lemma better_r1_good : good list_sum_reading1 VInt n (ev better_sum_parser_r1).
Proof.
  apply (one_number_good _ (ev better_sum_parser_r)); [|exact better_r_good]. intros s ps. destruct n; reflexivity.
Qed.

(** *** the same outcome *)

Lemma same_outcome : forall A (R : reading A) W (p1 p2 : pfun), good R W n p1 -> good R W n p2 ->
  sound_accept p1 -> sound_accept p2 -> forall s ps, (length s < n)%nat ->
  p1 s ps = p2 s ps \/ ((forall x t, ~ R x s t) /\ rejects p1 s ps /\ rejects p2 s ps).
Proof.
  intros A R W p1 p2 G1 G2 S1 S2 s ps L.
  destruct (G1 s ps L) as (A1 & B1 & C1 & D1), (G2 s ps L) as (A2 & B2 & C2 & _). destruct D1 as [([x|] & t & H)|N].
  - left. destruct (A1 _ _ H) as (q1 & E1), (A2 _ _ H) as (q2 & E2). rewrite E1, E2.
    apply S1 in E1 as (w1 & -> & W1). apply S2 in E2 as (w2 & E & W2). apply app_inv_tail in E as <-.
    rewrite walk_iff in W1, W2. subst. reflexivity.
  - left. rewrite (B1 _ H), (B2 _ H). reflexivity.
  - right. exact (conj N (conj (C1 N) (C2 N))).
Qed.

Lemma manual_accepts : forall p, In p [sum_parser; better_sum_parser; better_sum_parser_r; better_sum_parser1;
    better_sum_parser_r1; sum_parser2; sum_parser3; sum_parser4; sum_parser5; e_plus] -> sound_accept (ev p).
Proof.
  intros p H. assert (E : ev p = eval cfg no_program n p).
  { simpl in H. repeat (destruct H as [<-|H]; [destruct n; reflexivity|]). destruct H. }
  rewrite E. apply eval_sound_accept; [intros k; unfold no_program; every_solve; auto|].
  simpl in H. repeat (destruct H as [<-|H]; [
    unfold sum_parser, better_sum_parser, better_sum_parser_r, better_sum_parser1, better_sum_parser_r1, sum_parser2,
      sum_parser3, sum_parser4, sum_parser5, e_plus, plus_int, int_plus, int_token, plus_token, e_token; every_solve; auto; fail|]).
  destruct H.
Qed.

Lemma list_sums_same : forall p1 p2, In p1 [sum_parser; better_sum_parser; better_sum_parser_r] ->
  In p2 [sum_parser; better_sum_parser; better_sum_parser_r] -> forall s ps, (length s < n)%nat -> ev p1 s ps = ev p2 s ps.
Proof.
  assert (G : forall p, In p [sum_parser; better_sum_parser; better_sum_parser_r] -> good list_sum_reading VInt n (ev p)).
  { intros p H. simpl in H. destruct H as [<-|[<-|[<-|[]]]]; [apply sum_parser_good | apply better_good | apply better_r_good]. }
  assert (S : forall p, In p [sum_parser; better_sum_parser; better_sum_parser_r] -> sound_accept (ev p)).
  { intros p H. apply manual_accepts. simpl in *. tauto. }
  intros p1 p2 H1 H2 s ps L.
  destruct (same_outcome _ _ _ _ _ (G _ H1) (G _ H2) (S _ H1) (S _ H2) s ps L) as [|(N & _)]; auto.
  destruct (number_list_total (length s) s ltac:(lia)) as (l & t & Hl). destruct (N (sum_of l) t). exists l. auto.
Qed.

Lemma plus_exp_none : forall s, (length s < n)%nat -> (forall x t, ~ plus_exp_reading x s t) -> not_starting_with digit_char s.
Proof.
  intros s L N. destruct s as [|c s]; simpl; auto. intros D. destruct (number_token no_program NoSigns IntOnly sum_op sum_op sum_op ltac:(discriminate) c s D) as (ds & rem & T).
  assert (Hx : a_number (an_int (decimal ds)) (c :: s) rem) by (exists ds; auto).
  pose proof (a_number_shrinks _ _ _ Hx) as S1.
  destruct (items_total cfg env n [43] a_number plus_token int_token (plus_good cfg fits env n) (number_good cfg fits env n)
    a_number_shrinks (length rem) rem ltac:(lia) ltac:(lia)) as (l & t & It).
  destruct (N (sum_of (an_int (decimal ds) :: map snd l)) t). do 3 eexists. eauto.
Qed.

Lemma e_plus_same : forall s ps, (length s < n)%nat -> ev e_plus s ps = ev sum_parser3 s ps.
Proof.
  intros s ps L. destruct (same_outcome _ _ _ _ _ e_plus_good sum3_good
    (manual_accepts e_plus ltac:(simpl; tauto)) (manual_accepts sum_parser3 ltac:(simpl; tauto)) s ps L) as [|(N & _)]; auto.
  apply plus_exp_none in N; auto. pose proof (no_number_rejects s ps N) as E.
  assert (E1 : ev e_plus = transform (ev (PSequence [int_token; PRepeated (PSequence [e_token seq_front 43; int_token])])) sum_action)
    by (destruct n; reflexivity).
  rewrite E1, ev_sum3. unfold transform, foldl_start_with_parser.
  rewrite (ev_seq2 cfg fits env n [43] (e_token seq_front 43) e_token_good), E. reflexivity.
Qed.

End Manual.

(** ** the grammar of the manual *)

Lemma manual_grammar : forall front act int_p, exists g,
  add_decls c11 300 (empty_grammar (literal "plus_exp"))
    [Import (literal "int_token") int_p; Rule ws_rule None; Rule (literal "plus_token ::= '+' ws") (Some front);
     Rule (literal "plus_exp ::= int_token (plus_token int_token)*") (Some act)] = Ok g
  /\ g_start g = literal "plus_exp"
  /\ forall n, instantiate g (7 + n) (GName (literal "plus_exp"))
    = Ok (PTransform (PSequence [int_p; PRepeated (PSequence [e_token front 43; int_p])]) act).
Proof.
  intros. eexists. split; [vm_compute; reflexivity|]. split; [reflexivity|].
  intros n. vm_compute. reflexivity.
Qed.

Lemma grammar_eq : forall cfg n start ds g e s ps, grammar_fits cfg -> (150 <= n)%nat ->
  (length start < 150)%nat -> short_decls ds = true ->
  add_decls c11 300 (empty_grammar start) ds = Ok g -> g_start g = start -> rebuild c11 300 start = Ok start ->
  (forall k, instantiate g (7 + k) (GName start) = Ok e) ->
  match add_decls cfg n (empty_grammar start) ds with
  | Ok g => grammar_parser cfg no_program n g s ps
  | Ill => Illformed
  | Deep => OutOfFuel
  end = eval cfg no_program n e s ps.
Proof.
  intros cfg n start ds g e s ps Fg L Ls Sh A G R I.
  assert (F : Forall (fun d => (2 * length (decl_text d) + 4 < n)%nat) ds).
  { apply Forall_forall. intros d H. unfold short_decls in Sh. rewrite forallb_forall in Sh.
    specialize (Sh d H). apply Nat.leb_le in Sh. lia. }
  rewrite (add_decls_any cfg n 300 ds _ _ Fg F A). unfold grammar_parser. rewrite G.
  rewrite (start_any cfg n 300 start start Fg) by (auto; lia).
  replace n with (7 + (n - 7))%nat at 1 by lia. rewrite I. reflexivity.
Qed.

Lemma plus_grammar_is : forall cfg n s ps, grammar_fits cfg -> (150 <= n)%nat ->
  plus_grammar cfg n s ps = eval cfg no_program n e_plus s ps.
Proof.
  intros cfg n s ps Fg L. destruct (manual_grammar seq_front sum_action int_token) as (g & A & G & I).
  unfold plus_grammar, plus_decls.
  apply (fun H1 H2 H3 => grammar_eq cfg n _ _ g _ s ps Fg L H1 H2 A G H3 I); [vm_compute; lia | reflexivity | reflexivity].
Qed.
Lemma plus_parser_is : forall cfg n s ps, grammar_fits cfg -> (150 <= n)%nat ->
  plus_parser cfg n s ps = entire_input cfg (eval cfg no_program n e_plus) end_of_input_expected s ps.
Proof.
  intros cfg n s ps Fg L. destruct (manual_grammar seq_front sum_action int_token) as (g & A & G & I).
  unfold plus_parser, plus_decls.
  apply (fun H1 H2 H3 => entire_grammar_eq cfg n _ _ g _ s ps Fg L H1 H2 A G H3 I); [vm_compute; lia | reflexivity | reflexivity].
Qed.
