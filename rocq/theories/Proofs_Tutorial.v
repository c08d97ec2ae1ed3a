(** Proofs about the parsers of the tutorial (C49). *)

From Coq Require Import ZArith List Bool Lia.
From Verif Require Import Base Util Combinators Variadic Parsers Deep Calculator Spec SpecDeep SpecTerm
  SpecType SpecCalc SpecTutorial SpecExamples Proofs_Pos Proofs_Fold Proofs_Variadic Proofs_Parsers Proofs_Parsers2
  Proofs_Deep Proofs_Final1 Proofs_Final2 Proofs_Final3 Proofs_Final5 Proofs_Term Proofs_Grammar
  Proofs_Calc Proofs_Calc2 Proofs_Examples.
Import ListNotations.
Open Scope Z_scope.

(** ** Values *)

Lemma an_int_is : forall z, an_int z = Some z /\ is_int z \/ an_int z = None /\ ~ is_int z.
Proof.
  intros z. unfold an_int, is_int. change (2 ^ 31) with 2147483648.
  destruct ((- (2147483648) <=? z) && (z <? 2147483648)) eqn:E; [left|right]; split; auto.
  - apply andb_true_iff in E as (A & B). lia.
  - intros H. assert (E' : (- (2147483648) <=? z) && (z <? 2147483648) = true)
      by (apply andb_true_iff; lia). congruence.
Qed.

Lemma int_constant_an : forall z, int_constant z = option_map VInt (an_int z).
Proof.
  intros z. destruct (an_int_is z) as [(-> & I)|(-> & I)];
    [apply int_constant_some | apply int_constant_none]; auto.
Qed.

Lemma eval_binary_op_ok : forall c a b, In c [43; 45; 42; 47] ->
  eval_binary_op (VInt a) c (VInt b) = option_map VInt (calculate c a b).
Proof.
  intros c a b H. unfold eval_binary_op, calculate.
  destruct H as [<-|[<-|[<-|[<-|[]]]]]; simpl Z.eqb; cbn iota;
    unfold mpl_plus, mpl_minus, mpl_times, mpl_divides, mpl_arith; cbn [as_int]; try apply int_constant_an.
  destruct (b =? 0); auto. apply int_constant_an.
Qed.

Definition known (ops : list char) : Prop := forall c, In c ops -> In c [43; 45; 42; 47].

Lemma binary_op_calculates : forall c a b, In c [43; 45; 42; 47] ->
  binary_op (VInt a) (VSeq [VChar c; VInt b]) = option_map VInt (calculate c a b).
Proof. intros c a b H. unfold binary_op. simpl at_c. cbn [as_int]. apply eval_binary_op_ok; auto. Qed.

Lemma reverse_binary_op_calculates : forall c a b, In c [43; 45; 42; 47] ->
  reverse_binary_op (VInt b) (VSeq [VInt a; VChar c]) = option_map VInt (calculate c a b).
Proof. intros c a b H. unfold reverse_binary_op. simpl at_c. cbn [as_int]. apply eval_binary_op_ok; auto. Qed.

(** ** Readings *)

Definition good {A : Type} (R : reading A) (V : A -> value) (n : nat) (p : pfun) : Prop :=
  forall s ps, (length s < n)%nat ->
  (forall a t, R (Some a) s t -> exists ps', p s ps = Accept (V a) t ps')
  /\ (forall t, R None s t -> p s ps = Illformed)
  /\ ((forall x t, ~ R x s t) -> exists m pe, p s ps = Reject m pe)
  /\ ((exists x t, R x s t) \/ (forall x t, ~ R x s t)).

Definition shrinks {A : Type} (R : reading A) : Prop := forall x s t, R x s t -> (length t < length s)%nat.

Lemma good_exact : forall A (R : reading A) V n p s ps, good R V n p -> (length s < n)%nat ->
  reads_exactly R V p s ps.
Proof.
  intros A R V n p s ps G L. destruct (G s ps L) as (G1 & G2 & G3 & G4). unfold reads_exactly.
  destruct G4 as [(x & t & H)|H].
  - destruct x as [a|].
    + destruct (G1 a t H) as (ps' & E). splits.
      * intros v u. split.
        -- intros (ps'' & E'). rewrite E in E'. injection E' as <- <- _. eauto.
        -- intros (b & -> & H'). apply G1; auto.
      * split; [congruence|]. intros (u & H'). apply G2 in H'. congruence.
      * split; [intros (m & pe & E'); congruence|]. intros N. destruct (N _ _ H).
      * congruence.
    + assert (E := G2 t H). splits.
      * intros v u. split; [intros (ps'' & E'); congruence|]. intros (b & -> & H').
        apply G1 in H' as (ps'' & E'). congruence.
      * split; eauto.
      * split; [intros (m & pe & E'); congruence|]. intros N. destruct (N _ _ H).
      * congruence.
  - destruct (G3 H) as (m & pe & E). splits.
    + intros v u. split; [intros (ps'' & E'); congruence|]. intros (b & -> & H'). destruct (H _ _ H').
    + split; [congruence|]. intros (u & H'). destruct (H _ _ H').
    + split; eauto.
    + congruence.
Qed.

Definition injective {A : Type} (V : A -> value) : Prop := forall a b, V a = V b -> a = b.
Lemma VInt_injective : injective VInt.
Proof. intros a b H. congruence. Qed.

(** two readings of a text have the same value and, if there is one, the same end *)
Lemma good_functional : forall A (R : reading A) V n p x y s t u, good R V n p -> injective V ->
  (length s < n)%nat -> R x s t -> R y s u -> x = y /\ (x <> None -> t = u).
Proof.
  intros A R V n p x y s t u G I L H1 H2. destruct (G s (mkpos 1 1 0) L) as (G1 & G2 & _).
  destruct x as [a|], y as [b|].
  - destruct (G1 a t H1) as (p1 & E1), (G1 b u H2) as (p2 & E2). rewrite E1 in E2.
    injection E2 as E2 -> _. apply I in E2. subst. auto.
  - destruct (G1 a t H1) as (p1 & E1). rewrite (G2 u H2) in E1. discriminate.
  - destruct (G1 b u H2) as (p1 & E1). rewrite (G2 t H1) in E1. discriminate.
  - split; auto. congruence.
Qed.

(** *** operators *)

Lemma op_at_head : forall ops c s t, op_at ops c s t -> exists r, s = c :: r.
Proof. intros ops c s t (_ & T). apply op_head in T as (r & ->). eauto. Qed.

Lemma op_at_shrinks : forall ops c s t, op_at ops c s t -> (length t < length s)%nat.
Proof. intros ops c s t (_ & T). apply tokens_length in T. simpl in T. slia. Qed.

Lemma op_at_cases : forall ops s, (forall c, In c ops -> op_char c) ->
  (exists c t, op_at ops c s t) \/ ((forall c t, ~ op_at ops c s t) /\ not_starting_with (fun c => In c ops) s).
Proof.
  intros ops s K. destruct s as [|c r].
  - right. split; [|exact Logic.I]. intros c t H. apply op_at_head in H as (r & H). discriminate.
  - destruct (in_dec Z.eq_dec c ops) as [Y|N].
    + left. destruct (take_while space_char space_dec r) as (w & t & -> & Fw & Nw).
      exists c, t. split; auto. apply (tokens_one (COp c) [c] w t); auto.
      * constructor. auto.
      * intros (ds & E). discriminate.
    + right. split; auto. intros c' t H. destruct (op_at_head _ _ _ _ H) as (r' & E).
      injection E as -> _. apply N. apply H.
Qed.

Lemma op_at_unique : forall ops c d s t u, op_at ops c s t -> op_at ops d s u -> c = d /\ t = u.
Proof.
  intros ops c d s t u (_ & T) (_ & U).
  apply tokens_one_inv in T as (l & w & -> & L & Fw & Nw & _).
  apply tokens_one_inv in U as (l' & w' & E & L' & Fw' & Nw' & _).
  inversion L; subst. inversion L'; subst. injection E as -> E. split; auto.
  destruct (split_unique space_char w t w' u E); auto.
Qed.

(** an operator or none *)
Definition op_good (ops : list char) (n : nat) (q : pfun) : Prop := forall s ps, (length s < n)%nat ->
  (forall c t, op_at ops c s t -> exists ps', q s ps = Accept (VChar c) t ps')
  /\ ((forall c t, ~ op_at ops c s t) -> exists m pe, q s ps = Reject m pe)
  /\ ((exists c t, op_at ops c s t) \/ (forall c t, ~ op_at ops c s t)).

(** *** numbers *)

Lemma a_number_cases : forall s,
  (exists x t, a_number x s t) \/ ((forall x t, ~ a_number x s t) /\ not_starting_with digit_char s).
Proof.
  intros s. destruct (leading_number_cases s) as [N|(ds & w & t & -> & (Ne & F) & Fw & Nd & Ns)].
  - right. split; auto. intros x t (ds & T & _). apply num_head in T as (c & r & -> & D). auto.
  - left. exists (an_int (decimal ds)), t, ds. split; auto.
    apply (tokens_one (CNum ds) ds w t); auto.
    + constructor; auto.
    + intros _ ->. exact Nd.
Qed.

Lemma a_number_shrinks : shrinks a_number.
Proof. intros x s t (ds & T & _). apply tokens_length in T. simpl in T. slia. Qed.

Lemma a_number_nonneg : forall a s t, a_number (Some a) s t -> 0 <= a.
Proof.
  intros a s t (ds & T & E). apply tokens_one_inv in T as (l & w & _ & L & _). inversion L; subst.
  destruct (an_int_is (decimal l)) as [(E2 & _)|(E2 & _)]; rewrite E2 in E; [|discriminate].
  injection E as ->. apply decimal_nonneg; auto.
Qed.

Lemma a_number_unique : forall x y s t u, a_number x s t -> a_number y s u -> x = y /\ t = u.
Proof.
  intros x y s t u (ds & T & ->) (ds' & U & ->).
  assert (H : forall ds t, tokens s [CNum ds] t -> exists w, leading_number ds w t s).
  { clear. intros ds t T. apply tokens_one_inv in T as (l & w & -> & L & Fw & Nw & Nd). inversion L; subst.
    exists w. unfold leading_number, number. splits; auto.
    destruct w as [|c w]; [apply Nd; auto; eexists; eauto|]. simpl. inversion Fw; subst.
    unfold space_char, digit_char in *. lia. }
  apply H in T as (w & T). apply H in U as (w' & U).
  destruct (leading_number_unique _ _ _ _ _ _ _ T U) as (-> & _ & ->). auto.
Qed.

Section Tutorial.
Variable cfg : config.
Hypothesis fits : calc_fits cfg.
Variable env : program.
Variable n : nat.
Local Notation ev := (eval cfg env n).

Lemma number_good : good a_number VInt n (ev int_token).
Proof.
  intros s ps L.
  assert (C : forall x t, a_number x s t ->
    match x with Some a => exists ps', ev int_token s ps = Accept (VInt a) t ps' | None => ev int_token s ps = Illformed end).
  { intros x t (ds & T & ->). destruct (num_token_complete cfg fits env n ds s ps t T L) as [(z & ps' & M & E)|(M & E)].
    - inversion M; subst. destruct (an_int_is (decimal ds)) as [(-> & _)|(_ & N)]; [eauto|contradiction].
    - destruct (an_int_is (decimal ds)) as [(_ & N)|(-> & _)]; auto.
      destruct (M (decimal ds)). constructor. auto. }
  splits.
  - intros a t H. exact (C _ _ H).
  - intros t H. exact (C _ _ H).
  - intros N. destruct (a_number_cases s) as [(x & t & H)|(_ & H)]; [destruct (N _ _ H)|].
    do 2 eexists. apply (num_token_rejects cfg fits); auto.
  - destruct (a_number_cases s) as [(x & t & H)|(H & _)]; eauto.
Qed.

Lemma one_op_good : forall c, op_char c -> op_good [c] n (ev (lit_token c)).
Proof.
  intros c O s ps L. assert (K : forall d, In d [c] -> op_char d) by (intros d [<-|[]]; auto). splits.
  - intros d t ([<-|[]] & T). apply (lit_token_complete cfg fits); auto. lia.
  - intros N. destruct (op_at_cases [c] s K) as [(d & t & H)|(_ & H)]; [destruct (N _ _ H)|].
    do 2 eexists. apply (lit_token_rejects cfg fits). destruct s as [|e s]; auto. simpl in *. intros ->. auto.
  - destruct (op_at_cases [c] s K) as [(d & t & H)|(H & _)]; eauto.
Qed.

(** a choice of different operators *)
Lemma choice_op_good : forall ops, ops <> [] -> (length ops <= 3)%nat -> (forall c, In c ops -> op_char c) ->
  NoDup ops -> op_good ops n (ev (POneOf (map lit_token ops))).
Proof.
  intros ops Ne Le K D s ps L.
  assert (E : ev (POneOf (map lit_token ops)) = one_of cfg (map (fun c => ev (lit_token c)) ops)).
  { transitivity (one_of cfg (map ev (map lit_token ops))); [destruct n; reflexivity|]. rewrite map_map. reflexivity. }
  assert (F : fits_one_of cfg (length (map (fun c => ev (lit_token c)) ops)))
    by (rewrite map_length; apply (cfo cfg fits); auto).
  rewrite E. splits.
  - intros c t (H & T). destruct (lit_token_complete cfg fits env n c s ps t T) as (ps' & A); [lia|].
    exists ps'. apply one_of_cfg_accept; auto.
    destruct (op_head _ _ _ _ T) as (r & ->).
    assert (Rj : forall d, d <> c -> rejects (ev (lit_token d)) (c :: r) ps).
    { intros d N. do 2 eexists. apply (lit_token_rejects cfg fits). simpl. congruence. }
    apply in_split in H as (l1 & l2 & ->). split.
    + intros q Q. apply in_map_iff in Q as (d & <- & Q). destruct (Z.eq_dec d c) as [->|N].
      * left. do 3 eexists; eauto.
      * right. apply Rj; auto.
    + exists (map (fun c => ev (lit_token c)) l1), (ev (lit_token c)), (map (fun c => ev (lit_token c)) l2).
      rewrite map_app. splits; auto.
      * intros q Q. apply in_map_iff in Q as (d & <- & Q). apply Rj. intros ->.
        apply NoDup_remove_2 in D. apply D. apply in_or_app; auto.
      * do 3 eexists; eauto.
  - intros N. destruct (op_at_cases ops s K) as [(d & t & H)|(_ & H)]; [destruct (N _ _ H)|].
    destruct (reject_at_start cfg fits (map (fun c => ev (lit_token c)) ops) s ps) as (m & Em).
    + destruct ops; [congruence|discriminate].
    + rewrite map_length; auto.
    + intros p P. apply in_map_iff in P as (d & <- & P). eexists. apply (lit_token_rejects cfg fits).
      destruct s as [|e s]; auto. simpl in *. intros ->. auto.
    + eauto.
  - destruct (op_at_cases ops s K) as [(d & t & H)|(H & _)]; eauto.
Qed.

(** *** chains *)

Section Items.
Variable ops : list char.
Variable R : reading Z.
Variables q r : pexpr.
Hypothesis Hq : op_good ops n (ev q).
Hypothesis Hr : good R VInt n (ev r).
Hypothesis SR : shrinks R.

Lemma items_total : forall k s, (length s <= k)%nat -> (length s < n)%nat -> exists l t, items ops R l s t.
Proof.
  induction k as [|k IH]; intros s Lk L.
  - destruct s; [|simpl in Lk; lia]. exists [], []. constructor. intros c s1 x t H.
    apply op_at_head in H as (? & H). discriminate.
  - destruct (Hq s start L) as (_ & _ & [(c & s1 & O)|N]).
    + assert (S1 := op_at_shrinks _ _ _ _ O).
      destruct (Hr s1 start ltac:(lia)) as (_ & _ & _ & [(x & s2 & H)|N]).
      * assert (S2 := SR _ _ _ H). destruct (IH s2) as (l & t & It); [lia..|].
        exists ((c, x) :: l), t. econstructor; eauto.
      * exists [], s. constructor. intros d u x t O'. destruct (op_at_unique _ _ _ _ _ _ O O') as (-> & ->). auto.
    + exists [], s. constructor. intros d u x t O'. destruct (N _ _ O').
Qed.

Lemma items_shrink : forall l s t, items ops R l s t -> (length t <= length s)%nat.
Proof.
  induction 1; [lia|]. apply op_at_shrinks in H. apply SR in H0. lia.
Qed.

Lemma items_ops : forall l s t, items ops R l s t -> Forall (fun i => In (fst i) ops) l.
Proof. induction 1; constructor; auto. apply H. Qed.

Lemma items_nonneg : (forall a s t, R (Some a) s t -> 0 <= a) -> forall l s t, items ops R l s t ->
  Forall (fun i => match snd i with Some a => 0 <= a | None => True end) l.
Proof. intros P. induction 1; constructor; auto. destruct x; simpl; eauto. Qed.

Definition fold_items (f : mf2) (st : option value) (l : list (char * option Z)) : option value :=
  fold_left (fun st i => match st, snd i with
                         | Some v, Some b => f v (VSeq [VChar (fst i); VInt b])
                         | _, _ => None
                         end) l st.

Lemma fold_items_none : forall f l, fold_items f None l = None.
Proof. induction l; auto. Qed.

Lemma foldl_items : forall f l s t, items ops R l s t -> (length s < n)%nat -> forall j st ps, (length s < j)%nat ->
  match fold_items f st l with
  | Some v => exists ps', foldl j (item cfg env n q r) st f s ps = Accept v t ps'
  | None => foldl j (item cfg env n q r) st f s ps = Illformed
  end.
Proof.
  intros f l s t H. induction H as [s N | c x l s s1 s2 t O H It IH]; intros L j st ps Lj;
    (destruct j as [|j]; [lia|]); cbn [foldl]; rewrite (item_eq cfg fits).
  - simpl. destruct (Hq s ps L) as (Q1 & Q2 & [(c & s1 & O)|NO]).
    + destruct (Q1 _ _ O) as (ps1 & ->). assert (S1 := op_at_shrinks _ _ _ _ O).
      destruct (Hr s1 ps1 ltac:(lia)) as (_ & _ & G3 & _).
      destruct (G3 (fun x t => N c s1 x t O)) as (m & pe & ->). destruct st; eauto.
    + destruct (Q2 NO) as (m & pe & ->). destruct st; eauto.
  - destruct (Hq s ps L) as (Q1 & _). destruct (Q1 _ _ O) as (ps1 & ->).
    assert (S1 := op_at_shrinks _ _ _ _ O). assert (S2 := SR _ _ _ H).
    destruct (Hr s1 ps1 ltac:(lia)) as (G1 & G2 & _). unfold fold_items. cbn [fold_left fst snd].
    destruct x as [b|].
    + destruct (G1 _ _ H) as (ps2 & ->). destruct st as [v|].
      * apply IH; lia.
      * change (match fold_items f None l with Some v => exists ps', Illformed = Accept v t ps' | None => Illformed = Illformed end).
        rewrite fold_items_none. reflexivity.
    + rewrite (G2 _ H).
      replace (match st with Some v => @None value | None => None end) with (@None value) by (destruct st; auto).
      change (match fold_items f None l with Some v => exists ps', Illformed = Accept v t ps' | None => Illformed = Illformed end).
      rewrite fold_items_none. reflexivity.
Qed.

Lemma from_left_none : forall l, from_left None l = None.
Proof. induction l; auto. Qed.

Lemma fold_binary_op : forall l x, Forall (fun i => In (fst i) [43; 45; 42; 47]) l ->
  fold_items binary_op (option_map VInt x) l = option_map VInt (from_left x l).
Proof.
  induction l as [|[c y] l IH]; intros x F; auto. inversion F; subst. simpl in H1.
  unfold fold_items, from_left. cbn [fold_left fst snd].
  fold (fold_items binary_op). fold (from_left). destruct x as [a|], y as [b|]; cbn [option_map both];
    try (change (fold_items binary_op None l = option_map VInt (from_left None l));
         rewrite fold_items_none, from_left_none; reflexivity).
  rewrite binary_op_calculates by auto. apply IH; auto.
Qed.

Lemma left_chain_good : known ops -> good (left_chain ops R) VInt n (ev (chain false q r binary_op)).
Proof.
  intros Kn s ps L. rewrite (ev_chain cfg). cbn [gfold].
  destruct (Hr s ps L) as (G1 & G2 & G3 & G4).
  assert (C : forall x t, left_chain ops R x s t ->
    match option_map VInt x with
    | Some v => exists ps', match ev r s ps with Accept r0 s' ps' => foldl n (item cfg env n q r) (type_of r0) binary_op s' ps' | o => o end
                       = Accept v t ps'
    | None => match ev r s ps with Accept r0 s' ps' => foldl n (item cfg env n q r) (type_of r0) binary_op s' ps' | o => o end
                       = Illformed
    end).
  { intros x t (x0 & s1 & l & H & It & ->). assert (S1 := SR _ _ _ H). destruct x0 as [a|].
    - destruct (G1 _ _ H) as (ps1 & ->).
      rewrite <- (fold_binary_op l (Some a)).
      + apply (foldl_items binary_op l s1 t); auto; lia.
      + eapply Forall_impl; [|eapply items_ops; eauto]. intros i. apply Kn.
    - rewrite (G2 _ H). rewrite from_left_none. reflexivity. }
  splits.
  - intros a t H. exact (C _ _ H).
  - intros t H. exact (C _ _ H).
  - intros N. destruct G3 as (m & pe & E).
    + intros x t H. destruct (items_total (length t) t) as (l & u & It); auto.
      * apply SR in H. lia.
      * apply (N (from_left x l) u). exists x, t, l. auto.
    + rewrite E. eauto.
  - destruct G4 as [(x & t & H)|N].
    + left. destruct (items_total (length t) t) as (l & u & It); auto.
      * apply SR in H. lia.
      * exists (from_left x l), u, x, t, l. auto.
    + right. intros x t (x0 & s1 & l & H & _). destruct (N _ _ H).
Qed.

Lemma left_chain_shrinks : shrinks (left_chain ops R).
Proof. intros x s t (x0 & s1 & l & H & It & _). apply SR in H. apply items_shrink in It. lia. Qed.

End Items.

(** *** to the right *)

Section Right.
Variable ops : list char.
Variable q : pexpr.
Hypothesis Hq : op_good ops n (ev q).
Hypothesis Kn : known ops.

Definition right_item : pfun := sequence cfg [ev int_token; ev q].

Lemma right_item_eq : forall s ps, right_item s ps =
  match ev int_token s ps with
  | Accept v1 s1 ps1 => match ev q s1 ps1 with Accept v2 s2 ps2 => Accept (VSeq [v1; v2]) s2 ps2 | o => o end
  | o => o
  end.
Proof.
  intros. unfold right_item. rewrite sequence_cfg; [| apply (cfs cfg fits); simpl; lia | discriminate].
  cbn [sequence_11]. unfold transform, return_.
  destruct (ev int_token s ps) as [v1 s1 ps1 | | | ]; auto. destruct (ev q s1 ps1); auto.
Qed.

Lemma right_chain_shrinks : shrinks (right_chain ops).
Proof.
  intros x s t H. induction H; try (eapply a_number_shrinks; eauto; fail).
  apply a_number_shrinks in H. apply op_at_shrinks in H0. lia.
Qed.

Lemma right_good_at : forall k s, (length s <= k)%nat -> (length s < n)%nat -> forall j ps, (length s < j)%nat ->
  let o := foldr_start_with_parser j right_item (ev int_token) reverse_binary_op s ps in
  (forall a t, right_chain ops (Some a) s t -> exists ps', o = Accept (VInt a) t ps')
  /\ (forall t, right_chain ops None s t -> o = Illformed)
  /\ ((forall x t, ~ right_chain ops x s t) -> exists m pe, o = Reject m pe)
  /\ ((exists x t, right_chain ops x s t) \/ (forall x t, ~ right_chain ops x s t)).
Proof.
  induction k as [k IH] using lt_wf_ind; intros s Lk L j ps Lj o.
  destruct j as [|j]; [lia|]. subst o. cbn [foldr_start_with_parser]. rewrite right_item_eq.
  destruct (number_good s ps L) as (G1 & G2 & G3 & [(x & s1 & H)|N]).
  - assert (S1 := a_number_shrinks _ _ _ H). destruct x as [a|].
    + destruct (G1 _ _ H) as (ps1 & Ea). rewrite Ea.
      destruct (Hq s1 ps1 ltac:(lia)) as (Q1 & Q2 & [(c & s2 & O)|NO]).
      * destruct (Q1 _ _ O) as (ps2 & ->). assert (S2 := op_at_shrinks _ _ _ _ O).
        assert (Kc : In c [43; 45; 42; 47]) by (apply Kn; apply O).
        destruct (IH (length s2) ltac:(lia) s2 ltac:(lia) ltac:(lia) j ps2 ltac:(lia)) as (I1 & I2 & I3 & I4).
        assert (Inv : forall y t, right_chain ops y s t -> exists b, right_chain ops b s2 t /\ y = both (calculate c) (Some a) b).
        { intros y t Hy. inversion Hy; subst.
          - destruct (a_number_unique _ _ _ _ _ H H0) as (<- & <-). destruct (H1 _ _ O).
          - destruct (a_number_unique _ _ _ _ _ H H0) as (<- & <-).
            destruct (op_at_unique _ _ _ _ _ _ O H1) as (<- & <-). eauto.
          - destruct (a_number_unique _ _ _ _ _ H H0) as (E & _). discriminate. }
        splits.
        -- intros z t Hz. destruct (Inv _ _ Hz) as ([b|] & Hb & E); [|discriminate].
           destruct (I1 _ _ Hb) as (ps3 & ->). rewrite reverse_binary_op_calculates by auto.
           simpl in E. rewrite <- E. simpl. eauto.
        -- intros t Hz. destruct (Inv _ _ Hz) as ([b|] & Hb & E).
           ++ destruct (I1 _ _ Hb) as (ps3 & ->). rewrite reverse_binary_op_calculates by auto.
              simpl in E. rewrite <- E. reflexivity.
           ++ rewrite (I2 _ Hb). reflexivity.
        -- intros N. destruct I3 as (m & pe & ->); [|eauto].
           intros b t Hb. apply (N (both (calculate c) (Some a) b) t). eapply rc_more; eauto.
        -- destruct I4 as [(b & t & Hb)|NN].
           ++ left. do 2 eexists. eapply rc_more; eauto.
           ++ right. intros y t Hy. destruct (Inv _ _ Hy) as (b & Hb & _). destruct (NN _ _ Hb).
      * destruct (Q2 NO) as (m & pe & ->).
        assert (Inv : forall y t, right_chain ops y s t -> y = Some a /\ t = s1).
        { intros y t Hy. inversion Hy; subst.
          - destruct (a_number_unique _ _ _ _ _ H H0) as (<- & <-). auto.
          - destruct (a_number_unique _ _ _ _ _ H H0) as (<- & <-). destruct (NO _ _ H1).
          - destruct (a_number_unique _ _ _ _ _ H H0) as (E & _). discriminate. }
        splits.
        -- intros z t Hz. apply Inv in Hz as (E & ->). injection E as ->. eauto.
        -- intros t Hz. apply Inv in Hz as (E & _). discriminate.
        -- intros N. destruct (N (Some a) s1). apply rc_last; auto.
        -- left. do 2 eexists. apply rc_last; eauto.
    + rewrite (G2 _ H). splits; auto.
      * intros z t Hz. exfalso. inversion Hz; subst.
        -- destruct (a_number_unique _ _ _ _ _ H H0) as (E & _). discriminate.
        -- destruct (a_number_unique _ _ _ _ _ H H1) as (<- & _). discriminate.
      * intros N. destruct (N None s1). apply rc_large; auto.
      * left. do 2 eexists. apply rc_large; eauto.
  - destruct (G3 N) as (m & pe & Er). rewrite Er.
    assert (NN : forall x t, ~ right_chain ops x s t).
    { intros x t H. inversion H; subst; eapply N; eauto. }
    splits; eauto; intros; exfalso; eapply NN; eauto.
Qed.

Lemma right_chain_good : good (right_chain ops) VInt n
  (ev (PFoldrStartWithParser (PSequence [int_token; q]) int_token reverse_binary_op)).
Proof.
  intros s ps L.
  assert (E : ev (PFoldrStartWithParser (PSequence [int_token; q]) int_token reverse_binary_op)
    = foldr_start_with_parser n right_item (ev int_token) reverse_binary_op) by (unfold right_item; destruct n; reflexivity).
  rewrite E. apply (right_good_at (length s)); auto.
Qed.

End Right.

(** *** minus signs, brackets *)

Section Negated.
Variable R : reading Z.
Variable r : pexpr.
Hypothesis Hr : good R VInt n (ev r).
Hypothesis SR : shrinks R.

Lemma minus_good : op_good [45] n (ev minus_token).
Proof. apply (one_op_good 45). unfold op_char. simpl. auto. Qed.

Lemma negated_shrinks : shrinks (negated R).
Proof. intros x s t H. induction H; [eauto|]. apply op_at_shrinks in H. lia. Qed.

Lemma only_minus : forall c s u, op_at [45] c s u -> c = 45.
Proof. intros c s u ([<-|[]] & _). reflexivity. Qed.

Lemma negated_good_at : forall k s, (length s <= k)%nat -> (length s < n)%nat -> forall j ps, (length s < j)%nat ->
  let o := foldr_start_with_parser j (ev minus_token) (ev r) negate_first s ps in
  (forall a t, negated R (Some a) s t -> exists ps', o = Accept (VInt a) t ps')
  /\ (forall t, negated R None s t -> o = Illformed)
  /\ ((forall x t, ~ negated R x s t) -> exists m pe, o = Reject m pe)
  /\ ((exists x t, negated R x s t) \/ (forall x t, ~ negated R x s t)).
Proof.
  induction k as [k IH] using lt_wf_ind; intros s Lk L j ps Lj o.
  destruct j as [|j]; [lia|]. subst o. cbn [foldr_start_with_parser].
  destruct (minus_good s ps L) as (Q1 & Q2 & [(c & s1 & O)|NO]).
  - assert (c = 45) by (eapply only_minus; eauto). subst c.
    destruct (Q1 _ _ O) as (ps1 & ->). assert (S1 := op_at_shrinks _ _ _ _ O).
    destruct (IH (length s1) ltac:(lia) s1 ltac:(lia) ltac:(lia) j ps1 ltac:(lia)) as (I1 & I2 & I3 & I4).
    assert (Inv : forall y t, negated R y s t -> exists x, negated R x s1 t /\ y = opposite x).
    { intros y t Hy. inversion Hy; subst.
      - destruct (H _ O).
      - destruct (op_at_unique _ _ _ _ _ _ O H) as (_ & <-). eauto. }
    assert (Nf : forall b, negate_first (VInt b) (VChar 45) = option_map VInt (opposite (Some b))).
    { intros b. unfold negate_first, mpl_negate. cbn [as_int opposite]. apply int_constant_an. }
    splits.
    + intros a t Hz. destruct (Inv _ _ Hz) as ([b|] & Hb & E); [|discriminate].
      destruct (I1 _ _ Hb) as (ps2 & ->). rewrite Nf, <- E. simpl. eauto.
    + intros t Hz. destruct (Inv _ _ Hz) as ([b|] & Hb & E).
      * destruct (I1 _ _ Hb) as (ps2 & ->). rewrite Nf, <- E. reflexivity.
      * rewrite (I2 _ Hb). reflexivity.
    + intros N. destruct I3 as (m & pe & ->); [|eauto].
      intros b t Hb. apply (N (opposite b) t). eapply ng_minus; eauto.
    + destruct I4 as [(b & t & Hb)|NN].
      * left. do 2 eexists. eapply ng_minus; eauto.
      * right. intros y t Hy. destruct (Inv _ _ Hy) as (b & Hb & _). destruct (NN _ _ Hb).
  - destruct (Q2 NO) as (m & pe & ->). destruct (Hr s ps L) as (G1 & G2 & G3 & G4).
    assert (Inv : forall y t, negated R y s t <-> R y s t).
    { intros y t. split.
      - intros Hy. inversion Hy; subst; auto. destruct (NO _ _ H).
      - intros H. apply ng_plain; auto. }
    splits.
    + intros a t H. apply G1. apply Inv; auto.
    + intros t H. apply (G2 t). apply Inv; auto.
    + intros N. apply G3. intros x t H. apply (N x t). apply Inv; auto.
    + destruct G4 as [(x & t & H)|N]; [left|right].
      * exists x, t. apply Inv; auto.
      * intros x t H. apply (N x t). apply Inv; auto.
Qed.

Lemma negated_good : good (negated R) VInt n (ev (PFoldrStartWithParser minus_token r negate_first)).
Proof.
  intros s ps L.
  assert (E : ev (PFoldrStartWithParser minus_token r negate_first)
    = foldr_start_with_parser n (ev minus_token) (ev r) negate_first) by (destruct n; reflexivity).
  rewrite E. apply (negated_good_at (length s)); auto.
Qed.

Lemma bracketed_shrinks : shrinks (bracketed R).
Proof.
  intros x s t H. inversion H; subst.
  - apply op_at_shrinks in H0, H2. apply SR in H1. lia.
  - apply op_at_shrinks in H0. apply SR in H1. lia.
Qed.

Lemma bracketed_good : good (bracketed R) VInt n (ev (PMiddleOf open_paren_token r close_paren_token)).
Proof.
  intros s ps L.
  assert (E : ev (PMiddleOf open_paren_token r close_paren_token)
    = middle_of cfg (ev (lit_token 40)) (ev r) (ev (lit_token 41))) by (destruct n; reflexivity).
  rewrite E, middle_of_spec by (apply (cfs cfg fits); lia). clear E.
  assert (O40 := one_op_good 40 ltac:(unfold op_char; simpl; auto 9) s ps L).
  destruct O40 as (Q1 & Q2 & [(c & s1 & O)|NO]).
  - assert (c = 40) by (destruct O as ([<-|[]] & _); auto). subst c.
    destruct (Q1 _ _ O) as (ps1 & ->). assert (S1 := op_at_shrinks _ _ _ _ O).
    destruct (Hr s1 ps1 ltac:(lia)) as (G1 & G2 & G3 & [(x & s2 & H)|N]).
    + assert (S2 := SR _ _ _ H).
      assert (Fu : forall y u, R y s1 u -> x = y /\ (x <> None -> s2 = u)).
      { intros y u Hy. apply (good_functional Z R VInt n (ev r) x y s1 s2 u); auto; [exact VInt_injective | lia]. }
      destruct x as [a|].
      * destruct (G1 _ _ H) as (ps2 & ->).
        assert (O41 := one_op_good 41 ltac:(unfold op_char; simpl; auto 9) s2 ps2 ltac:(lia)).
        destruct O41 as (P1 & P2 & [(c & t & O')|NO]).
        -- assert (c = 41) by (destruct O' as ([<-|[]] & _); auto). subst c.
           destruct (P1 _ _ O') as (ps3 & ->).
           assert (Inv : forall y u, bracketed R y s u -> y = Some a /\ u = t).
           { intros y u Hy. inversion Hy as [z s0 s1' s2' t' B1 B2 B3 | s0 s1' t' B1 B2]; subst.
             - destruct (op_at_unique _ _ _ _ _ _ O B1) as (_ & <-). destruct (Fu _ _ B2) as (E & E2).
               rewrite <- E2 in B3 by discriminate. destruct (op_at_unique _ _ _ _ _ _ O' B3) as (_ & <-). auto.
             - destruct (op_at_unique _ _ _ _ _ _ O B1) as (_ & <-). destruct (Fu _ _ B2) as (E & _). discriminate. }
           splits.
           ++ intros b u Hb. apply Inv in Hb as (E & ->). injection E as ->. eauto.
           ++ intros u Hb. apply Inv in Hb as (E & _). discriminate.
           ++ intros N. destruct (N (Some a) t). eapply br_closed; eauto.
           ++ left. exists (Some a), t. eapply br_closed; eauto.
        -- destruct (P2 NO) as (m & pe & ->).
           assert (Inv : forall y u, ~ bracketed R y s u).
           { intros y u Hy. inversion Hy as [z s0 s1' s2' t' B1 B2 B3 | s0 s1' t' B1 B2]; subst.
             - destruct (op_at_unique _ _ _ _ _ _ O B1) as (_ & <-). destruct (Fu _ _ B2) as (E & E2).
               rewrite <- E2 in B3 by discriminate. destruct (NO _ _ B3).
             - destruct (op_at_unique _ _ _ _ _ _ O B1) as (_ & <-). destruct (Fu _ _ B2) as (E & _). discriminate. }
           splits; eauto; intros; exfalso; eapply Inv; eauto.
      * rewrite (G2 _ H).
        assert (Inv : forall y u, bracketed R y s u -> y = None).
        { intros y u Hy. inversion Hy as [z s0 s1' s2' t' B1 B2 B3 | s0 s1' t' B1 B2]; subst; auto.
          destruct (op_at_unique _ _ _ _ _ _ O B1) as (_ & <-). destruct (Fu _ _ B2) as (E & E2). discriminate. }
        splits; auto.
        -- intros b u Hb. apply Inv in Hb. discriminate.
        -- intros N. destruct (N None s2). eapply br_none; eauto.
        -- left. exists None, s2. eapply br_none; eauto.
    + destruct (G3 N) as (m & pe & ->).
      assert (Inv : forall y u, ~ bracketed R y s u).
      { intros y u Hy. inversion Hy as [z s0 s1' s2' t' B1 B2 B3 | s0 s1' t' B1 B2]; subst;
          destruct (op_at_unique _ _ _ _ _ _ O B1) as (_ & <-); eapply N; eauto. }
      splits; eauto; intros; exfalso; eapply Inv; eauto.
  - destruct (Q2 NO) as (m & pe & ->).
    assert (Inv : forall y u, ~ bracketed R y s u).
    { intros y u Hy. inversion Hy as [z s0 s1' s2' t' B1 B2 B3 | s0 s1' t' B1 B2]; subst; eapply NO; eauto. }
    splits; eauto; intros; exfalso; eapply Inv; eauto.
Qed.

(** a number or something in brackets *)
Lemma primary_good : good (first_or_second a_number (bracketed R)) VInt n
  (ev (POneOf [int_token; PMiddleOf open_paren_token r close_paren_token])).
Proof.
  intros s ps L.
  set (p1 := ev int_token). set (p2 := ev (PMiddleOf open_paren_token r close_paren_token)).
  assert (E : ev (POneOf [int_token; PMiddleOf open_paren_token r close_paren_token]) = one_of cfg [p1; p2])
    by (unfold p1, p2; destruct n; reflexivity).
  rewrite E. clear E.
  destruct (number_good s ps L) as (G1 & G2 & G3 & G4). destruct (bracketed_good s ps L) as (B1 & B2 & B3 & B4).
  fold p1 in G1, G2, G3. fold p2 in B1, B2, B3.
  assert (F2 : fits_one_of cfg (length [p1; p2])) by (apply (cfo cfg fits); simpl; lia).
  assert (X : forall x t y u, a_number x s t -> ~ bracketed R y s u).
  { intros x t y u (ds & T & _) B. apply num_head in T as (c & w & -> & D).
    assert (H : exists s1, op_at [40] 40 (c :: w) s1) by (inversion B; subst; eauto).
    destruct H as (s1 & H). apply op_at_head in H as (w' & H). injection H as -> _. unfold digit_char in D. lia. }
  destruct G4 as [(x & t & H)|N1].
  - assert (Rj : rejects p2 s ps) by (apply B3; intros y u; eapply X; eauto).
    assert (Inv : forall y u, first_or_second a_number (bracketed R) y s u -> a_number y s u).
    { intros y u [A|A]; auto. destruct (X _ _ _ _ H A). }
    splits.
    + intros a u Ha. apply Inv in Ha. destruct (G1 _ _ Ha) as (ps1 & E). exists ps1.
      apply one_of_cfg_accept; auto. rewrite first_accepting_cons. left. splits; auto.
      * do 3 eexists; eauto.
      * intros q [<-|[]]. right. auto.
    + intros u Ha. apply Inv in Ha. assert (E := G2 _ Ha). apply one_of_cfg_unfinished; auto.
      exists [], p1, [p2]. splits; auto. intros q [].
    + intros N. destruct (N x t). left. auto.
    + left. exists x, t. left. auto.
  - assert (Rj : rejects p1 s ps) by (apply G3; auto).
    assert (Inv : forall y u, first_or_second a_number (bracketed R) y s u -> bracketed R y s u).
    { intros y u [A|A]; auto. destruct (N1 _ _ A). }
    splits.
    + intros a u Ha. apply Inv in Ha. destruct (B1 _ _ Ha) as (ps1 & E). exists ps1.
      apply one_of_cfg_accept; auto. rewrite !first_accepting_cons. right. split; auto. left. splits; auto.
      * do 3 eexists; eauto.
      * intros q [].
    + intros u Ha. apply Inv in Ha. assert (E := B2 _ Ha). apply one_of_cfg_unfinished; auto.
      exists [p1], p2, []. splits; auto. intros q [<-|[]]. right. auto.
    + intros N. assert (R2 : rejects p2 s ps) by (apply B3; intros y u A; apply (N y u); right; auto).
      apply one_of_cfg_all_reject; auto. intros q [<-|[<-|[]]]; auto.
    + destruct B4 as [(x & t & A)|N2]; [left; exists x, t; right; auto | right].
      intros x t [A|A]; [eapply N1 | eapply N2]; eauto.
Qed.

Lemma primary_shrinks : shrinks (first_or_second a_number (bracketed R)).
Proof. intros x s t [H|H]; [eapply a_number_shrinks | eapply bracketed_shrinks]; eauto. Qed.

End Negated.

(** *** sums *)

Lemma good_iff : forall A (R R' : reading A) V p, (forall x s t, R x s t <-> R' x s t) ->
  good R V n p -> good R' V n p.
Proof.
  intros A R R' V p E G s ps L. destruct (G s ps L) as (G1 & G2 & G3 & G4). splits.
  - intros a t H. apply G1. apply E; auto.
  - intros t H. apply (G2 t). apply E; auto.
  - intros N. apply G3. intros x t H. apply (N x t). apply E; auto.
  - destruct G4 as [(x & t & H)|N]; [left; exists x, t; apply E; auto | right].
    intros x t H. apply (N x t). apply E; auto.
Qed.

Lemma computing_good : forall A B (R : reading A) V (W : B -> value) (g : A -> option B) (p : pfun) (f : mf1),
  good R V n p -> (forall a, f (V a) = option_map W (g a)) ->
  good (computing R g) W n (transform p f).
Proof.
  intros A B R V W g p f G Hf s ps L. destruct (G s ps L) as (G1 & G2 & G3 & G4). unfold transform. splits.
  - intros b t ([a|] & H & E); [|discriminate]. destruct (G1 _ _ H) as (ps' & ->). rewrite Hf, <- E. simpl. eauto.
  - intros t ([a|] & H & E).
    + destruct (G1 _ _ H) as (ps' & ->). rewrite Hf, <- E. reflexivity.
    + rewrite (G2 _ H). reflexivity.
  - intros N. destruct G3 as (m & pe & ->); eauto. intros x t H. eapply N. exists x. split; eauto.
  - destruct G4 as [(x & t & H)|N].
    + left. do 2 eexists. exists x. split; eauto.
    + right. intros y t (x & H & _). destruct (N _ _ H).
Qed.

Section Sums.
Variable ops : list char.
Variable q : pexpr.
Hypothesis Hq : op_good ops n (ev q).

Lemma sum_items_adds : forall c a b, sum_items (VInt a) (VSeq [VChar c; VInt b]) = option_map VInt (an_int (a + b)).
Proof. intros. unfold sum_items. simpl at_c. unfold mpl_plus, mpl_arith. cbn [as_int]. apply int_constant_an. Qed.

Definition nonneg_items (l : list (char * option Z)) : Prop :=
  Forall (fun i => match snd i with Some a => 0 <= a | None => True end) l.

Lemma all_ints_nonneg : forall l r, nonneg_items l -> all_ints l = Some r -> 0 <= total r.
Proof.
  induction l as [|[c [b|]] l IH]; intros r F E; simpl in E; try discriminate.
  - injection E as <-. simpl. lia.
  - inversion F; subst. simpl in H1. destruct (all_ints l) as [r'|]; [|discriminate].
    injection E as <-. specialize (IH r' H2 eq_refl). simpl. lia.
Qed.

Lemma fold_sum_items : forall l z, 0 <= z -> is_int z -> nonneg_items l ->
  fold_items sum_items (Some (VInt z)) l
  = match all_ints l with Some r => option_map VInt (an_int (z + total r)) | None => None end.
Proof.
  induction l as [|[c [b|]] l IH]; intros z P I F.
  - simpl. rewrite Z.add_0_r. destruct (an_int_is z) as [(-> & _)|(_ & N)]; [reflexivity|contradiction].
  - inversion F; subst. simpl in H1. unfold fold_items. cbn [fold_left fst snd all_ints].
    rewrite sum_items_adds. change (fold_items sum_items (option_map VInt (an_int (z + b))) l = 
      match (match all_ints l with Some r => Some ((c, b) :: r) | None => None end) with
      | Some r => option_map VInt (an_int (z + total r)) | None => None end).
    destruct (an_int_is (z + b)) as [(-> & J)|(-> & J)].
    + cbn [option_map]. rewrite IH by (auto; lia). destruct (all_ints l) as [r|]; auto. simpl.
      rewrite Z.add_assoc. reflexivity.
    + cbn [option_map]. rewrite fold_items_none. destruct (all_ints l) as [r|] eqn:E; auto.
      apply all_ints_nonneg in E; auto. simpl.
      destruct (an_int_is (z + (b + total r))) as [(_ & K)|(-> & _)]; auto. exfalso. unfold is_int in *. lia.
  - unfold fold_items. cbn [fold_left fst snd all_ints]. apply fold_items_none.
Qed.


Lemma fold_back_inserter : forall l acc, fold_items back_inserter (Some (VSeq acc)) l
  = match all_ints l with Some r => Some (VSeq (acc ++ map item_value r)) | None => None end.
Proof.
  induction l as [|[c [b|]] l IH]; intros acc.
  - simpl. rewrite app_nil_r. reflexivity.
  - unfold fold_items. cbn [fold_left fst snd all_ints].
    change (back_inserter (VSeq acc) (VSeq [VChar c; VInt b])) with (Some (VSeq (acc ++ [item_value (c, b)]))).
    change (fold_items back_inserter (Some (VSeq (acc ++ [item_value (c, b)]))) l =
      match (match all_ints l with Some r => Some ((c, b) :: r) | None => None end) with
      | Some r => Some (VSeq (acc ++ map item_value r)) | None => None end).
    rewrite IH. destruct (all_ints l); auto. simpl. rewrite <- app_assoc. reflexivity.
  - unfold fold_items. cbn [fold_left fst snd all_ints]. apply fold_items_none.
Qed.

Lemma mpl_fold_sum : forall l z, mpl_fold sum_items (map item_value l) z
  = fold_items sum_items (Some z) (map (fun i => (fst i, Some (snd i))) l).
Proof.
  induction l as [|[c b] l IH]; intros z; auto. simpl mpl_fold. unfold fold_items.
  cbn [map fold_left fst snd]. unfold item_value at 1. cbn [fst snd].
  destruct (sum_items z (VSeq [VChar c; VInt b])); [apply IH|].
  symmetry. apply fold_items_none.
Qed.

Lemma all_ints_some : forall l r, all_ints l = Some r -> map (fun i => (fst i, Some (snd i))) r = l.
Proof.
  induction l as [|[c [b|]] l IH]; intros r E; simpl in E; try discriminate.
  - injection E as <-. reflexivity.
  - destruct (all_ints l); [|discriminate]. injection E as <-. simpl. rewrite IH; auto.
Qed.

Lemma an_int_zero : is_int 0.
Proof. unfold is_int. lia. Qed.

Lemma a_number_int : forall a s t, a_number (Some a) s t -> is_int a.
Proof.
  intros a s t (ds & _ & E). destruct (an_int_is (decimal ds)) as [(E2 & I)|(E2 & _)]; rewrite E2 in E; [|discriminate].
  injection E as ->. auto.
Qed.

Lemma numbers_good : forall B (g : Z * list (char * Z) -> option B) (W : B -> value) (p : pfun),
  (forall a s s1 l t ps, (length s < n)%nat -> a_number (Some a) s s1 -> items ops a_number l s1 t ->
     match (match all_ints l with Some r => option_map W (g (a, r)) | None => None end) with
     | Some v => exists ps', p s ps = Accept v t ps'
     | None => p s ps = Illformed
     end) ->
  (forall s t ps, (length s < n)%nat -> a_number None s t -> p s ps = Illformed) ->
  (forall s ps, (length s < n)%nat -> (forall x t, ~ a_number x s t) -> exists m pe, p s ps = Reject m pe) ->
  good (computing (numbers ops) g) W n p.
Proof.
  intros B g W p H1 H2 H3 s ps L.
  assert (C : forall y t, computing (numbers ops) g y s t ->
    match option_map W y with Some v => exists ps', p s ps = Accept v t ps' | None => p s ps = Illformed end).
  { intros y t (x & (x0 & s1 & l & Hn & It & Ex) & Ey). destruct x0 as [a|].
    - specialize (H1 a s s1 l t ps L Hn It). subst. destruct (all_ints l) as [r|]; auto.
    - subst. simpl. eapply H2; eauto. }
  assert (T : forall x s1, a_number x s s1 -> exists y t, computing (numbers ops) g y s t).
  { intros x s1 H. assert (S1 := a_number_shrinks _ _ _ H).
    destruct (items_total ops a_number q int_token Hq number_good a_number_shrinks (length s1) s1) as (l & t & It); [lia..|].
    eexists _, t, _. split; [exists x, s1, l; splits; eauto|reflexivity]. }
  splits.
  - intros a t H. exact (C _ _ H).
  - intros t H. exact (C _ _ H).
  - intros N. apply H3; auto. intros x t H. destruct (T x t H) as (y & u & Hy). destruct (N _ _ Hy).
  - destruct (a_number_cases s) as [(x & t & H)|(N & _)]; [left; eauto|].
    right. intros y t (x & (x0 & s1 & l & Hn & _) & _). destruct (N _ _ Hn).
Qed.

Lemma ev_seq2 : forall a b s ps, ev (PSequence [a; b]) s ps =
  match ev a s ps with
  | Accept v1 s1 ps1 => match ev b s1 ps1 with Accept v2 s2 ps2 => Accept (VSeq [v1; v2]) s2 ps2 | o => o end
  | o => o
  end.
Proof.
  intros a b s ps. assert (E : ev (PSequence [a; b]) = sequence cfg [ev a; ev b]) by (destruct n; reflexivity).
  rewrite E, sequence_cfg; [| apply (cfs cfg fits); simpl; lia | discriminate].
  cbn [sequence_11]. unfold transform, return_.
  destruct (ev a s ps) as [v1 s1 ps1 | | | ]; auto. destruct (ev b s1 ps1); auto.
Qed.

Lemma foldl_numbers : forall f l s t st ps, items ops a_number l s t -> (length s < n)%nat ->
  match fold_items f st l with
  | Some v => exists ps', ev (PFoldl (PSequence [q; int_token]) st f) s ps = Accept v t ps'
  | None => ev (PFoldl (PSequence [q; int_token]) st f) s ps = Illformed
  end.
Proof.
  intros f l s t st ps It L.
  assert (E : ev (PFoldl (PSequence [q; int_token]) st f) = foldl n (item cfg env n q int_token) st f)
    by (unfold item; destruct n; reflexivity).
  rewrite E. apply (foldl_items ops a_number q int_token Hq number_good a_number_shrinks f l s t); auto.
Qed.

(** a number and what [r] makes of the rest *)
Lemma number_then_good : forall B (g : Z * list (char * Z) -> option B) (W : B -> value) (r : pexpr)
    (h : Z -> value -> option value) (p : pfun),
  (forall s ps, p s ps = match ev int_token s ps with
     | Accept v1 s1 ps1 => match ev r s1 ps1 with
         | Accept w s2 ps2 => match v1 with
             | VInt a => match h a w with Some v => Accept v s2 ps2 | None => Illformed end
             | _ => p s ps
             end
         | o => o
         end
     | o => o
     end) ->
  (forall a s l t ps, 0 <= a -> is_int a -> (length s < n)%nat -> items ops a_number l s t -> nonneg_items l ->
     match (match all_ints l with Some x => option_map W (g (a, x)) | None => None end) with
     | Some v => exists w ps', ev r s ps = Accept w t ps' /\ h a w = Some v
     | None => ev r s ps = Illformed \/ exists w ps', ev r s ps = Accept w t ps' /\ h a w = None
     end) ->
  good (computing (numbers ops) g) W n p.
Proof.
  intros B g W r h p Hp H. apply numbers_good.
  - intros a s s1 l t ps L Hn It. assert (S1 := a_number_shrinks _ _ _ Hn).
    rewrite Hp. destruct (number_good s ps L) as (G1 & _). destruct (G1 _ _ Hn) as (ps1 & ->).
    specialize (H a s1 l t ps1 (a_number_nonneg _ _ _ Hn) (a_number_int _ _ _ Hn) ltac:(lia) It
      (items_nonneg ops a_number a_number_nonneg l s1 t It)).
    destruct (match all_ints l with Some x => option_map W (g (a, x)) | None => None end) as [v|].
    + destruct H as (w & ps2 & -> & ->). eauto.
    + destruct H as [->|(w & ps2 & -> & ->)]; auto.
  - intros s t ps L Hn. destruct (number_good s ps L) as (_ & G2 & _). rewrite Hp, (G2 _ Hn). reflexivity.
  - intros s ps L N. destruct (number_good s ps L) as (_ & _ & G3 & _). destruct (G3 N) as (m & pe & E).
    rewrite Hp, E. eauto.
Qed.

Lemma fold_numbers : forall l s t ps, items ops a_number l s t -> (length s < n)%nat ->
  match all_ints l with
  | Some x => exists ps', ev (PRepeated (PSequence [q; int_token])) s ps = Accept (VSeq (map item_value x)) t ps'
  | None => ev (PRepeated (PSequence [q; int_token])) s ps = Illformed
  end.
Proof.
  intros l s t ps It L. assert (H := foldl_numbers back_inserter l s t (Some (VSeq [])) ps It L).
  rewrite fold_back_inserter in H. destruct (all_ints l); auto.
Qed.

Lemma list_good : good (numbers ops) (fun x => VSeq [VInt (fst x); VSeq (map item_value (snd x))]) n
  (ev (PSequence [int_token; PRepeated (PSequence [q; int_token])])).
Proof.
  apply (good_iff _ (computing (numbers ops) (fun x => Some x))).
  - intros x s t. split.
    + intros ([y|] & H & ->); auto.
    + intros H. exists x. split; auto. destruct x; auto.
  - apply (number_then_good _ _ _ (PRepeated (PSequence [q; int_token])) (fun a w => Some (VSeq [VInt a; w]))).
    + intros s ps. rewrite !ev_seq2. destruct (ev int_token s ps) as [v s1 ps1| | |]; auto.
      destruct (ev (PRepeated (PSequence [q; int_token])) s1 ps1); auto. destruct v; auto.
    + intros a s l t ps P I L It F. assert (H := fold_numbers l s t ps It L). destruct (all_ints l) as [x|]; auto.
      destruct H as (ps' & ->). simpl. eauto.
Qed.

(** the sum of the rest *)

Definition sums_rest (r : pexpr) : Prop := forall l s t ps, (length s < n)%nat -> items ops a_number l s t -> nonneg_items l ->
  match (match all_ints l with Some x => an_int (total x) | None => None end) with
  | Some b => exists ps', ev r s ps = Accept (VInt b) t ps'
  | None => ev r s ps = Illformed
  end.

Lemma transformed_rest : sums_rest (PTransform (PRepeated (PSequence [q; int_token]))
      (fun v => match v with VSeq l => mpl_fold sum_items l (VInt 0) | _ => None end)).
Proof.
  intros l s t ps L It F.
  assert (E : forall p f, ev (PTransform p f) = transform (ev p) f) by (intros; destruct n; reflexivity).
  rewrite E. unfold transform. assert (H := fold_numbers l s t ps It L).
  destruct (all_ints l) as [x|] eqn:A; [|rewrite H; reflexivity].
  destruct H as (ps' & ->). rewrite mpl_fold_sum, (all_ints_some _ _ A).
  rewrite fold_sum_items by (auto using an_int_zero; lia). rewrite A, Z.add_0_l. destruct (an_int (total x)); simpl; eauto.
Qed.

Lemma folded_rest : sums_rest (PFoldl (PSequence [q; int_token]) (Some (VInt 0)) sum_items).
Proof.
  intros l s t ps L It F. assert (H := foldl_numbers sum_items l s t (Some (VInt 0)) ps It L).
  rewrite fold_sum_items in H by (auto using an_int_zero; lia).
  destruct (all_ints l) as [x|]; [|exact H]. rewrite Z.add_0_l in H. destruct (an_int (total x)); exact H.
Qed.

Lemma rest_good : forall r, sums_rest r ->
  good (computing (numbers ops) rest_total) (fun x => VSeq [VInt (fst x); VInt (snd x)]) n (ev (PSequence [int_token; r])).
Proof.
  intros r Hr. apply (number_then_good _ _ _ r (fun a w => Some (VSeq [VInt a; w]))).
  - intros s ps. rewrite !ev_seq2. destruct (ev int_token s ps) as [v s1 ps1| | |]; auto.
    destruct (ev r s1 ps1); auto. destruct v; auto.
  - intros a s l t ps P I L It F. specialize (Hr l s t ps L It F).
    destruct (all_ints l) as [x|]; auto. unfold rest_total. cbn [fst snd].
    destruct (an_int (total x)) as [b|]; cbn [option_map]; auto. destruct Hr as (ps' & ->). cbn [fst snd]. eauto.
Qed.

Lemma mpl_plus_ints : forall a b, mpl_plus (VInt a) (VInt b) = option_map VInt (an_int (a + b)).
Proof. intros. unfold mpl_plus, mpl_arith. cbn [as_int]. apply int_constant_an. Qed.

Lemma whole_good : forall r, sums_rest r ->
  good (computing (numbers ops) whole_total) VInt n (ev (PTransform (PSequence [int_token; r]) sum_vector)).
Proof.
  intros r Hr.
  assert (E : forall p f, ev (PTransform p f) = transform (ev p) f) by (intros; destruct n; reflexivity).
  rewrite E. apply (number_then_good _ _ _ r (fun a w => sum_vector (VSeq [VInt a; w]))).
  - intros s ps. unfold transform. rewrite !ev_seq2. destruct (ev int_token s ps) as [v s1 ps1| | |]; auto.
    destruct (ev r s1 ps1); auto. destruct v; auto.
  - intros a s l t ps P I L It F. specialize (Hr l s t ps L It F).
    destruct (all_ints l) as [x|] eqn:A; auto. unfold whole_total. cbn [fst snd].
    apply all_ints_nonneg in A; auto.
    assert (Sv : forall b, sum_vector (VSeq [VInt a; VInt b]) = option_map VInt (an_int (a + b))).
    { intros b. unfold sum_vector. cbn [mpl_fold]. rewrite mpl_plus_ints, Z.add_0_l.
      destruct (an_int_is a) as [(-> & _)|(_ & N)]; [|contradiction]. cbn [option_map]. rewrite mpl_plus_ints.
      destruct (an_int (a + b)); auto. }
    destruct (an_int_is (total x)) as [(Et & J)|(Et & J)]; rewrite Et in Hr.
    + destruct Hr as (ps' & ->). rewrite <- Sv. destruct (sum_vector (VSeq [VInt a; VInt (total x)])) eqn:Es; [|right]; eauto.
    + destruct (an_int_is (a + total x)) as [(_ & K)|(-> & _)]; [exfalso; unfold is_int in *; lia|]. simpl. auto.
Qed.

(** the sum from the left *)
Lemma started_good : good (computing (numbers ops) whole_total) VInt n
  (ev (PFoldlStartWithParser (PSequence [q; int_token]) int_token sum_items)).
Proof.
  change (PFoldlStartWithParser (PSequence [q; int_token]) int_token sum_items) with (chain false q int_token sum_items).
  apply numbers_good.
  - intros a s s1 l t ps L Hn It. assert (S1 := a_number_shrinks _ _ _ Hn). rewrite (ev_chain cfg). cbn [gfold].
    destruct (number_good s ps L) as (G1 & _). destruct (G1 _ _ Hn) as (ps1 & ->).
    assert (H := foldl_items ops a_number q int_token Hq number_good a_number_shrinks sum_items l s1 t It
      ltac:(lia) n (Some (VInt a)) ps1 ltac:(lia)).
    rewrite fold_sum_items in H; [|eapply a_number_nonneg; eauto | eapply a_number_int; eauto |
      apply (items_nonneg ops a_number a_number_nonneg l s1 t It)].
    exact H.
  - intros s t ps L Hn. rewrite (ev_chain cfg). destruct (number_good s ps L) as (_ & G2 & _). rewrite (G2 _ Hn). reflexivity.
  - intros s ps L N. rewrite (ev_chain cfg). destruct (number_good s ps L) as (_ & _ & G3 & _).
    destruct (G3 N) as (m & pe & ->). eauto.
Qed.

End Sums.

(** ** The parsers *)

Lemma plus_good : op_good [43] n (ev plus_token).
Proof. apply (one_op_good 43). unfold op_char. simpl. auto. Qed.
Lemma mult_good : op_good [42] n (ev mult_token).
Proof. apply (one_op_good 42). unfold op_char. simpl. auto. Qed.
Ltac ops_good := apply choice_op_good;
  [discriminate | simpl; lia | unfold op_char; simpl; intros; tauto
  | repeat (constructor; [simpl; intros N; repeat destruct N as [N|N]; try discriminate; auto|]); constructor].
Lemma plus_minus_good : op_good [43; 45] n (ev (POneOf [plus_token; minus_token])).
Proof. change [plus_token; minus_token] with (map lit_token [43; 45]). ops_good. Qed.
Lemma three_good : op_good [43; 45; 42] n (ev (POneOf [plus_token; minus_token; mult_token])).
Proof. change [plus_token; minus_token; mult_token] with (map lit_token [43; 45; 42]). ops_good. Qed.
Lemma mult_div_good : op_good [42; 47] n (ev (POneOf [mult_token; div_token])).
Proof. change [mult_token; div_token] with (map lit_token [42; 47]). ops_good. Qed.

Lemma two_numbers_good : good two_numbers (fun x => VSeq [VInt (fst x); VChar 43; VInt (snd x)]) n (ev exp_parser5).
Proof.
  intros s ps L.
  assert (E : ev exp_parser5 s ps = match ev int_token s ps with
    | Accept v1 s1 ps1 => match ev plus_token s1 ps1 with
      | Accept v2 s2 ps2 => match ev int_token s2 ps2 with
         | Accept v3 s3 ps3 => Accept (VSeq [v1; v2; v3]) s3 ps3 | o => o end
      | o => o end
    | o => o end).
  { transitivity (sequence cfg [ev int_token; ev plus_token; ev int_token] s ps); [destruct n; reflexivity|].
    rewrite sequence_cfg; [| apply (cfs cfg fits); simpl; lia | discriminate].
    cbn [sequence_11]. unfold transform, return_.
    destruct (ev int_token s ps) as [v1 s1 ps1 | | | ]; auto. destruct (ev plus_token s1 ps1) as [v2 s2 ps2| | |]; auto.
    destruct (ev int_token s2 ps2); auto. }
  rewrite E. clear E.
  destruct (number_good s ps L) as (G1 & G2 & G3 & [(x & s1 & H)|N]).
  - assert (S1 := a_number_shrinks _ _ _ H). destruct x as [a|].
    + destruct (G1 _ _ H) as (ps1 & ->). destruct (plus_good s1 ps1 ltac:(lia)) as (Q1 & Q2 & [(c & s2 & O)|NO]).
      * assert (c = 43) by (destruct O as ([<-|[]] & _); auto). subst c.
        destruct (Q1 _ _ O) as (ps2 & ->). assert (S2 := op_at_shrinks _ _ _ _ O).
        destruct (number_good s2 ps2 ltac:(lia)) as (K1 & K2 & K3 & K4).
        assert (Inv : forall y t, two_numbers y s t -> exists x, a_number x s2 t /\ y = option_map (pair a) x).
        { intros y t Hy. inversion Hy as [a' b s0 s1' s2' t' A1 A2 A3 | s0 t' A1 | a' s0 s1' s2' t' A1 A2 A3]; subst.
          - destruct (a_number_unique _ _ _ _ _ H A1) as (E & <-). injection E as <-.
            destruct (op_at_unique _ _ _ _ _ _ O A2) as (_ & <-). exists (Some b). auto.
          - destruct (a_number_unique _ _ _ _ _ H A1) as (E & _). discriminate.
          - destruct (a_number_unique _ _ _ _ _ H A1) as (E & <-). injection E as <-.
            destruct (op_at_unique _ _ _ _ _ _ O A2) as (_ & <-). exists None. auto. }
        assert (Back : forall x t, a_number x s2 t -> two_numbers (option_map (pair a) x) s t).
        { intros [b|] t Hx; simpl; [eapply tn_both | eapply tn_second]; eauto. }
        splits.
        -- intros z t Hz. destruct (Inv _ _ Hz) as ([b|] & Hb & Eb); [|discriminate]. injection Eb as ->.
           destruct (K1 _ _ Hb) as (ps3 & ->). simpl. eauto.
        -- intros t Hz. destruct (Inv _ _ Hz) as ([b|] & Hb & Eb); [discriminate|]. rewrite (K2 _ Hb). reflexivity.
        -- intros NN. destruct K3 as (m & pe & ->); eauto. intros x t Hx. destruct (NN _ _ (Back _ _ Hx)).
        -- destruct K4 as [(x & t & Hx)|NN]; [left; eauto | right].
           intros y t Hy. destruct (Inv _ _ Hy) as (x & Hx & _). destruct (NN _ _ Hx).
      * destruct (Q2 NO) as (m & pe & ->).
        assert (NN : forall y t, ~ two_numbers y s t).
        { intros y t Hy. inversion Hy as [a' b s0 s1' s2' t' A1 A2 A3 | s0 t' A1 | a' s0 s1' s2' t' A1 A2 A3]; subst.
          - destruct (a_number_unique _ _ _ _ _ H A1) as (_ & <-). destruct (NO _ _ A2).
          - destruct (a_number_unique _ _ _ _ _ H A1) as (E & _). discriminate.
          - destruct (a_number_unique _ _ _ _ _ H A1) as (_ & <-). destruct (NO _ _ A2). }
        splits; eauto; intros; exfalso; eapply NN; eauto.
    + rewrite (G2 _ H). splits; auto.
      * intros z t Hz. exfalso. inversion Hz as [a' b s0 s1' s2' t' A1 A2 A3 | s0 t' A1 | a' s0 s1' s2' t' A1 A2 A3]; subst.
        destruct (a_number_unique _ _ _ _ _ H A1) as (E & _). discriminate.
      * intros NN. destruct (NN None s1). apply tn_first; auto.
      * left. exists None, s1. apply tn_first; auto.
  - destruct (G3 N) as (m & pe & ->).
    assert (NN : forall y t, ~ two_numbers y s t) by (intros y t Hy; inversion Hy; subst; eapply N; eauto).
    splits; eauto; intros; exfalso; eapply NN; eauto.
Qed.

Lemma added_good : good (computing two_numbers (fun x => an_int (fst x + snd x))) VInt n (ev exp_parser6).
Proof.
  assert (E : ev exp_parser6 = transform (ev exp_parser5) tut_eval_plus) by (destruct n; reflexivity).
  rewrite E. eapply computing_good; [apply two_numbers_good|].
  intros [a b]. cbn [fst snd]. unfold tut_eval_plus. simpl at_c. apply mpl_plus_ints.
Qed.

Ltac known_ops := intros c H; simpl in *; tauto.


Lemma good13 : good read13 VInt n (ev exp_parser13).
Proof. apply left_chain_good; [apply plus_minus_good | apply number_good | apply a_number_shrinks | known_ops]. Qed.
Lemma good14 : good read14 VInt n (ev exp_parser14).
Proof. apply left_chain_good; [apply three_good | apply number_good | apply a_number_shrinks | known_ops]. Qed.
Lemma good15 : good read15 VInt n (ev exp_parser15).
Proof.
  apply left_chain_good; [apply plus_minus_good | | apply left_chain_shrinks, a_number_shrinks | known_ops].
  apply left_chain_good; [apply mult_good | apply number_good | apply a_number_shrinks | known_ops].
Qed.
Lemma good16 : good read16 VInt n (ev exp_parser16).
Proof.
  apply left_chain_good; [apply plus_minus_good | | apply left_chain_shrinks, a_number_shrinks | known_ops].
  apply left_chain_good; [apply mult_div_good | apply number_good | apply a_number_shrinks | known_ops].
Qed.
Lemma good17 : good read17 VInt n (ev exp_parser17).
Proof.
  apply left_chain_good; [apply plus_minus_good | | apply right_chain_shrinks | known_ops].
  apply right_chain_good; [apply mult_div_good | known_ops].
Qed.
Lemma signed_products : forall R r, good R VInt n (ev r) -> shrinks R ->
  good (left_chain [43; 45] (left_chain [42; 47] (negated R))) VInt n
    (ev (plus_exp_of (chain false (POneOf [mult_token; div_token]) (PFoldrStartWithParser minus_token r negate_first) binary_op))).
Proof.
  intros R r G S. apply left_chain_good; [apply plus_minus_good | | apply left_chain_shrinks, negated_shrinks; auto | known_ops].
  apply left_chain_good; [apply mult_div_good | apply negated_good; auto | apply negated_shrinks; auto | known_ops].
Qed.
Lemma good18 : good read18 VInt n (ev exp_parser18).
Proof. apply signed_products; [apply number_good | apply a_number_shrinks]. Qed.
Lemma shrinks18 : shrinks read18.
Proof. apply left_chain_shrinks, left_chain_shrinks, negated_shrinks, a_number_shrinks. Qed.
Lemma good19 : good read19 VInt n (ev exp_parser19).
Proof.
  apply signed_products; [|apply primary_shrinks, shrinks18].
  apply primary_good; [apply good18 | apply shrinks18].
Qed.

End Tutorial.
