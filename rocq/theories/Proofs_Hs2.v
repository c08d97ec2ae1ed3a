(** Proofs about the parser of example/meta_hs: the levels of expressions and the
    definitions (C59). *)

From Coq Require Import ZArith List Bool Lia.
From Verif Require Import Base Util Combinators Variadic Parsers Deep Messages Grammar Calculator Examples
  Functions MetaHs Spec SpecDeep SpecTerm SpecType SpecGrammar SpecCalc SpecExamples SpecFun SpecHs Proofs_Pos
  Proofs_Fold Proofs_Variadic Proofs_Parsers Proofs_Parsers2 Proofs_Deep Proofs_Final1 Proofs_Final2
  Proofs_Final3 Proofs_Final5 Proofs_Term Proofs_Grammar Proofs_Calc Proofs_Calc2 Proofs_Examples
  Proofs_Functions Proofs_Hs.
Import ListNotations.
Open Scope Z_scope.

(** ** Levels as chains *)

Definition op_item (r : reading) (k : nat) (j : bop * hexp) (s t : str) : Prop :=
  op_level (fst j) = S k /\ r_ops r (fst j)
  /\ exists s1, lexeme_text (op_text (fst j)) s s1 /\ etext r k (snd j) s1 t.
Definition op_build (a : hexp) (j : bop * hexp) : hexp := HOp (fst j) a (snd j).
Definition op_den (j : bop * hexp) : option value :=
  option_map (fun y => VSeq [VStr (op_name (fst j)); y]) (den (snd j)).

Lemma level_ge : forall o, (2 <= op_level o <= 4)%nat.
Proof. destruct o; simpl; lia. Qed.

Lemma calls_chain : forall r e s t, etext r 1 e s t <-> chain hexp hexp (etext r 0) (etext r 0) HCall e s t.
Proof.
  intros r e s t. split.
  - intros H. remember 1%nat as l. induction H; try discriminate.
    + eapply ch_more; eauto.
    + exfalso. pose proof (level_ge o). lia.
    + injection Heql as ->. apply ch_one. auto.
  - induction 1; [apply et_up; [lia|auto]|eapply et_call; eauto].
Qed.

Lemma ops_chain : forall r k e s t, (1 <= k <= 3)%nat ->
  (etext r (S k) e s t <-> chain hexp (bop * hexp) (etext r k) (op_item r k) op_build e s t).
Proof.
  intros r k e s t K. split.
  - intros H. remember (S k) as l. induction H; try discriminate.
    + exfalso. lia.
    + injection Heql as ->. apply (ch_more _ _ _ _ op_build a (o, b) s s1 t); [auto|].
      unfold op_item. cbn [fst snd]. splits; eauto.
    + injection Heql as ->. apply ch_one. auto.
  - induction 1 as [|a j s s1 t C IH (L & O & s2 & T & X)]; [apply et_up; [lia|auto]|].
    unfold op_build. eapply et_op; eauto.
Qed.

Lemma op_item_shorter : forall r k j s t, op_item r k j s t -> (length t < length s)%nat.
Proof.
  intros r k j s t (_ & _ & s1 & T & X). apply etext_shorter in X.
  apply lexeme_shorter in T; [lia|apply op_text_not_nil].
Qed.

Lemma exp_not_eq : forall r k e s t, etext r k e s t -> not_eq_sign s.
Proof.
  intros r k e s t X. destruct (etext_starts _ _ _ _ _ X) as (c & u & -> & C). unfold not_eq_sign. simpl.
  intros ->. unfold exp_char, name_char, letter_char, digit_char in C. slia.
Qed.

Lemma single_stop_char : forall c u, ~ exp_char c -> single_stop (c :: u).
Proof. intros c u C. left. auto. Qed.

Lemma op_front : forall r k j s t, (1 <= k <= 3)%nat -> fst j <> BNe -> op_item r k j s t -> fol k s.
Proof.
  intros r k (o, b) s t K Ne (L & _ & s1 & (u & -> & _) & _). cbn [fst] in *.
  assert (F : forall c w, op_text o ++ u ++ s1 = c :: w -> ~ exp_char c /\ (k = 2%nat -> ~ starter 1 c)
    /\ (k = 3%nat -> ~ starter 1 c /\ ~ starter 2 c)).
  { intros c w E. destruct o; simpl in L, E; try congruence; injection E as <- _;
      unfold exp_char, name_char, letter_char, digit_char, starter; slia. }
  destruct (op_text o ++ u ++ s1) as [|c w] eqn:E; [destruct o; discriminate|].
  destruct (F c w eq_refl) as (A & B & C). clear F E.
  destruct k as [|[|[|[|k]]]]; try lia; cbn [fol stop not_starting_with].
  - split; auto. left. auto.
  - splits; auto. left. auto.
  - destruct (C eq_refl). splits; auto. left. auto.
Qed.

Definition lev (k : nat) : pexpr :=
  match k with 0%nat => single_exp | 1%nat => application_exp | 2%nat => mult_exp | 3%nat => plus_exp | _ => cmp_exp end.

Section Levels.
Variable cfg : config.
Hypothesis H11 : cfg_std cfg <> Std98.
Local Notation ev := (hev cfg).

Lemma lev_good : forall n k, good True (ev n (lev k)).
Proof.
  intros n [|[|[|[|k]]]]; cbn [lev].
  - unfold hev. apply hs_good. unfold single_exp, if_exp, bracket_exp, hs_name, hs_int, hs_if, hs_then, hs_else,
      hs_open, hs_close. every_solve; auto.
  - apply application_good.
  - apply mult_exp_good.
  - apply plus_exp_good.
  - apply cmp_exp_good.
Qed.

Lemma den_step : forall a j x y, den a = Some x -> op_den j = Some y ->
  sem_binary_op x y = den (op_build a j).
Proof.
  intros a (o, b) x y D E. unfold op_den in E. cbn [fst snd] in E. unfold op_build. cbn [fst snd den].
  rewrite D. destruct (den b) as [z|]; [|discriminate]. injection E as <-. reflexivity.
Qed.
Lemma op_strict_l : forall a j, den a = None -> den (op_build a j) = None.
Proof. intros a j D. unfold op_build. cbn [den]. rewrite D. auto. Qed.
Lemma op_strict_r : forall a j, op_den j = None -> den (op_build a j) = None.
Proof.
  intros a (o, b) D. unfold op_den in D. cbn [fst snd] in D. unfold op_build. cbn [fst snd den].
  destruct (den b); [discriminate|]. destruct (den a); auto.
Qed.
Lemma call_step : forall a j x y, den a = Some x -> den j = Some y -> sem_application x y = den (HCall a j).
Proof. intros a j x y D E. cbn [den]. rewrite D, E. reflexivity. Qed.
Lemma call_strict_l : forall a j, den a = None -> den (HCall a j) = None.
Proof. intros a j D. cbn [den]. rewrite D. auto. Qed.
Lemma call_strict_r : forall a j, den j = None -> den (HCall a j) = None.
Proof. intros a j D. cbn [den]. rewrite D. destruct (den a); auto. Qed.

Lemma seq_op : forall m k s ps, sequence cfg [ev (S m) (opp k); ev (S m) (lev k)] s ps =
  match ev (S m) (opp k) s ps with
  | Accept v1 s1 ps1 =>
      match ev (S m) (lev k) s1 ps1 with Accept v2 s2 ps2 => Accept (VSeq [v1; v2]) s2 ps2 | o => o end
  | o => o
  end.
Proof. intros. apply sequence_2. apply fs; auto. Qed.

Lemma ev_level : forall m k, (1 <= k <= 3)%nat ->
  ev (S m) (lev (S k)) = foldl_reject_incomplete_start_with_parser (S m)
    (sequence cfg [ev (S m) (opp k); ev (S m) (lev k)]) (ev (S m) (lev k)) sem_binary_op.
Proof. intros m k K. destruct k as [|[|[|[|k]]]]; try lia; reflexivity. Qed.

Lemma fol3_slash : forall k s, k = 3%nat -> fol k s -> not_slash s.
Proof.
  intros k s -> ((_ & B) & _). cbn [stop] in B. unfold not_slash.
  destruct s as [|c s]; cbn [not_starting_with starter] in *; auto.
Qed.

Lemma level_complete : forall m k, (1 <= k <= 3)%nat ->
  completes (S m) (fol k) (etext plain k) den (ev (S m) (lev k)) ->
  completes (S m) (fol (S k)) (etext plain (S k)) den (ev (S m) (lev (S k))).
Proof.
  intros m k K Hp e s t ps X F L. rewrite ev_level by auto. apply ops_chain in X; auto.
  refine (chain_complete hexp (bop * hexp) (etext plain k) (op_item plain k) op_build den op_den sem_binary_op
    (fol k) (stop k) _ _ den_step op_strict_l op_strict_r (S m) _ _ _ Hp _ _ den_not_void e s t ps X _ L).
  - intros. eapply etext_shorter; eauto.
  - intros. eapply op_item_shorter; eauto.
  - intros j s0 t0 I. apply (op_front plain k j s0 t0); auto. destruct I as (_ & I & _). exact I.
  - intros (o, b) s0 t0 ps0 (Lo & Ro & s1 & T & Y) P0 L0. cbn [fst snd] in *. unfold op_den. cbn [fst snd].
    rewrite seq_op.
    destruct (op_acc cfg H11 (S m) k o s0 s1 ps0 Lo Ro T (exp_not_eq _ _ _ _ _ Y) L0) as (p1 & ->).
    assert (L1 : (length s1 < S m)%nat).
    { apply lexeme_shorter in T; [lia|apply op_text_not_nil]. }
    pose proof (Hp b s1 t0 p1 Y P0 L1) as C. destruct (den b) as [y|]; cbn [option_map].
    + destruct C as (p2 & ->). eauto.
    + rewrite C. auto.
  - intros s0 ps0 P0 S0. rewrite seq_op.
    destruct (op_rej cfg H11 (S m) k s0 ps0 K) as (k1 & ->); eauto.
    + intros E. eapply fol3_slash; eauto.
    + destruct k; [lia|exact S0].
  - exact F.
Qed.

Lemma level_sound : forall m k, (1 <= k <= 3)%nat ->
  sounds (S m) (fol k) (etext run_on k) den (ev (S m) (lev k)) ->
  sounds (S m) (fol (S k)) (etext run_on (S k)) den (ev (S m) (lev (S k))).
Proof.
  intros m k K Hp s ps v t ps' L E. rewrite ev_level in E by auto.
  enough (exists e, chain hexp (bop * hexp) (etext run_on k) (op_item run_on k) op_build e s t
    /\ den e = Some v /\ fol k t /\ stop k t) as (e & C & D & F).
  { exists e. splits; [apply ops_chain; auto|auto|exact F]. }
  refine (chain_sound hexp (bop * hexp) (etext run_on k) (op_item run_on k) op_build den op_den sem_binary_op
    (fol k) (stop k) _ _ den_step (S m) _ _ Hp _ _ s ps v t ps' L E).
  - intros. eapply etext_shorter; eauto.
  - intros. eapply op_item_shorter; eauto.
  - intros s0 ps0 y t0 ps1 P0 L0 A. rewrite seq_op in A.
    destruct (op_total cfg H11 (S m) k s0 ps0 K) as [(_ & k1 & R)|[(o & s1 & p1 & Lo & Ne & T & R)|(k1 & pe & R & _)]]; auto;
      try (rewrite R in A; discriminate).
    { intros Ek. eapply fol3_slash; eauto. }
    rewrite R in A. destruct (ev (S m) (lev k) s1 p1) as [z s2 p2| | |] eqn:B; try discriminate.
    injection A as <- <- <-.
    destruct (Hp s1 p1 z s2 p2) as (b & X & D & F); auto.
    { apply lexeme_shorter in T; [lia|apply op_text_not_nil]. }
    exists (o, b). unfold op_item, op_den. cbn [fst snd]. rewrite D. splits; auto. eauto.
  - intros s0 ps0 k0 P0 L0 A. rewrite seq_op in A.
    destruct (op_total cfg H11 (S m) k s0 ps0 K) as [(N & k1 & R)|[(o & s1 & p1 & Lo & Ne & T & R)|(k1 & pe & R & Npe)]]; auto.
    + intros Ek. eapply fol3_slash; eauto.
    + destruct k; [lia|exact N].
    + exfalso. rewrite R in A.
      apply (good_accept _ _ _ _ _ _ (opp_good cfg (S m) k)) in R as (_ & R).
      apply lexeme_shorter in T; [|apply op_text_not_nil]. specialize (R T).
      destruct (ev (S m) (lev k) s1 p1) as [z s2 p2| | |] eqn:B; try discriminate.
      injection A as -> ->. apply (good_reject _ _ _ _ _ (lev_good (S m) k)) in B.
      apply (pos_lt_irrefl ps0). eapply pos_lt_le_trans; eauto.
    + exfalso. rewrite R in A. injection A as -> ->. auto.
Qed.

Lemma ev_app_level : forall m,
  ev (S m) application_exp =
  foldl_reject_incomplete_start_with_parser (S m) (ev (S m) single_exp) (ev (S m) single_exp) sem_application.
Proof. reflexivity. Qed.

Lemma applications_complete : forall m,
  completes (S m) (fol 0) (etext plain 0) den (ev (S m) single_exp) ->
  completes (S m) (fol 1) (etext plain 1) den (ev (S m) application_exp).
Proof.
  intros m Hp e s t ps X F L. rewrite ev_app_level. apply calls_chain in X.
  refine (chain_complete hexp hexp (etext plain 0) (etext plain 0) HCall den den sem_application
    (fol 0) (fun u => stop 0 u /\ (length u < S m)%nat) _ _ call_step call_strict_l call_strict_r (S m) _ _ _ Hp Hp _ den_not_void e s t ps X _ L).
  - intros. eapply etext_shorter; eauto.
  - intros. eapply etext_shorter; eauto.
  - intros. exact Logic.I.
  - intros s0 ps0 _ (S0 & L0). apply single_rej; auto.
  - destruct F as (F0 & F1). splits; auto.
    apply chain_shorter in X; [lia| |]; intros; eapply etext_shorter; eauto.
Qed.
Lemma applications_sound : forall m,
  sounds (S m) (fol 0) (etext run_on 0) den (ev (S m) single_exp) ->
  sounds (S m) (fol 1) (etext run_on 1) den (ev (S m) application_exp).
Proof.
  intros m Hp s ps v t ps' L E. rewrite ev_app_level in E.
  enough (exists e, chain hexp hexp (etext run_on 0) (etext run_on 0) HCall e s t
    /\ den e = Some v /\ fol 0 t /\ stop 0 t) as (e & C & D & F).
  { exists e. splits; [apply calls_chain; auto|auto|exact F]. }
  refine (chain_sound hexp hexp (etext run_on 0) (etext run_on 0) HCall den den sem_application
    (fol 0) (stop 0) _ _ call_step (S m) _ _ Hp _ _ s ps v t ps' L E).
  - intros. eapply etext_shorter; eauto.
  - intros. eapply etext_shorter; eauto.
  - intros s0 ps0 y t0 ps1 _ L0 A. apply (Hp s0 ps0 y t0 ps1 L0 A).
  - intros s0 ps0 k0 _ L0 A. eapply (single_rej_here cfg H11 m); eauto.
Qed.

Lemma exp_complete : forall n, completes n (fol 4) (etext plain 4) den (ev n cmp_exp).
Proof.
  induction n as [|m IH]; [intros e s t ps X F L; lia|].
  apply (level_complete m 3); [lia|]. apply (level_complete m 2); [lia|]. apply (level_complete m 1); [lia|].
  apply applications_complete. apply single_complete; auto.
Qed.
Lemma exp_sound : forall n, sounds n (fol 4) (etext run_on 4) den (ev n cmp_exp).
Proof.
  induction n as [|m IH]; [intros s ps v t ps' L; lia|].
  apply (level_sound m 3); [lia|]. apply (level_sound m 2); [lia|]. apply (level_sound m 1); [lia|].
  apply applications_sound. apply single_sound; auto.
Qed.

End Levels.

(** ** Definitions *)

Fixpoint lams (xs : list str) (v : value) : value :=
  match xs with [] => v | x :: xs' => ast_lambda (lams xs' v) (VStr x) end.

Section Definitions.
Variable cfg : config.
Hypothesis H11 : cfg_std cfg <> Std98.
Local Notation ev := (hev cfg).

Definition rest_p (m k : nat) : pfun :=
  foldr_start_with_parser k (ev (S m) hs_name) (last_of cfg [ev (S m) hs_define; ev m cmp_exp]) sem_lambda.

Lemma params_shorter : forall xs s t, params_text xs s t -> (length t <= length s)%nat.
Proof. induction 1; auto. apply name_shorter in H. lia. Qed.

Lemma rest_complete : forall xs s s2, params_text xs s s2 -> forall s3 b m k ps,
  lexeme_text (text "=") s2 s3 -> etext plain 4 b s3 [] -> (length s < k)%nat -> (length s < S m)%nat ->
  match den b with
  | Some y => exists ps', rest_p m k s ps = Accept (lams xs y) [] ps'
  | None => rest_p m k s ps = Illformed
  end.
Proof.
  intros xs s s2 Pt. induction Pt as [s|x xs s s1 t Nm Pt IH]; intros s3 b m k ps T X Lk Lm;
    (destruct k as [|k]; [lia|]); unfold rest_p; cbn [foldr_start_with_parser].
  - destruct (name_rej_char cfg H11 (S m) s ps) as (m1 & ->).
    { destruct T as (u & -> & _). simpl. unfold lead, letter_char. slia. }
    rewrite last_2 by auto.
    destruct (proj1 (char_token_reads cfg H11 (S m) 61) s s3 ps T Lm) as (p1 & E).
    change (hev cfg (S m) hs_define) with (hev cfg (S m) (PToken (PLitC 61))). rewrite E.
    assert (L3 : (length s3 < m)%nat) by (apply lexeme_shorter in T; [lia|discriminate]).
    pose proof (exp_complete cfg H11 m b s3 [] p1 X nil_fol L3) as C.
    destruct (den b); auto.
  - destruct (name_acc cfg H11 (S m) x s s1 ps Nm Lm) as (p1 & ->).
    assert (L1 : (length s1 < length s)%nat) by (eapply name_shorter; eauto).
    assert (Lk1 : (length s1 < k)%nat) by lia. assert (Lm1 : (length s1 < S m)%nat) by lia.
    pose proof (IH s3 b m k p1 T X Lk1 Lm1) as C. unfold rest_p in C.
    destruct (den b); [destruct C as (p2 & ->); eexists; reflexivity|rewrite C; auto].
Qed.

Lemma rest_sound : forall k m s ps v t ps', (length s < S m)%nat -> rest_p m k s ps = Accept v t ps' ->
  exists xs s2 s3 b y, params_text xs s s2 /\ lexeme_text (text "=") s2 s3 /\ etext run_on 4 b s3 t
    /\ den b = Some y /\ v = lams xs y.
Proof.
  unfold rest_p. induction k as [|k IH]; intros m s ps v t ps' L E; cbn [foldr_start_with_parser] in E; [discriminate|].
  destruct (ev (S m) hs_name s ps) as [x s1 p1|k1 p1| |] eqn:E1; try discriminate.
  - apply name_snd in E1 as (x' & -> & Nm); auto.
    assert (L1 : (length s1 < length s)%nat) by (eapply name_shorter; eauto).
    destruct (foldr_start_with_parser k (ev (S m) hs_name)
      (last_of cfg [ev (S m) hs_define; ev m cmp_exp]) sem_lambda s1 p1) as [w s2 p2| | |] eqn:E2; try discriminate.
    injection E as <- <- <-.
    destruct (IH m s1 p1 w s2 p2) as (xs & u2 & u3 & b & y & A & B & C & D & ->); auto; [lia|].
    exists (x' :: xs), u2, u3, b, y. splits; auto. econstructor; eauto.
  - rewrite last_2 in E by auto. change (ev (S m) hs_define) with (ev (S m) (PToken (PLitC 61))) in E.
    destruct (ev (S m) (PToken (PLitC 61)) s ps) as [w s3 p3| | |] eqn:E2; try discriminate.
    apply (reads_token_sound _ _ _ _ (char_token_reads cfg H11 (S m) 61)) in E2 as (_ & T); auto.
    assert (L3 : (length s3 < m)%nat).
    { apply (token_text_shorter 61) in T. lia. }
    destruct (exp_sound cfg H11 m s3 p3 v t ps' L3 E) as (b & X & D & _).
    exists [], s, s3, b, v. splits; try exact T; auto using pt_nil.
Qed.

Lemma ev_definition : forall m s ps, ev (S m) hs_definition s ps =
  match ev (S m) hs_name s ps with
  | Accept x s1 p1 =>
      match rest_p m (S m) s1 p1 with
      | Accept e t p2 => Accept (mpl_pair x (ast_top_bound e)) t p2
      | o => o
      end
  | o => o
  end.
Proof.
  intros m s ps.
  change (ev (S m) hs_definition s ps) with
    (transform (sequence cfg [ev (S m) hs_name; rest_p m (S m)]) sem_pair s ps).
  unfold transform. rewrite sequence_2 by (apply fs; auto).
  destruct (ev (S m) hs_name s ps) as [x s1 p1| | |]; auto.
  destruct (rest_p m (S m) s1 p1); auto.
Qed.

Lemma ev_def_parser : forall m s ps, ev (S m) def_parser s ps =
  match ev (S m) hs_definition s ps with
  | Accept r [] ps1 => Accept r [] ps1
  | Accept r (_ :: _) ps1 => Reject end_of_input_expected ps1
  | o => o
  end.
Proof.
  intros m s ps.
  change (ev (S m) def_parser s ps) with (entire_input cfg (ev (S m) hs_definition) end_of_input_expected s ps).
  rewrite entire_input_spec by (apply fs; auto). reflexivity.
Qed.

Definition def_value (d : hdef) (y : value) : value :=
  mpl_pair (VStr (d_name d)) (ast_top_bound (lams (d_params d) y)).

Lemma def_complete : forall n d s ps, dtext plain d s -> (length s < n)%nat ->
  match den (d_body d) with
  | Some y => exists ps', ev n def_parser s ps = Accept (def_value d y) [] ps'
  | None => ev n def_parser s ps = Illformed
  end.
Proof.
  intros [|m] d s ps (s1 & s2 & s3 & Nm & Pt & T & X) L; [lia|].
  rewrite ev_def_parser, ev_definition.
  destruct (name_acc cfg H11 (S m) _ s s1 ps Nm L) as (p1 & ->).
  assert (L1 : (length s1 < S m)%nat) by (apply name_shorter in Nm; lia).
  pose proof (rest_complete _ _ _ Pt s3 (d_body d) m (S m) p1 T X L1 L1) as C.
  destruct (den (d_body d)); [destruct C as (p2 & ->); eexists; reflexivity|rewrite C; auto].
Qed.

Lemma def_sound : forall n s ps v t ps', (length s < n)%nat -> ev n def_parser s ps = Accept v t ps' ->
  t = [] /\ exists d y, dtext run_on d s /\ den (d_body d) = Some y /\ v = def_value d y.
Proof.
  intros [|m] s ps v t ps' L E; [lia|]. rewrite ev_def_parser, ev_definition in E.
  destruct (ev (S m) hs_name s ps) as [x s1 p1| | |] eqn:E1; try discriminate.
  apply name_snd in E1 as (x' & -> & Nm); auto.
  assert (L1 : (length s1 < S m)%nat) by (apply name_shorter in Nm; lia).
  destruct (rest_p m (S m) s1 p1) as [e u p2| | |] eqn:E2; try discriminate.
  destruct u as [|]; [|discriminate]. injection E as <- <- <-. split; auto.
  apply rest_sound in E2 as (xs & s2 & s3 & b & y & A & B & C & D & ->); auto.
  exists {| d_name := x'; d_params := xs; d_body := b |}, y. splits; auto.
  exists s1, s2, s3. auto.
Qed.

(** *** Trees *)

Lemma den_some : forall e, literals_ok e -> exists v, den e = Some v /\ ast_of v = Some (tree e).
Proof.
  induction e; cbn [literals_ok den tree]; intros H.
  - apply int_ok_iff in H. rewrite H. eexists. split; reflexivity.
  - eexists. split; reflexivity.
  - destruct H as (A & B). destruct (IHe1 A) as (x & -> & Tx). destruct (IHe2 B) as (y & -> & Ty).
    eexists. split; [reflexivity|]. cbn [ast_of ast_application]. unfold ast_application. cbn [ast_of].
    rewrite Tx, Ty. auto.
  - destruct H as (A & B & C). destruct (IHe1 A) as (x & -> & Tx). destruct (IHe2 B) as (y & -> & Ty).
    destruct (IHe3 C) as (z & -> & Tz). eexists. split; [reflexivity|].
    unfold ast_application, ast_value, curry_lazy_if. cbn [ast_of]. rewrite Tx, Ty, Tz. auto.
  - destruct H as (A & B). destruct (IHe1 A) as (x & -> & Tx). destruct (IHe2 B) as (y & -> & Ty).
    eexists. split; [reflexivity|]. unfold ast_application, ast_ref. cbn [ast_of]. rewrite Tx, Ty. auto.
Qed.
Lemma den_ok : forall e v, den e = Some v -> literals_ok e.
Proof.
  induction e; cbn [literals_ok den]; intros v H; auto.
  - destruct (int_ok (decimal ds)) eqn:I; [|discriminate]. apply int_ok_iff. auto.
  - destruct (den e1), (den e2); try discriminate. eauto.
  - destruct (den e1), (den e2), (den e3); try discriminate. splits; eauto.
  - destruct (den e1), (den e2); try discriminate. eauto.
Qed.

Lemma lams_tree : forall xs v a, ast_of v = Some a -> ast_of (lams xs v) = Some (lambdas xs a).
Proof.
  induction xs as [|x xs IH]; intros v a H; auto. cbn [lams lambdas]. unfold ast_lambda. cbn [ast_of].
  rewrite (IH v a H). auto.
Qed.

Lemma define_built : forall n s env d y, literals_ok (d_body d) -> den (d_body d) = Some y ->
  build_parser (ev n def_parser) s = Built (def_value d y) ->
  define cfg n s env = Ok ((d_name d, def_tree d) :: env).
Proof.
  intros n s env d y Lo D B. destruct (den_some _ Lo) as (v & D' & Tv). rewrite D in D'. injection D' as <-.
  unfold define. change (eval cfg hs_program n def_parser) with (ev n def_parser). rewrite B.
  unfold def_value, mpl_pair, ast_top_bound. cbn [ast_of]. rewrite (lams_tree _ _ _ Tv). reflexivity.
Qed.

Lemma define_complete : forall n s env d, dtext plain d s -> literals_ok (d_body d) -> (length s < n)%nat ->
  define cfg n s env = Ok ((d_name d, def_tree d) :: env).
Proof.
  intros n s env d T Lo L. pose proof (def_complete n d s (mkpos 1 1 0) T L) as C.
  destruct (den_some _ Lo) as (v & D & _). rewrite D in C. destruct C as (p' & C).
  eapply define_built; eauto. apply build_parser_built. eauto.
Qed.
Lemma define_bad_literal : forall n s d, dtext plain d s -> ~ literals_ok (d_body d) -> (length s < n)%nat ->
  build_parser (ev n def_parser) s = BuildIllformed.
Proof.
  intros n s d T Lo L. pose proof (def_complete n d s (mkpos 1 1 0) T L) as C.
  destruct (den (d_body d)) as [y|] eqn:D; [apply den_ok in D; tauto|].
  apply build_parser_other. auto.
Qed.
Lemma define_sound : forall n s env env', (length s < n)%nat -> define cfg n s env = Ok env' ->
  exists d, dtext run_on d s /\ literals_ok (d_body d) /\ env' = (d_name d, def_tree d) :: env.
Proof.
  intros n s env env' L E.
  assert (B : exists v, build_parser (ev n def_parser) s = Built v).
  { unfold define in E. change (eval cfg hs_program n def_parser) with (ev n def_parser) in E.
    destruct (build_parser (ev n def_parser) s); try discriminate. eauto. }
  destruct B as (v & B). pose proof B as B'. apply build_parser_built in B as (t & p' & B).
  apply def_sound in B as (-> & d & y & T & D & ->); auto.
  pose proof (den_ok _ _ D) as Lo. exists d. splits; auto.
  rewrite (define_built n s env d y Lo D B') in E. congruence.
Qed.

End Definitions.

(** *** Termination *)

Lemma hs_well_founded : well_founded_program nul0 rank0 1 0 hs_program.
Proof.
  constructor; [|reflexivity|reflexivity].
  intros i. unfold hs_program, cmp_exp, plus_exp, mult_exp, application_exp, single_exp, if_exp, bracket_exp, hs_name,
    hs_int, hs_if, hs_then, hs_else, hs_open, hs_close, hs_cmp, hs_plus, hs_minus, hs_mult, hs_div, always_c_str.
  every_solve; auto.
Qed.
Lemma define_terminates : forall cfg n s env, (2 * length s + 3 < n)%nat -> define cfg n s env <> Deep.
Proof.
  intros cfg n s env L. unfold define.
  assert (T : build_parser (eval cfg hs_program n def_parser) s <> BuildOutOfFuel).
  { intros E. apply build_parser_other in E. revert E.
    apply (eval_terminates cfg nul0 rank0 1 0 hs_program hs_well_founded n def_parser s _ 1); auto; [|lia].
    unfold def_parser, hs_definition, hs_name, hs_define. every_solve; auto. }
  destruct (build_parser (eval cfg hs_program n def_parser) s); try congruence; clear T;
  repeat (try discriminate; match goal with |- context [match ?x with _ => _ end] => destruct x end); discriminate.
Qed.

(** ** Readings *)

Lemma etext_suffix : forall r k e s t, etext r k e s t -> exists u, s = u ++ t.
Proof.
  intros r k e s t H. induction H.
  - destruct H as (-> & _). exists (ds ++ w). rewrite app_assoc. auto.
  - destruct H as (u & -> & _). exists (x ++ u). rewrite app_assoc. auto.
  - destruct H as (u & -> & _), IHetext as (v & ->), H1 as (w & -> & _).
    exists (text "(" ++ u ++ v ++ text ")" ++ w). rewrite !app_assoc. auto.
  - destruct H as (u & -> & _), IHetext1 as (v & ->), H1 as (w & -> & _), IHetext2 as (x & ->),
      H3 as (y & -> & _), IHetext3 as (z & ->).
    exists (text "if" ++ u ++ v ++ text "then" ++ w ++ x ++ text "else" ++ y ++ z). rewrite !app_assoc. auto.
  - destruct IHetext1 as (u & ->), IHetext2 as (v & ->). exists (u ++ v). rewrite app_assoc. auto.
  - destruct IHetext1 as (u & ->), H2 as (v & -> & _), IHetext2 as (w & ->).
    exists (u ++ op_text o ++ v ++ w). rewrite !app_assoc. auto.
  - auto.
Qed.

Lemma if_separate_suffix : forall u s, if_separate (u ++ s) -> if_separate s.
Proof. intros u s H a b ->. apply (H (u ++ a)). rewrite app_assoc. auto. Qed.
Lemma without_ne_suffix : forall u s, without_ne (u ++ s) -> without_ne s.
Proof. intros u s H a b ->. apply (H (u ++ a) b). rewrite app_assoc. auto. Qed.

Lemma sep_name : forall x s t, if_separate s -> name_text x s t -> ~ prefix (text "if") x.
Proof.
  intros x s t S (u & -> & (c & v & -> & C & F) & R & _) (w & E).
  injection E as -> ->. destruct w as [|d w]; [apply R; left; auto|].
  assert (N : not_starting_with name_char ((d :: w) ++ u ++ t)).
  { apply (S []). simpl. auto. }
  simpl in N. inversion F as [|? ? _ F']; subst. inversion F'; subst. auto.
Qed.
Lemma sep_key : forall l s t, if_separate s -> key_text l (text "if") s t -> key_text false (text "if") s t.
Proof.
  intros l s t S (u & -> & F & N & _). exists u. splits; auto. right. apply (S []). auto.
Qed.

Lemma key_suffix : forall l k s t, key_text l k s t -> exists u, s = u ++ t.
Proof. intros l k s t (u & -> & _). exists (k ++ u). rewrite app_assoc. auto. Qed.
Lemma lexeme_suffix : forall k s t, lexeme_text k s t -> exists u, s = u ++ t.
Proof. intros k s t (u & -> & _). exists (k ++ u). rewrite app_assoc. auto. Qed.

Lemma separate_etext : forall r r' k e s t, if_separate s ->
  (forall x, ~ prefix (text "if") x -> r_names r' x) ->
  (forall o, (without_ne s -> o <> BNe) -> r_ops r o -> r_ops r' o) ->
  etext r k e s t -> etext r' k e s t.
Proof.
  intros r r' k e s t S Hn Ho H. revert S Ho. induction H; intros S Ho.
  - econstructor; eauto.
  - apply et_var; auto. apply Hn. eapply sep_name; eauto.
  - destruct (lexeme_suffix _ _ _ H) as (u & ->). eapply et_paren; eauto. apply IHetext.
    + eapply if_separate_suffix; eauto.
    + intros o N. apply Ho. intros W. apply N. eapply without_ne_suffix; eauto.
  - pose proof (sep_key _ _ _ S H) as K.
    destruct (key_suffix _ _ _ _ H) as (u1 & ->).
    destruct (etext_suffix _ _ _ _ _ H0) as (u2 & ->). destruct (key_suffix _ _ _ _ H1) as (u3 & ->).
    destruct (etext_suffix _ _ _ _ _ H2) as (u4 & ->). destruct (key_suffix _ _ _ _ H3) as (u5 & ->).
    assert (K' : key_text (r_loose r') (text "if") (u1 ++ u2 ++ u3 ++ u4 ++ u5 ++ s5) (u2 ++ u3 ++ u4 ++ u5 ++ s5)).
    { destruct K as (u & E & F & N & [D|D]); [discriminate|]. exists u. splits; auto. }
    eapply et_if; eauto.
    + apply IHetext1; [eapply if_separate_suffix; eauto|].
      intros o N. apply Ho. intros W. apply N. eapply without_ne_suffix; eauto.
    + apply IHetext2; [do 3 eapply if_separate_suffix; eauto|].
      intros o N. apply Ho. intros W. apply N. do 3 eapply without_ne_suffix; eauto.
    + apply IHetext3; [do 5 eapply if_separate_suffix; eauto|].
      intros o N. apply Ho. intros W. apply N. do 5 eapply without_ne_suffix; eauto.
  - pose proof H as H'. apply etext_suffix in H' as (u & ->). eapply et_call; eauto. apply IHetext2.
    + eapply if_separate_suffix; eauto.
    + intros o N. apply Ho. intros W. apply N. eapply without_ne_suffix; eauto.
  - pose proof H1 as H'. apply etext_suffix in H' as (u & ->).
    pose proof H2 as H'. apply lexeme_suffix in H' as (v & ->).
    eapply et_op; eauto.
    + apply Ho; auto. intros W ->. destruct H2 as (w & E & _). cbn [op_text] in E.
      apply (W u (w ++ s2)). rewrite <- E. auto.
    + apply IHetext2; [do 2 eapply if_separate_suffix; eauto|].
      intros o' N. apply Ho. intros W. apply N. do 2 eapply without_ne_suffix; eauto.
  - apply et_up; auto.
Qed.

Lemma params_suffix : forall xs s t, params_text xs s t -> exists u, s = u ++ t.
Proof.
  induction 1 as [s|x xs s s1 t (u & -> & _) _ (v & ->)]; [exists []; auto|].
  exists (x ++ u ++ v). rewrite !app_assoc. auto.
Qed.

Lemma separate_dtext : forall r r' d s, if_separate s ->
  (forall x, ~ prefix (text "if") x -> r_names r' x) ->
  (forall o, (without_ne s -> o <> BNe) -> r_ops r o -> r_ops r' o) ->
  dtext r d s -> dtext r' d s.
Proof.
  intros r r' d s S Hn Ho (s1 & s2 & s3 & A & B & C & D). exists s1, s2, s3. splits; auto.
  assert (E : exists u, s = u ++ s3).
  { destruct A as (a & -> & _), (params_suffix _ _ _ B) as (b & ->), (lexeme_suffix _ _ _ C) as (c & ->).
    exists (d_name d ++ a ++ b ++ c). rewrite !app_assoc. auto. }
  destruct E as (u & ->). refine (separate_etext r r' _ _ _ _ (if_separate_suffix u s3 S) Hn _ D).
  intros o N. apply Ho. intros W. apply N. eapply without_ne_suffix; eauto.
Qed.

Lemma separate_plain : forall d s, if_separate s -> dtext run_on d s -> dtext plain d s.
Proof. intros d s S. apply separate_dtext; auto. Qed.
Lemma documented_plain : forall d s, if_separate s -> without_ne s -> dtext documented d s -> dtext plain d s.
Proof. intros d s S W. apply separate_dtext; auto. intros o N _. apply N. exact W. Qed.

Lemma etext_weaken : forall r r', (r_loose r = true -> r_loose r' = true) ->
  (forall x, r_names r x -> r_names r' x) -> (forall o, r_ops r o -> r_ops r' o) ->
  forall k e s t, etext r k e s t -> etext r' k e s t.
Proof.
  intros r r' Hl Hn Ho k e s t H. induction H.
  - econstructor; eauto.
  - apply et_var; auto.
  - eapply et_paren; eauto.
  - eapply et_if; eauto. destruct H as (u & E & F & N & [D|D]); exists u; splits; auto.
  - eapply et_call; eauto.
  - eapply et_op; eauto.
  - apply et_up; auto.
Qed.
Lemma plain_documented : forall d s, dtext plain d s -> dtext documented d s.
Proof.
  intros d s (s1 & s2 & s3 & A & B & C & D). exists s1, s2, s3. splits; auto.
  eapply etext_weaken; [..|exact D]; simpl; auto.
Qed.
Lemma plain_run_on : forall d s, dtext plain d s -> dtext run_on d s.
Proof.
  intros d s (s1 & s2 & s3 & A & B & C & D). exists s1, s2, s3. splits; auto.
  eapply etext_weaken; [..|exact D]; simpl; auto.
Qed.

(** ** Texts without a reading *)

Lemma no_exp : forall r k e s t, single_stop s -> ~ etext r k e s t.
Proof.
  intros r k e s t [N|(w & v & -> & W & N)] X.
  - destruct (etext_starts _ _ _ _ _ X) as (c & u & -> & C). auto.
  - remember (w ++ v) as s. revert w v Heqs W N.
    induction X as [ds w0 t s Ln | x s t T Nx | e s s1 s2 t T1 X1 IH1 T2 |
      c a b s s1 s2 s3 s4 s5 t K1 X1 IH1 K2 X2 IH2 K3 X3 IH3 Et | f a s s1 t X1 IH1 X2 IH2 |
      o k a b s s1 s2 t Lo Ro X1 IH1 T X2 IH2 | k e s t Lk X IH]; intros w v E W N; subst s; eauto.
    + destruct (digit_first _ _ _ _ Ln) as (c & u & E & D). unfold digit_char in D.
      destruct W as [-> | ->]; injection E as <- _; slia.
    + destruct T as (u & E & Wx & R & _ & N' & _).
      destruct (word_reading_unique w v x (u ++ t)) as (-> & _); auto.
      * destruct W as [-> | ->].
        -- exists 116, [104; 101; 110]. splits; [reflexivity|left; unfold letter_char; lia|].
           repeat (apply Forall_cons; [left; unfold letter_char; lia|]). apply Forall_nil.
        -- exists 101, [108; 115; 101]. splits; [reflexivity|left; unfold letter_char; lia|].
           repeat (apply Forall_cons; [left; unfold letter_char; lia|]). apply Forall_nil.
      * apply R. unfold reserved. tauto.
    + destruct T1 as (u & E & _). destruct W as [-> | ->]; discriminate.
    + destruct K1 as (u & E & _). destruct W as [-> | ->]; discriminate.
Qed.

Lemma op_not_fol : forall o s t, fol 4 s -> ~ lexeme_text (op_text o) s t.
Proof.
  intros o s t ((((_ & A) & B) & C) & D) (u & -> & _).
  assert (F : forall c w, op_text o ++ u ++ t = c :: w ->
    starter 1 c \/ starter 2 c \/ starter 3 c).
  { intros c w E. destruct o; injection E as <- _; simpl; tauto. }
  destruct (op_text o ++ u ++ t) as [|c w] eqn:Eq; [destruct o; discriminate|].
  destruct (F c w eq_refl) as [G|[G|G]]; cbn [stop not_starting_with] in *; auto.
Qed.

(** after a name that no expression goes on with *)
Lemma name_alone : forall r k e s t, etext r k e s t -> r_loose r = false ->
  forall x t1, name_text x s t1 -> fol 4 t1 -> t = t1.
Proof.
  intros r k e s t X Hl.
  induction X as [ds w0 t s Ln | x0 s t T Nx | e s s1 s2 t T1 X1 IH1 T2 |
      c a b s s1 s2 s3 s4 s5 t K1 X1 IH1 K2 X2 IH2 K3 X3 IH3 Et | f a s s1 t X1 IH1 X2 IH2 |
      o k a b s s1 s2 t Lo Ro X1 IH1 T X2 IH2 | k e s t Lk X IH]; intros x t1 Nm F; eauto.
  - exfalso. destruct (digit_first _ _ _ _ Ln) as (c & u & -> & D).
    destruct (name_first _ _ _ Nm) as (c' & u' & E & D'). injection E as -> ->.
    exact (digit_not_lead _ D D').
  - exact (proj2 (name_text_unique _ _ _ _ _ T Nm)).
  - exfalso. destruct T1 as (u & -> & _). destruct (name_first _ _ _ Nm) as (c' & u' & [= <- _] & D').
    unfold lead, letter_char in D'. slia.
  - exfalso. rewrite Hl in K1. destruct K1 as (u & -> & _ & _ & [D|D]); [discriminate|].
    destruct Nm as (u' & E & Wx & R & _ & N' & _).
    destruct (word_reading_unique (text "if") (u ++ s1) x (u' ++ t1)) as (<- & _); auto.
    + exists 105, [102]. splits; [reflexivity|left; unfold letter_char; lia|].
      apply Forall_cons; [left; unfold letter_char; lia|apply Forall_nil].
    + apply R. left. auto.
  - exfalso. pose proof (IH1 x t1 Nm F) as ->. destruct F as ((((_ & A) & _) & _) & _).
    eapply no_exp; eauto.
  - exfalso. pose proof (IH1 x t1 Nm F) as ->. eapply op_not_fol; eauto.
Qed.
