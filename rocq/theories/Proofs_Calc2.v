(** Proofs about the calculators, second part: where the parsers stop, and the
    complete calculators (C48, C49). *)

From Coq Require Import ZArith List Bool Lia.
From Verif Require Import Base Util Combinators Variadic Parsers Deep Calculator Spec SpecDeep SpecTerm
  SpecType SpecCalc Proofs_Pos Proofs_Fold Proofs_Variadic Proofs_Parsers Proofs_Parsers2
  Proofs_Deep Proofs_Final1 Proofs_Final2 Proofs_Final3 Proofs_Final5 Proofs_Term Proofs_Grammar
  Proofs_Peg Properties_Deep Properties_Term Proofs_Calc.
Import ListNotations.
Open Scope Z_scope.

Definition no_natives : pexpr -> Prop :=
  natives (fun p => sound_accept p /\ sound_reject p) (fun f => keeps_errors f /\ keeps_positions f).

Lemma no_natives_accept : forall e, every no_natives e -> every (natives sound_accept keeps_errors) e.
Proof. intros e. apply every_impl. intros x H. destruct x; simpl in *; tauto. Qed.

Section Calc2.

Variable cfg : config.
Hypothesis fits_c : calc_fits cfg.
Variable env : program.
Notation ev := (eval cfg env).

(** *** Beyond a point *)

(** An acceptance leaves at most [m]; a rejection is only possible if [rej]. *)
Definition beyond (m : str) (rej : Prop) (o : outcome) : Prop :=
  match o with
  | Accept _ rem _ => (length rem <= length m)%nat
  | Reject _ _ => rej
  | _ => True
  end.

Lemma beyond_le : forall m m' (r r' : Prop) o, (length m <= length m')%nat -> (r -> r') ->
  beyond m r o -> beyond m' r' o.
Proof. intros m m' r r' [v rem ps|msg ps| | ] L R; simpl; auto. lia. Qed.

Lemma gfold_beyond : forall strict n X o1 o2 operand f, sound_exp X (ev n operand) ->
  forall j st m ps, beyond m (strict = true) (gfold strict j (item cfg env n (level_ops o1 o2) operand) st f m ps).
Proof.
  intros strict n X o1 o2 operand f SX j. induction j as [|j IH]; intros st m ps.
  - destruct strict; exact I.
  - destruct (item cfg env n (level_ops o1 o2) operand m ps) as [r s1 ps1 | m' pe | | ] eqn:E.
    + assert (E' := E). apply (item_sound cfg fits_c env n X) in E' as (o & b & us & y & _ & _ & _ & _ & T & _); auto.
      apply tokens_length in T. simpl in T.
      destruct st as [v|].
      * rewrite (gfold_step strict j _ v f m ps r s1 ps1 E).
        eapply beyond_le; [| |apply IH]; auto. lia.
      * rewrite gfold_none; [exact I|]. left. do 3 eexists; eauto.
    + destruct strict; simpl; rewrite E.
      * destruct (pos_equal_to ps pe); [|reflexivity]. destruct st; simpl; auto.
      * destruct st; simpl; auto.
    + rewrite gfold_ill by auto. exact I.
    + destruct strict; simpl; rewrite E; exact I.
Qed.

(** *** The end of a strict chain *)

Lemma two_reject_only : forall n c1 c2 s ps m pe,
  ev n (POneOf [lit_token c1; lit_token c2]) s ps = Reject m pe ->
  not_starting_with (fun k => k = c1 \/ k = c2) s.
Proof.
  intros n c1 c2 s ps m pe E. rewrite ev_two in E.
  assert (R : rejects (one_of cfg [ev n (lit_token c1); ev n (lit_token c2)]) s ps) by (do 2 eexists; eauto).
  pose proof (proj1 (one_of_cfg_all_reject cfg [ev n (lit_token c1); ev n (lit_token c2)] s ps (cfo cfg fits_c 2 ltac:(lia))) R) as R2.
  destruct s as [|k s]; simpl; auto. intros K.
  assert (X : forall c, rejects (ev n (lit_token c)) (k :: s) ps -> k <> c).
  { intros c (m' & pe' & E') ->. rewrite ev_lit_token in E'.
    apply token_reject in E'; [|apply (cfs cfg fits_c); lia].
    destruct (lit_c_class c) as (A & _). rewrite (A c s ps (adv ps [c])) in E' by (auto; apply walk_adv).
    discriminate. }
  destruct K as [->| ->]; [apply (X c1) | apply (X c2)]; auto; apply R2; simpl; auto.
Qed.

Hypothesis clean_env : program_every no_natives env.

Lemma strict_follow : forall n X o1 o2 operand rem ps m, sound_exp X (ev n operand) ->
  every no_natives operand ->
  item cfg env n (level_ops o1 o2) operand rem ps = Reject m ps ->
  not_starting_with (starts_op o1 o2) rem.
Proof.
  intros n X o1 o2 operand rem ps m SX Ev E. rewrite item_eq in E by exact fits_c.
  destruct (ev n (level_ops o1 o2) rem ps) as [v1 s1 ps1 | m1 pe1 | | ] eqn:E1; try discriminate.
  2: { eapply two_reject_only. exact E1. }
  exfalso.
  destruct (ev n operand s1 ps1) as [v2 s2 ps2 | m2 pe2 | | ] eqn:E2; try discriminate.
  injection E as _ ->.
  assert (A : sound_accept (ev n (level_ops o1 o2))).
  { apply eval_sound_accept.
    - intros k. apply no_natives_accept. apply clean_env.
    - apply no_natives_accept. unfold level_ops, lit_token, no_natives. every_solve; auto. }
  assert (T1 := E1). apply (two_sound cfg fits_c) in T1 as (k & _ & _ & T1); try apply op_of_op_char.
  apply tokens_length in T1. simpl in T1.
  apply A in E1 as (w1 & -> & W1).
  apply (eval_sound_reject cfg env n operand clean_env Ev) in E2 as (w2 & _ & W2).
  assert (W : walk ps (w1 ++ w2) ps) by (eapply walk_app; eauto).
  assert (N : w1 ++ w2 <> []).
  { intros H. apply app_eq_nil in H as (-> & _). simpl in T1. slia. }
  destruct (positions_increase _ _ _ N W) as (_ & Q).
  rewrite pos_equal_to_refl in Q. discriminate.
Qed.

Section Style2.

Variables (sst : sign_style) (pst : prim_style) (strict1 strict0 : bool) (fu fm fp : mf2).
Hypothesis Hu : sign_op sst fu.
Hypothesis Hm : level_op Mul Div fm.
Hypothesis Hp : level_op Add Sub fp.
Notation d := (style_dialect sst pst).
Hypothesis Henv : brackets d = true -> env 0%nat = gsum sst pst strict1 strict0 fu fm fp.

Lemma signed_s : forall n, sound_exp (signed d) (ev n (gsigned sst (gprim pst) fu)).
Proof.
  intros n. apply signed_sound; auto. apply prim_sound; auto.
  eapply ref_sum_sound; eauto.
Qed.
Lemma product_s : forall n, sound_exp (product d) (ev n (gproduct sst pst strict1 fu fm)).
Proof. intros n. eapply gproduct_sound; eauto. eapply ref_sum_sound; eauto. Qed.

Lemma gprim_clean : every no_natives (gprim pst).
Proof. unfold no_natives. destruct pst; unfold gprim, int_token, paren_exp; every_solve; auto. Qed.
Lemma gsigned_clean : every no_natives (gsigned sst (gprim pst) fu).
Proof.
  assert (P := gprim_clean). destruct sst; auto; simpl gsigned;
    (apply every_intro; [exact I|]); intros c [<-|[<-|[]]]; auto;
    unfold gsign, plus_token, minus_token, no_natives; every_solve; auto.
Qed.
Lemma chain_clean : forall strict o1 o2 operand f, every no_natives operand ->
  every no_natives (chain strict (level_ops o1 o2) operand f).
Proof.
  intros strict o1 o2 operand f H.
  assert (S : every no_natives (PSequence [level_ops o1 o2; operand])).
  { apply every_intro; [exact I|]. intros c [<-|[<-|[]]]; auto.
    unfold level_ops, lit_token, no_natives. every_solve; auto. }
  destruct strict; unfold chain; (apply every_intro; [exact I|]); intros c [<-|[<-|[]]]; auto.
Qed.
Lemma gproduct_clean : every no_natives (gproduct sst pst strict1 fu fm).
Proof. apply chain_clean, gsigned_clean. Qed.

(** After two strict chains no operator follows. *)
Lemma strict_sum_follow : forall n s ps v rem ps', strict1 = true ->
  ev n (gsum sst pst strict1 true fu fm fp) s ps = Accept v rem ps' ->
  not_starting_with operator_char rem.
Proof.
  intros n s ps v rem ps' W E.
  apply (chain_last cfg fits_c env Add Sub fp true n (gproduct sst pst strict1 fu fm) (product d)) in E
    as ((s0 & ps0 & v0 & E0) & m & pe & Ei & P); [|apply product_s].
  rewrite (P eq_refl) in Ei.
  apply (strict_follow n (product d)) in Ei; [|apply product_s | apply gproduct_clean].
  apply (chain_last cfg fits_c env Mul Div fm strict1 n (gsigned sst (gprim pst) fu) (signed d)) in E0
    as (_ & m1 & pe1 & Ei1 & P1); [|apply signed_s].
  rewrite (P1 W) in Ei1.
  apply (strict_follow n (signed d)) in Ei1; [|apply signed_s | apply gsigned_clean].
  destruct rem as [|c rem]; simpl in *; auto. unfold starts_op, operator_char in *. simpl in *. lia.
Qed.

(** *** The longest expression *)

Lemma product_beyond : forall e ts n s ps m, product d e ts -> tokens s ts m -> (length s < n)%nat ->
  beyond m (strict1 = true) (ev n (gproduct sst pst strict1 fu fm) s ps).
Proof.
  intros e ts n s ps m P T L.
  destruct (products_complete cfg fits_c env sst pst strict1 strict0 fu fm fp Hu Hm Hp Henv e ts P
              n s ps m T I L) as [(z & j & ps' & _ & _ & E)|(_ & [E|(j & ps' & _ & E)])];
    unfold gproduct; rewrite E; try exact I; apply (gfold_beyond strict1 n (signed d)); apply signed_s.
Qed.

Lemma sum_beyond : forall e ts n s ps m strict2, strict1 = false ->
  sum d e ts -> tokens s ts m -> (length s < n)%nat ->
  beyond m (strict2 = true) (ev n (gsum sst pst strict1 strict2 fu fm fp) s ps).
Proof.
  intros e ts n s ps m strict2 W S T L.
  assert (More : forall o a b ts us, o = Add \/ o = Sub -> sum d a ts -> product d b us ->
    tokens s (ts ++ COp (op_of o) :: us) m ->
    beyond m (strict2 = true) (ev n (gsum sst pst strict1 strict2 fu fm fp) s ps)).
  { clear e ts S T. intros o a b ts us O Sa Pb T. apply tokens_app_inv in T as (m1 & T1 & T2).
    assert (F : product_follow m1).
    { destruct (op_head _ _ _ _ T2) as (t & ->). unfold product_follow, starts_op. simpl.
      destruct O as [->| ->]; simpl; lia. }
    assert (L1 := tokens_length _ _ _ T1). assert (L2 := tokens_length _ _ _ T2). simpl in L2.
    destruct (tokens_cons_app _ _ _ _ T2) as (m2 & T3 & T4).
    assert (L3 := tokens_length _ _ _ T3). simpl in L3.
    assert (G : forall j st ps', (length m1 < j)%nat -> beyond m (strict2 = true)
      (gfold strict2 j (item cfg env n (level_ops Add Sub) (gproduct sst pst strict1 fu fm)) st fp m1 ps')).
    { intros j st ps' Lj. destruct j as [|j]; [lia|].
      destruct (two_complete cfg fits_c env n 43 45 (op_of o) m1 ps' m2) as (ps2 & E2); auto;
        [destruct O; subst; auto | lia | lia |].
      assert (B := product_beyond b us n m2 ps2 m Pb T4 ltac:(lia)).
      assert (Ei := item_eq cfg fits_c env n (level_ops Add Sub) (gproduct sst pst strict1 fu fm) m1 ps').
      unfold level_ops in Ei at 2. simpl op_of in Ei. rewrite E2 in Ei.
      destruct (ev n (gproduct sst pst strict1 fu fm) m2 ps2) as [v rem ps3 | mm pe | | ].
      - simpl in B. destruct st as [v0|].
        + rewrite (gfold_step _ _ _ _ _ _ _ _ _ _ Ei).
          eapply beyond_le; [exact B | | apply (gfold_beyond strict2 n (product d)); apply product_s]. auto.
        + rewrite gfold_none; [exact I|]. left. do 3 eexists; eauto.
      - simpl in B. congruence.
      - rewrite gfold_ill by auto. exact I.
      - destruct strict2; simpl; rewrite Ei; exact I. }
    destruct (all_complete cfg fits_c env sst pst strict1 strict0 fu fm fp Hu Hm Hp Henv a ts Sa strict2
                n s ps m1 T1 F L) as [(z & j & ps' & _ & Lj & E)|(_ & [E|(j & ps' & Lj & E)])];
      unfold gsum; rewrite E; try exact I; apply G; auto. }
  destruct S as [e ts P | a b ts us Sa Pb | a b ts us Sa Pb].
  - unfold gsum. rewrite ev_chain.
    assert (B := product_beyond e ts n s ps m P T L).
    destruct (ev n (gproduct sst pst strict1 fu fm) s ps) as [v rem ps1 | mm pe | | ]; simpl in *; auto; [|congruence].
    eapply beyond_le; [exact B | | apply (gfold_beyond strict2 n (product d)); apply product_s]. auto.
  - apply (More Add a b ts us); auto.
  - apply (More Sub a b ts us); auto.
Qed.

End Style2.
(** ** The calculators *)

Definition calc (top : pexpr) : pexpr :=
  PEntireInput (PLastOf [PRepeated PSpace; top]) end_of_input_expected.

Lemma ev_calc : forall n top, ev n (calc top)
  = entire_input cfg (last_of cfg [repeated n space; ev n top]) end_of_input_expected.
Proof. destruct n; reflexivity. Qed.

Lemma calc_sound : forall n d top s ps v s' ps', sound_exp (sum d) (ev n top) ->
  ev n (calc top) s ps = Accept v s' ps' ->
  exists e z, v = VInt z /\ calc_text d e s /\ means e z.
Proof.
  intros n d top s ps v s' ps' ST E. rewrite ev_calc in E.
  apply entire_input_accept in E as (E & ->); [|apply (cfs cfg fits_c); lia].
  rewrite last_of_2 in E by (apply (cfs cfg fits_c); lia).
  destruct (repeated n space s ps) as [v1 s1 ps1 | | | ] eqn:E1; try discriminate.
  apply repeated_space_accept in E1 as (w & -> & Fw & _).
  apply ST in E as (e & ts & z & -> & M & S & T).
  exists e, z. splits; auto. exists w, s1, ts. auto.
Qed.

Lemma exp_tokens_nonempty : forall d,
  (forall e ts, primary d e ts -> ts <> []) /\ (forall e ts, signed d e ts -> ts <> []) /\
  (forall e ts, product d e ts -> ts <> []) /\ (forall e ts, sum d e ts -> ts <> []).
Proof.
  intros d. apply (exp_mutind d (fun e ts _ => ts <> []) (fun e ts _ => ts <> [])
    (fun e ts _ => ts <> []) (fun e ts _ => ts <> [])); intros; auto; try discriminate;
    intros Q; apply app_eq_nil in Q as (_ & Q); discriminate.
Qed.

Lemma tokens_not_space : forall s ts rem, tokens s ts rem -> ts <> [] -> not_starting_with space_char s.
Proof.
  intros s ts rem T N. destruct ts as [|[ds|c] ts]; [congruence| |].
  - apply num_head in T as (c & t & -> & D). simpl. unfold digit_char, space_char in *. lia.
  - assert (O : op_char c).
    { apply tokens_cons_inv in T as (l & w & t & _ & L & _). inversion L; auto. }
    apply op_head in T as (t & ->). simpl. unfold op_char, space_char in *. simpl in O. lia.
Qed.

Lemma calc_complete : forall n d top e s ps,
  (forall ts s ps, sum d e ts -> tokens s ts [] -> (length s + 1 < n)%nat -> says e [] (ev n top s ps)) ->
  calc_text d e s -> (length s + 1 < n)%nat -> says e [] (ev n (calc top) s ps).
Proof.
  intros n d top e s ps C (w & t & ts & -> & Fw & T & S) L. rewrite app_length in L.
  assert (N : not_starting_with space_char t).
  { eapply tokens_not_space; eauto. eapply exp_tokens_nonempty; eauto. }
  assert (E1 : repeated n space (w ++ t) ps = Accept (VSeq (map VChar w)) t (adv ps w)).
  { apply repeated_space_accept. exists w. splits; auto; [slia | apply walk_adv]. }
  assert (H := C ts t (adv ps w) S T ltac:(slia)).
  rewrite ev_calc, entire_input_spec by (apply (cfs cfg fits_c); lia).
  rewrite last_of_2 by (apply (cfs cfg fits_c); lia). rewrite E1.
  destruct H as [(z & ps' & M & ->)|(M & ->)]; [left; eauto | right; auto].
Qed.

End Calc2.

(** ** The instances *)

Definition calc_programs : list program :=
  [no_program; calc2_program; calc3_program; tut20_program; tut23_program].

Ltac unfold_calc :=
  unfold calculator, calc1_expression, calc1_plus_exp, calc1_prod_exp,
    calculator_with_parens, calc2_expression, calc2_plus_exp, calc2_prod_exp, calc2_simple_exp,
    calculator_with_unary_ops, calc3_expression, calc3_plus_exp, calc3_prod_exp, calc3_simple_exp,
    plus_exp3, plus_exp5, plus_exp6, plus_exp_of, mult_exp2, mult_exp4, mult_exp6, mult_exp7,
    unary_exp1, unary_exp3, primary_exp3, paren_exp, int_token, plus_token, minus_token, mult_token,
    div_token, open_paren_token, close_paren_token,
    no_program, calc2_program, calc3_program, tut20_program, tut23_program,
    exp_parser16, exp_parser18, exp_parser20, exp_parser22, exp_parser23 in *.

Lemma programs_clean : forall env, In env calc_programs -> program_every no_natives env.
Proof.
  intros env H k. destruct H as [<-|[<-|[<-|[<-|[<-|[]]]]]]; unfold_calc; unfold no_natives; every_solve; auto.
Qed.

Lemma programs_well_founded : forall env, In env calc_programs -> well_founded_program nul0 rank0 1 0 env.
Proof.
  intros env H. constructor.
  - intros k. destruct H as [<-|[<-|[<-|[<-|[<-|[]]]]]]; unfold_calc; every_solve; auto.
  - intros k. destruct H as [<-|[<-|[<-|[<-|[<-|[]]]]]]; reflexivity.
  - intros k. destruct H as [<-|[<-|[<-|[<-|[<-|[]]]]]]; reflexivity.
Qed.

Lemma calc_terminates : forall cfg env n e s ps, In env calc_programs ->
  every (loops_read nul0 rank0 1 0) e -> left_ok nul0 rank0 1 e = true -> enough n s ->
  eval cfg env n e s ps <> OutOfFuel.
Proof.
  intros cfg env n e s ps H Ev L En.
  apply (eval_terminates cfg nul0 rank0 1 0 env (programs_well_founded env H) n e s ps 1); auto.
  unfold enough in En. lia.
Qed.

(** *** The calculators *)

Lemma calc_main : forall cfg env d top n s, calc_fits cfg -> (2 * length s + 4 < n)%nat ->
  In env calc_programs -> every (loops_read nul0 rank0 1 0) (calc top) ->
  left_ok nul0 rank0 1 (calc top) = true ->
  (forall n, sound_exp (sum d) (eval cfg env n top)) ->
  (forall e n ts s ps, sum d e ts -> tokens s ts [] -> (length s + 1 < n)%nat ->
     says e [] (eval cfg env n top s ps)) ->
  (forall v, build_parser (eval cfg env n (calc top)) s = Built v <->
     exists e z, v = VInt z /\ calc_text d e s /\ means e z)
  /\ (forall e, calc_text d e s -> meaningless e ->
     build_parser (eval cfg env n (calc top)) s = BuildIllformed)
  /\ build_parser (eval cfg env n (calc top)) s <> BuildOutOfFuel.
Proof.
  intros cfg env d top n s F L In Ev Lo S C.
  assert (X : forall e, calc_text d e s -> says e [] (eval cfg env n (calc top) s (mkpos 1 1 0))).
  { intros e T. eapply calc_complete; eauto. lia. }
  splits.
  - intros v. rewrite build_parser_built. split.
    + intros (s' & ps' & E). eapply calc_sound; eauto.
    + intros (e & z & -> & T & M). destruct (X e T) as [(z' & ps' & M' & E)|(N & _)].
      * same_means. eauto.
      * destruct (N z M).
  - intros e T N. apply build_parser_other. destruct (X e T) as [(z' & ps' & M' & E)|(_ & E)]; auto.
    destruct (N z' M').
  - intros E. apply build_parser_other in E. revert E. apply calc_terminates; auto. unfold enough. lia.
Qed.

Lemma calculator_is : calculator = calc (gsum NoSigns IntOnly true true negate_first eval_mult eval_plus).
Proof. reflexivity. Qed.
Lemma calc2_is : calculator_with_parens = calc (PRef 0) /\
  calc2_program 0%nat = gsum NoSigns IntParen true true negate_first eval_mult eval_plus.
Proof. split; reflexivity. Qed.
Lemma calc3_is : calculator_with_unary_ops = calc (PRef 0) /\
  calc3_program 0%nat = gsum BothSigns IntParen true true eval_unary_plus eval_mult eval_plus.
Proof. split; reflexivity. Qed.

(** The parser 0 of a program. *)
Lemma ref_complete : forall cfg env sst pst strict1 strict0 fu fm fp, calc_fits cfg ->
  sign_op sst fu -> level_op Mul Div fm -> level_op Add Sub fp ->
  env 0%nat = gsum sst pst strict1 strict0 fu fm fp ->
  forall e ts n s ps rem, sum (style_dialect sst pst) e ts -> tokens s ts rem ->
    not_starting_with operator_char rem -> (length s + 1 < n)%nat ->
    says e rem (eval cfg env n (PRef 0) s ps).
Proof.
  intros cfg env sst pst strict1 strict0 fu fm fp F Hu Hm Hp He e ts n s ps rem S T N L.
  destruct n as [|n]; [lia|]. change (eval cfg env (Datatypes.S n) (PRef 0)) with (eval cfg env n (env 0%nat)).
  rewrite He. eapply gsum_complete; eauto. lia.
Qed.

Lemma ref_sound : forall cfg env sst pst strict1 strict0 fu fm fp, calc_fits cfg ->
  sign_op sst fu -> level_op Mul Div fm -> level_op Add Sub fp ->
  env 0%nat = gsum sst pst strict1 strict0 fu fm fp ->
  forall n, sound_exp (sum (style_dialect sst pst)) (eval cfg env n (PRef 0)).
Proof.
  intros cfg env sst pst strict1 strict0 fu fm fp F Hu Hm Hp He n s ps v rem ps' E.
  destruct n as [|n]; [discriminate|].
  change (eval cfg env n (env 0%nat) s ps = Accept v rem ps') in E. rewrite He in E.
  eapply gsum_sound; eauto.
Qed.

Lemma calculator_main : forall cfg n s, calc_fits cfg -> (2 * length s + 4 < n)%nat ->
  (forall v, build_parser (eval cfg no_program n calculator) s = Built v <->
     exists e z, v = VInt z /\ calc_text plain_dialect e s /\ means e z)
  /\ (forall e, calc_text plain_dialect e s -> meaningless e ->
     build_parser (eval cfg no_program n calculator) s = BuildIllformed)
  /\ build_parser (eval cfg no_program n calculator) s <> BuildOutOfFuel.
Proof.
  intros cfg n s F L.
  apply (calc_main cfg no_program plain_dialect
           (gsum NoSigns IntOnly true true negate_first eval_mult eval_plus)); auto.
  - simpl; auto.
  - rewrite <- calculator_is. unfold_calc. every_solve; auto.
  - intros k. eapply (gsum_sound cfg F _ NoSigns IntOnly true true); try exact I.
    + apply eval_mult_ok.
    + apply eval_plus_ok.
    + discriminate.
  - intros e k ts t ps S T Lt.
    eapply (gsum_complete cfg F _ NoSigns IntOnly true true); eauto; try exact I; try lia.
    + apply eval_mult_ok.
    + apply eval_plus_ok.
    + discriminate.
Qed.

Lemma calculator_with_parens_main : forall cfg n s, calc_fits cfg -> (2 * length s + 4 < n)%nat ->
  (forall v, build_parser (eval cfg calc2_program n calculator_with_parens) s = Built v <->
     exists e z, v = VInt z /\ calc_text parens_dialect e s /\ means e z)
  /\ (forall e, calc_text parens_dialect e s -> meaningless e ->
     build_parser (eval cfg calc2_program n calculator_with_parens) s = BuildIllformed)
  /\ build_parser (eval cfg calc2_program n calculator_with_parens) s <> BuildOutOfFuel.
Proof.
  intros cfg n s F L.
  apply (calc_main cfg calc2_program parens_dialect (PRef 0)); auto.
  - simpl; auto.
  - unfold calc. every_solve; auto.
  - apply (ref_sound cfg _ NoSigns IntParen true true negate_first eval_mult eval_plus); auto;
      [exact I | apply eval_mult_ok | apply eval_plus_ok].
  - intros e k ts t ps S T Lt.
    apply (ref_complete cfg _ NoSigns IntParen true true negate_first eval_mult eval_plus F) with (ts := ts);
      auto; try exact I; [apply eval_mult_ok | apply eval_plus_ok].
Qed.

Lemma calculator_with_unary_ops_main : forall cfg n s, calc_fits cfg -> (2 * length s + 4 < n)%nat ->
  (forall v, build_parser (eval cfg calc3_program n calculator_with_unary_ops) s = Built v <->
     exists e z, v = VInt z /\ calc_text unary_dialect e s /\ means e z)
  /\ (forall e, calc_text unary_dialect e s -> meaningless e ->
     build_parser (eval cfg calc3_program n calculator_with_unary_ops) s = BuildIllformed)
  /\ build_parser (eval cfg calc3_program n calculator_with_unary_ops) s <> BuildOutOfFuel.
Proof.
  intros cfg n s F L.
  apply (calc_main cfg calc3_program unary_dialect (PRef 0)); auto.
  - simpl; auto.
  - unfold calc. every_solve; auto.
  - apply (ref_sound cfg _ BothSigns IntParen true true eval_unary_plus eval_mult eval_plus); auto;
      [apply eval_unary_plus_ok | apply eval_mult_ok | apply eval_plus_ok].
  - intros e k ts t ps S T Lt.
    apply (ref_complete cfg _ BothSigns IntParen true true eval_unary_plus eval_mult eval_plus F) with (ts := ts);
      auto; try exact I; [apply eval_unary_plus_ok | apply eval_mult_ok | apply eval_plus_ok].
Qed.

(** *** Printing *)

Lemma show_exp_ok : forall d e, brackets d = true -> printable d e ->
  sum d e (show_exp 0 e) /\ product d e (show_exp 1 e) /\ signed d e (show_exp 2 e).
Proof.
  intros d e B. induction e as [ds | a IH | a IH | o a IHa b IHb]; intros P.
  - assert (H : signed d (CLit ds) [CNum ds]) by (apply sg_primary; constructor).
    splits; auto; [apply su_one, pd_one | apply pd_one]; auto.
  - destruct P as (I & P). destruct (IH P) as (_ & _ & S).
    assert (H : signed d (CPos a) (COp 43 :: show_exp 2 a)) by (apply sg_plus; auto).
    splits; auto; [apply su_one, pd_one | apply pd_one]; auto.
  - destruct P as (I & P). destruct (IH P) as (_ & _ & S).
    assert (H : signed d (CNeg a) (COp 45 :: show_exp 2 a)) by (apply sg_minus; auto).
    splits; auto; [apply su_one, pd_one | apply pd_one]; auto.
  - destruct P as (Pa & Pb). destruct (IHa Pa) as (A0 & A1 & A2). destruct (IHb Pb) as (B0 & B1 & B2).
    destruct o; cbn [show_exp Nat.ltb Nat.leb in_parens op_of].
    + assert (H : sum d (CBin Add a b) (show_exp 0 a ++ COp 43 :: show_exp 1 b)) by (apply su_add; auto).
      assert (H' : signed d (CBin Add a b) (COp 40 :: (show_exp 0 a ++ COp 43 :: show_exp 1 b) ++ [COp 41]))
        by (apply sg_primary, pr_brackets; auto).
      splits; auto. apply pd_one; auto.
    + assert (H : sum d (CBin Sub a b) (show_exp 0 a ++ COp 45 :: show_exp 1 b)) by (apply su_sub; auto).
      assert (H' : signed d (CBin Sub a b) (COp 40 :: (show_exp 0 a ++ COp 45 :: show_exp 1 b) ++ [COp 41]))
        by (apply sg_primary, pr_brackets; auto).
      splits; auto. apply pd_one; auto.
    + assert (H : product d (CBin Mul a b) (show_exp 1 a ++ COp 42 :: show_exp 2 b)) by (apply pd_mul; auto).
      splits; auto; [apply su_one; auto|]. apply sg_primary, pr_brackets; auto. apply su_one; auto.
    + assert (H : product d (CBin Div a b) (show_exp 1 a ++ COp 47 :: show_exp 2 b)) by (apply pd_div; auto).
      splits; auto; [apply su_one; auto|]. apply sg_primary, pr_brackets; auto. apply su_one; auto.
Qed.

Definition good_tok (k : ctok) : Prop := clexeme k (ctok_text k).

Lemma show_exp_good : forall d e level, printable d e -> Forall good_tok (show_exp level e).
Proof.
  assert (Op : forall c, op_char c -> good_tok (COp c)) by (intros; constructor; auto).
  assert (Par : forall b ts, Forall good_tok ts -> Forall good_tok (in_parens b ts)).
  { intros [|] ts H; simpl; auto. constructor; [apply Op, op40|]. apply Forall_app. split; auto.
    constructor; auto. apply Op, op41. }
  intros d e. induction e as [ds | a IH | a IH | o a IHa b IHb]; intros level P; simpl in P.
  - constructor; auto. destruct P. constructor; auto.
  - simpl. constructor; [apply Op, op43|]. apply IH. tauto.
  - simpl. constructor; [apply Op, op45|]. apply IH. tauto.
  - destruct P as (Pa & Pb).
    destruct o; simpl; apply Par; apply Forall_app; (split; [apply IHa; auto|]);
      (constructor; [apply Op; first [apply (op_of_op_char Add) | apply (op_of_op_char Sub)
         | apply (op_of_op_char Mul) | apply (op_of_op_char Div)] | apply IHb; auto]).
Qed.

Lemma spaced_tokens : forall ts, Forall good_tok ts ->
  tokens (flat_map (fun k => ctok_text k ++ [32]) ts) ts [].
Proof.
  intros ts H. induction H as [|k ts G H IH]; [constructor|]. simpl. rewrite <- app_assoc.
  apply tk_cons; auto.
  - constructor; auto. unfold space_char. lia.
  - destruct ts as [|k' ts]; [exact I|]. eapply tokens_not_space; eauto. discriminate.
  - discriminate.
Qed.

Lemma print_exp_text : forall d e, brackets d = true -> printable d e -> calc_text d e (print_exp e).
Proof.
  intros d e B P. exists [], (print_exp e), (show_exp 0 e). splits; auto.
  - apply spaced_tokens. eapply show_exp_good; eauto.
  - apply show_exp_ok; auto.
Qed.

(** ** The tutorial *)

(** A parser that reads the longest expression at the start of the text. *)
Definition reads_longest (d : dialect) (n : nat) (p : nat -> pfun) : Prop :=
  forall s ps, (length s < n)%nat ->
  (forall v rem ps', p n s ps = Accept v rem ps' ->
     exists e z, v = VInt z /\ means e z /\ starts_with_exp d e s rem
       /\ forall e' rem', starts_with_exp d e' s rem' -> (length rem <= length rem')%nat)
  /\ (forall e rem m pe, starts_with_exp d e s rem -> p n s ps <> Reject m pe)
  /\ (forall e rem, starts_with_exp d e s rem -> not_starting_with operator_char rem -> says e rem (p n s ps)).

Lemma nonstrict_longest : forall cfg env sst pst strict0 fu fm fp n, calc_fits cfg ->
  sign_op sst fu -> level_op Mul Div fm -> level_op Add Sub fp ->
  (brackets (style_dialect sst pst) = true -> env 0%nat = gsum sst pst false strict0 fu fm fp) ->
  reads_longest (style_dialect sst pst) n (fun n => eval cfg env n (gsum sst pst false false fu fm fp)).
Proof.
  intros cfg env sst pst strict0 fu fm fp n F Hu Hm Hp He s ps L. splits.
  - intros v rem ps' E. assert (E' := E). apply (gsum_sound cfg F env sst pst false strict0) in E'; auto.
    destruct E' as (e & ts & z & -> & M & S & T). exists e, z. splits; auto.
    + exists ts. auto.
    + intros e' rem' (ts' & T' & S').
      assert (B := sum_beyond cfg F env sst pst false strict0 fu fm fp Hu Hm Hp He e' ts' n s ps rem' false
                     eq_refl S' T' ltac:(lia)).
      rewrite E in B. exact B.
  - intros e rem m pe (ts & T & S) E.
    assert (B := sum_beyond cfg F env sst pst false strict0 fu fm fp Hu Hm Hp He e ts n s ps rem false
                   eq_refl S T ltac:(lia)).
    rewrite E in B. discriminate.
  - intros e rem (ts & T & S) N. eapply gsum_complete; eauto.
Qed.

Lemma exp_parser16_longest : forall cfg n, calc_fits cfg ->
  reads_longest plain_dialect n (fun n => eval cfg no_program n exp_parser16).
Proof.
  intros cfg n F. apply (nonstrict_longest cfg no_program NoSigns IntOnly true negate_first binary_op binary_op n F).
  - exact I.
  - apply binary_op_ok.
  - apply binary_op_ok.
  - discriminate.
Qed.

Lemma exp_parser18_longest : forall cfg n, calc_fits cfg ->
  reads_longest minus_dialect n (fun n => eval cfg no_program n exp_parser18).
Proof.
  intros cfg n F. apply (nonstrict_longest cfg no_program MinusSign IntOnly true negate_first binary_op binary_op n F).
  - apply negate_first_ok.
  - apply binary_op_ok.
  - apply binary_op_ok.
  - discriminate.
Qed.

Lemma exp_parser20_longest : forall cfg n, calc_fits cfg ->
  reads_longest tutorial_dialect n (fun n => eval cfg tut20_program (S n) exp_parser20).
Proof.
  intros cfg n F.
  apply (nonstrict_longest cfg tut20_program MinusSign (IntParenFail missing_primary_expression) false
           negate_first binary_op binary_op n F).
  - apply negate_first_ok.
  - apply binary_op_ok.
  - apply binary_op_ok.
  - reflexivity.
Qed.

(** exp_parser22: the additions are strict. *)
Lemma exp_parser22_reads : forall cfg n s ps, calc_fits cfg -> (length s < n)%nat ->
  (forall v rem ps', eval cfg tut20_program n exp_parser22 s ps = Accept v rem ps' ->
     exists e z, v = VInt z /\ means e z /\ starts_with_exp tutorial_dialect e s rem
       /\ not_starting_with (fun c => c = 43 \/ c = 45) rem
       /\ forall e' rem', starts_with_exp tutorial_dialect e' s rem' -> (length rem <= length rem')%nat)
  /\ (forall e rem, starts_with_exp tutorial_dialect e s rem -> not_starting_with operator_char rem ->
     says e rem (eval cfg tut20_program n exp_parser22 s ps)).
Proof.
  intros cfg n s ps F L.
  assert (Henv : brackets (style_dialect MinusSign (IntParenFail missing_primary_expression)) = true ->
    tut20_program 0%nat = gsum MinusSign (IntParenFail missing_primary_expression) false false
      negate_first binary_op binary_op) by reflexivity.
  assert (Hu := negate_first_ok). assert (Hm := binary_op_ok Mul Div). assert (Hp := binary_op_ok Add Sub).
  split.
  - intros v rem ps' E.
    change exp_parser22 with (gsum MinusSign (IntParenFail missing_primary_expression) false true
                                negate_first binary_op binary_op) in E.
    assert (E' := E). apply (gsum_sound cfg F _ MinusSign (IntParenFail missing_primary_expression) false false) in E';
      auto.
    destruct E' as (e & ts & z & -> & M & S & T). exists e, z. splits; auto.
    + exists ts. auto.
    + apply (chain_last cfg F _ Add Sub binary_op true n
               (gproduct MinusSign (IntParenFail missing_primary_expression) false negate_first binary_op)
               (product tutorial_dialect)) in E as (_ & m & pe & Ei & P).
      * rewrite (P eq_refl) in Ei.
        apply (strict_follow cfg F tut20_program (programs_clean _ ltac:(simpl; auto)) n
                 (product tutorial_dialect)) in Ei; auto.
        -- apply (product_s cfg F tut20_program MinusSign (IntParenFail missing_primary_expression) false
                    false negate_first binary_op binary_op Hu Hm Hp Henv).
        -- eapply (gproduct_clean tut20_program); eauto.
      * apply (product_s cfg F tut20_program MinusSign (IntParenFail missing_primary_expression) false
                 false negate_first binary_op binary_op Hu Hm Hp Henv).
    + intros e' rem' (ts' & T' & S').
      assert (B := sum_beyond cfg F _ _ _ _ _ _ _ _ Hu Hm Hp Henv e' ts' n s ps rem' true
                     eq_refl S' T' ltac:(lia)).
      rewrite E in B. exact B.
  - intros e rem (ts & T & S) N.
    apply (gsum_complete cfg F tut20_program MinusSign (IntParenFail missing_primary_expression) false false
             negate_first binary_op binary_op Hu Hm Hp Henv true e ts); auto.
Qed.

Lemma exp_parser23_exact : forall cfg n s ps, calc_fits cfg -> (length s + 1 < n)%nat ->
  (forall v rem, (exists ps', eval cfg tut23_program n exp_parser23 s ps = Accept v rem ps') <->
     exists e z, v = VInt z /\ means e z /\ starts_with_exp tutorial_dialect e s rem
       /\ not_starting_with operator_char rem)
  /\ (forall e rem, starts_with_exp tutorial_dialect e s rem -> not_starting_with operator_char rem ->
     meaningless e -> eval cfg tut23_program n exp_parser23 s ps = Illformed).
Proof.
  intros cfg n s ps F L.
  assert (Henv : brackets (style_dialect MinusSign (IntParenFail missing_primary_expression)) = true ->
    tut23_program 0%nat = gsum MinusSign (IntParenFail missing_primary_expression) true true
      negate_first binary_op binary_op) by reflexivity.
  assert (Hu := negate_first_ok). assert (Hm := binary_op_ok Mul Div). assert (Hp := binary_op_ok Add Sub).
  destruct n as [|n]; [lia|].
  change (eval cfg tut23_program (S n) exp_parser23) with
    (eval cfg tut23_program n (gsum MinusSign (IntParenFail missing_primary_expression) true true
      negate_first binary_op binary_op)).
  assert (C : forall e rem, starts_with_exp tutorial_dialect e s rem -> not_starting_with operator_char rem ->
    says e rem (eval cfg tut23_program n (gsum MinusSign (IntParenFail missing_primary_expression) true true
      negate_first binary_op binary_op) s ps)).
  { intros e rem (ts & T & S) N.
    apply (gsum_complete cfg F tut23_program MinusSign (IntParenFail missing_primary_expression) true true
             negate_first binary_op binary_op Hu Hm Hp Henv true e ts); auto. lia. }
  split.
  - intros v rem. split.
    + intros (ps' & E). assert (E' := E).
      apply (gsum_sound cfg F _ MinusSign (IntParenFail missing_primary_expression) true true) in E'; auto.
      destruct E' as (e & ts & z & -> & M & S & T). exists e, z. splits; auto; [exists ts; auto|].
      apply (strict_sum_follow cfg F tut23_program (programs_clean tut23_program ltac:(simpl; auto 10))
               MinusSign (IntParenFail missing_primary_expression) true true negate_first binary_op binary_op
               Hu Hm Hp Henv n s ps (VInt z) rem ps' eq_refl E).
    + intros (e & z & -> & M & T & N). destruct (C e rem T N) as [(z' & ps' & M' & E)|(N' & _)].
      * same_means. eauto.
      * destruct (N' z M).
  - intros e rem T N Me. destruct (C e rem T N) as [(z' & ps' & M' & E)|(_ & E)]; auto.
    destruct (Me z' M').
Qed.

(** exp_parser19 and brackets in brackets *)
Section Nested.

Variable cfg : config.
Hypothesis F : calc_fits cfg.
Variables (env : program) (n : nat).
Hypothesis N : (0 < n)%nat.
Notation ev := (eval cfg env n).

Lemma operand_rejects : forall strict o1 o2 operand f s ps m pe, ev operand s ps = Reject m pe ->
  ev (chain strict (level_ops o1 o2) operand f) s ps = Reject m pe.
Proof. intros strict o1 o2 operand f s ps m pe E. rewrite ev_chain, E. reflexivity. Qed.

Lemma minus_fold_rejects : forall p c s ps m pe, c <> 45 -> ev p (c :: s) ps = Reject m pe ->
  ev (PFoldrStartWithParser minus_token p negate_first) (c :: s) ps = Reject m pe.
Proof.
  intros p c s ps m pe Nc E.
  change (ev (PFoldrStartWithParser minus_token p negate_first)) with
    (eval cfg env n (PFoldrStartWithParser (lit_token 45) p negate_first)).
  assert (H : ev (PFoldrStartWithParser (lit_token 45) p negate_first)
    = foldr_start_with_parser n (ev (lit_token 45)) (ev p) negate_first) by (destruct n; reflexivity).
  rewrite H. assert (R := lit_token_rejects cfg F env n 45 (c :: s) ps Nc). revert R E.
  generalize (ev (lit_token 45)) (ev p). intros l q R E.
  destruct n as [|k]; [lia|]. cbn [foldr_start_with_parser]. rewrite R. exact E.
Qed.

Lemma exp_parser19_nested : forall t ps, (length t + 2 <= n)%nat -> exists m pe,
  ev exp_parser19 (40 :: 40 :: t) ps = Reject m pe.
Proof.
  intros t ps L.
  assert (D : forall t, not_starting_with digit_char (40 :: t)).
  { intros u. simpl. unfold digit_char. lia. }
  assert (P1 : forall u q, ev plus_exp1 (40 :: u) q = Reject digit_expected q).
  { intros u q. apply (operand_rejects false Add Sub), (operand_rejects false Mul Div).
    apply minus_fold_rejects; [lia|]. apply (num_token_rejects cfg F); auto. }
  assert (P2 : exists q, ev paren_exp2 (40 :: 40 :: t) ps = Reject digit_expected q).
  { assert (H : ev paren_exp2 = middle_of cfg (ev (lit_token 40)) (ev plus_exp1) (ev (lit_token 41)))
      by (destruct n; reflexivity).
    rewrite H, middle_of_spec by (apply (cfs cfg F); lia).
    destruct (lit_token_complete cfg F env n 40 (40 :: 40 :: t) ps (40 :: t)) as (ps1 & ->).
    - apply (tokens_one (COp 40) [40] [] (40 :: t)); auto.
      + constructor. apply op40.
      + simpl. unfold space_char. lia.
    - simpl. slia.
    - rewrite P1. eauto. }
  assert (P3 : rejects (ev primary_exp2) (40 :: 40 :: t) ps).
  { assert (H : ev primary_exp2 = one_of cfg [ev int_token; ev paren_exp2]) by (destruct n; reflexivity).
    rewrite H. apply one_of_cfg_all_reject; [apply (cfo cfg F); simpl; lia|].
    destruct P2 as (q & P2).
    intros p [<-|[<-|[]]]; do 2 eexists; [apply (num_token_rejects cfg F); auto | exact P2]. }
  destruct P3 as (m & pe & P3). exists m, pe.
  apply (operand_rejects false Add Sub), (operand_rejects false Mul Div).
  apply minus_fold_rejects; [lia|]. exact P3.
Qed.

End Nested.
