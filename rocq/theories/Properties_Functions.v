(** C55 to C58: the examples meta_lambda, compile_to_native_code, meta_metaparse and
    grammar_calculator. *)

From Coq Require Import ZArith List Bool Lia QArith.
From Verif Require Import Base Util Combinators Variadic Parsers Deep Messages Grammar Calculator Functions
  Spec SpecTerm SpecGrammar SpecCalc SpecExamples SpecFun Proofs_Fold Proofs_Grammar Proofs_Calc
  Proofs_Calc2 Proofs_Examples Proofs_Functions.
Import ListNotations.
Open Scope Z_scope.

Local Definition c98 := default_config Std98.

(** Every text has at most one reading. *)
Theorem C55_unambiguous : forall var e e' s,
  (exp_text var e s -> exp_text var e' s -> e = e')
  /\ (spaced_text var e s -> spaced_text var e' s -> e = e').
Proof. intros. split; [apply exp_text_unique | apply spaced_text_unique]. Qed.
Print Assumptions C55_unambiguous.

(** From a verdict to [build_parser] *)
Local Lemma built : forall n Y den p, verdict n Y den p -> forall s, (length s < n)%nat ->
  (forall v, build_parser p s = Built v -> exists e, Y e s /\ den e = Some v)
  /\ (forall e, Y e s ->
        build_parser p s = match den e with Some v => Built v | None => BuildIllformed end).
Proof.
  intros n Y den p V s L. destruct (V s start L) as (A & B). unfold build_parser. split.
  - intros v E. destruct (p s start) eqn:Ep; try discriminate. injection E as ->.
    destruct (A _ _ _ eq_refl) as (_ & H). exact H.
  - intros e He. specialize (B e He). destruct (den e).
    + destruct B as (ps' & ->). auto.
    + rewrite B. auto.
Qed.

(** ** C55: meta_lambda *)

(** The functions built: [f] applied to [x] has the value of [e]. *)
Definition lambda_of (e : fexp) (f : value) : Prop :=
  forall x v, apply_fun f (VInt x) = Some v <-> exists z, v = VInt z /\ fmeans x e z.

Theorem C55_meta_lambda : forall cfg env n s, fits_one_of cfg 2 -> fits_sequence cfg 2 -> (length s < n)%nat ->
  (forall f, build_parser (eval cfg env n function_parser) s = Built f ->
     exists e, spaced_text true e s /\ literals_fit e /\ lambda_of e f)
  /\ (forall e, spaced_text true e s -> literals_fit e ->
     exists f, build_parser (eval cfg env n function_parser) s = Built f /\ lambda_of e f)
  /\ (forall e, spaced_text true e s -> ~ literals_fit e ->
     build_parser (eval cfg env n function_parser) s = BuildIllformed).
Proof.
  intros cfg env n s Fo Fs L.
  destruct (built _ _ _ _ (function_verdict cfg env n (conj Fo Fs)) s L) as (A & B).
  assert (Lam : forall e f, dfun fun_arg e = Some f -> lambda_of e f).
  { intros e f D x v. rewrite (dfun_apply fun_arg x e f) by (auto; eexists; reflexivity). split.
    - destruct (zden zop (Some x) e) as [z|] eqn:Z; [|discriminate]. intros [= <-].
      exists z. split; auto. apply fmeans_zden. auto.
    - intros (z & -> & M). apply fmeans_zden in M. rewrite M. reflexivity. }
  splits.
  - intros f E. destruct (A f E) as (e & Y & D). exists e. splits; auto.
    apply (dfun_literals fun_arg). congruence.
  - intros e Y Li. rewrite (B e Y). apply (dfun_literals fun_arg) in Li.
    destruct (dfun fun_arg e) as [f|] eqn:D; [|congruence]. exists f. auto.
  - intros e Y Li. rewrite (B e Y). destruct (dfun fun_arg e) as [f|] eqn:D; auto.
    exfalso. apply Li. apply (dfun_literals fun_arg). congruence.
Qed.
Print Assumptions C55_meta_lambda.

(** [eval] with enough instantiation depth always answers. *)
Theorem C55_verdict : forall cfg n s, (2 * length s + 3 < n)%nat ->
  build_parser (eval cfg no_program n function_parser) s <> BuildOutOfFuel.
Proof.
  intros cfg n s L. pose proof (function_terminates cfg n s start L) as T. unfold build_parser.
  destruct (eval cfg no_program n function_parser s start); congruence.
Qed.
Print Assumptions C55_verdict.

(** The calls of main.cpp:247-260 of meta_lambda *)
Definition applied (s : str) (x : Z) : option value :=
  match build_parser (eval c98 no_program 40 function_parser) s with
  | Built f => apply_fun f (VInt x)
  | _ => None
  end.
Example C55_documented :
  applied (text "13") 3 = Some (VInt 13)
  /\ applied (text "2 + 3") 1 = Some (VInt 5)
  /\ applied (text "2 * 2") 0 = Some (VInt 4)
  /\ applied (text " 1+ 2*4-6/2") 7 = Some (VInt 6)
  /\ applied (text "2 * _") 7 = Some (VInt 14)
  /\ applied (text "6 / _") 0 = None.
Proof. vm_compute. repeat split; reflexivity. Qed.

Local Ltac side :=
  vm_compute text; try apply Forall_nil; unfold not_starting_with, digit_char, space_char; cbn [app]; try lia; auto.

Local Ltac all_chars :=
  vm_compute text; repeat (apply Forall_cons; [unfold digit_char, space_char; lia|]); apply Forall_nil.

Local Lemma one_num : forall var d w t, digit_char d -> Forall space_char w ->
  not_starting_with digit_char (w ++ t) -> not_starting_with space_char t ->
  operand_text var (FNum [d]) (d :: w ++ t) t.
Proof.
  intros var d w t D F N1 N2. apply (ot_num var [d] w t). repeat split; auto; try discriminate.
Qed.

Example C55_text : spaced_text true (FBin Add (FNum [50]) (FBin Mul (FNum [51]) FArg)) (text " 2+ 3*_").
Proof.
  exists [32], (text "2+ 3*_"). splits; [reflexivity|all_chars|].
  apply (ct_more Add Sub _ Add _ _ _ (text "+ 3*_") (text "3*_")); [auto| | |].
  - apply ct_one, ct_one. apply (one_num true 50 [] (text "+ 3*_")); side.
  - exists [32]. splits; [reflexivity|all_chars|side].
  - apply (ct_more Mul Div _ Mul _ _ _ (text "*_") (text "_")); [auto| | |].
    + apply ct_one. apply (one_num true 51 [] (text "*_")); side.
    + exists []. splits; [reflexivity|constructor|side].
    + apply ot_arg; auto. exists []. splits; [reflexivity|constructor|exact Logic.I].
Qed.

(** ** C56: compile_to_native_code *)

(** The objects built: [f(t)] is what [e] computes in the type of [t]. *)
Definition code_of (e : fexp) (f : value) : Prop :=
  forall T (ar : arithmetic T) t y,
    (exists r, native ar f t = Some r /\ as_arg ar r = y) <-> computes (t_op ar) (t_int ar) t e y.

Local Lemma code : forall arg e f, arg_class arg -> dfun arg e = Some f -> code_of e f.
Proof.
  intros arg e f Ha D T ar t y. destruct (dfun_native T ar t arg e f Ha D) as (S & C). split.
  - intros (r & E & <-). apply S. auto.
  - intros H. destruct (C y H) as (r & E & Ey). eauto.
Qed.

Theorem C56_compile : forall cfg env n s, fits_one_of cfg 2 -> fits_sequence cfg 2 -> (length s < n)%nat ->
  (forall f, build_parser (eval cfg env n function_parser) s = Built f ->
     exists e, spaced_text true e s /\ literals_fit e /\ code_of e f)
  /\ (forall e, spaced_text true e s -> literals_fit e ->
     exists f, build_parser (eval cfg env n function_parser) s = Built f /\ code_of e f).
Proof.
  intros cfg env n s Fo Fs L.
  destruct (built _ _ _ _ (function_verdict cfg env n (conj Fo Fs)) s L) as (A & B).
  assert (Ha : arg_class fun_arg) by (eexists; reflexivity).
  split.
  - intros f E. destruct (A f E) as (e & Y & D). exists e. splits; auto.
    + apply (dfun_literals fun_arg). congruence.
    + eapply code; eauto.
  - intros e Y Li. rewrite (B e Y). apply (dfun_literals fun_arg) in Li.
    destruct (dfun fun_arg e) as [f|] eqn:D; [|congruence]. exists f. split; auto. eapply code; eauto.
Qed.
Print Assumptions C56_compile.

(** With an argument of type [int] the result is the value of the expression,
    the same that meta_lambda computes. *)
Theorem C56_int : forall x e z, literals_fit e ->
  (computes (t_op int_arithmetic) (t_int int_arithmetic) x e z <-> fmeans x e z).
Proof.
  intros x e. induction e as [ds| |o a IHa b IHb]; intros z Li.
  - split; intros H; inversion H; subst; constructor. exact Li.
  - split; intros H; inversion H; subst; constructor.
  - destruct Li as (La & Lb). specialize (fun z => IHa z La). specialize (fun z => IHb z Lb). split.
    + intros H. inversion H as [| |o' da db z' I|o' a' b' x' y' z' Nl A B O]; subst.
      * econstructor; [constructor|constructor|]; auto.
      * econstructor; [apply IHa; eauto|apply IHb; eauto|]. apply zop_some.
        rewrite <- O. destruct o; reflexivity.
    + intros H. inversion H as [| |o' a' b' y z' r A B O]; subst.
      assert (D : (exists da db, a = FNum da /\ b = FNum db) \/ ~ (literal_exp a /\ literal_exp b)).
      { destruct a; [|right; intros ((d & E) & _); discriminate|right; intros ((d & E) & _); discriminate].
        destruct b; [|right; intros (_ & (d & E)); discriminate|right; intros (_ & (d & E)); discriminate].
        left. eauto. }
      destruct D as [(da & db & -> & ->)|Nl].
      * inversion A; subst. inversion B; subst.
        apply (cp_literals (t_op int_arithmetic) (t_int int_arithmetic) x o da db). auto.
      * econstructor; [exact Nl|apply IHa; eauto|apply IHb; eauto|].
        apply zop_some in O. rewrite <- O. destruct o; reflexivity.
Qed.
Print Assumptions C56_int.

(** With an argument of a type of exact rational numbers the result is the value of
    the expression if two literals are never combined ... *)
Definition q_arithmetic : arithmetic Q :=
  mkarithmetic Q (q_op Add) (q_op Sub) (q_op Mul) (q_op Div) inject_Z.

Theorem C56_rational : forall t e y, no_literal_pair e ->
  (computes (t_op q_arithmetic) (t_int q_arithmetic) t e y <-> qmeans t e y).
Proof.
  intros t e. induction e as [ds| |o a IHa b IHb]; intros y N.
  - split; intros H; inversion H; subst; constructor.
  - split; intros H; inversion H; subst; constructor.
  - destruct N as (Nl & Na & Nb). split.
    + intros H. inversion H as [| |o' da db z' I|o' a' b' x' y' z' Nl' A B O]; subst.
      * exfalso. apply Nl. split; eexists; reflexivity.
      * econstructor; [apply IHa; eauto|apply IHb; eauto|]. rewrite <- O. destruct o; reflexivity.
    + intros H. inversion H as [| |o' a' b' x' y' z' A B O]; subst.
      econstructor; [exact Nl|apply IHa; eauto|apply IHb; eauto|]. rewrite <- O. destruct o; reflexivity.
Qed.
Print Assumptions C56_rational.

(** ... but not in general: [1/2*_] is 0. *)
Theorem C56_literal_division_refuted : exists s e f r q,
  spaced_text true e s
  /\ build_parser (eval c11 no_program 40 function_parser) s = Built f
  /\ native q_arithmetic f (inject_Z 6) = Some r
  /\ qmeans (inject_Z 6) e q /\ ~ (as_arg q_arithmetic r == q)%Q.
Proof.
  assert (Y : spaced_text true (FBin Mul (FBin Div (FNum [49]) (FNum [50])) FArg) (text "1/2*_")).
  { exists [], (text "1/2*_"). splits; [reflexivity|constructor|].
    apply ct_one.
    apply (ct_more Mul Div _ Mul _ _ _ (text "*_") (text "_")); [auto| | |].
    - apply (ct_more Mul Div _ Div _ _ _ (text "/2*_") (text "2*_")); [auto| | |].
      + apply ct_one. apply (one_num true 49 [] (text "/2*_")); side.
      + exists []. splits; [reflexivity|constructor|side].
      + apply (one_num true 50 [] (text "*_")); side.
    - exists []. splits; [reflexivity|constructor|side].
    - apply ot_arg; auto. exists []. splits; [reflexivity|constructor|exact Logic.I]. }
  do 5 eexists. splits.
  - exact Y.
  - vm_compute. reflexivity.
  - vm_compute. reflexivity.
  - econstructor; [econstructor; [constructor|constructor|vm_compute; reflexivity]|constructor|vm_compute; reflexivity].
  - vm_compute. discriminate.
Qed.
Print Assumptions C56_literal_division_refuted.

(** The calls of main.cpp:229-233 of compile_to_native_code, with [int]s *)
Definition called (s : str) (x : Z) : option Z :=
  match build_parser (eval c98 no_program 40 function_parser) s with
  | Built f => option_map (as_arg int_arithmetic) (native int_arithmetic f x)
  | _ => None
  end.
Example C56_documented :
  called (text "13") 3 = Some 13 /\ called (text "2 * _") 3 = Some 6
  /\ called (text " 1+ 2*4-6/2") 11 = Some 6 /\ called (text "2 + _ * 2147483647") 2 = None.
Proof. vm_compute. repeat split; reflexivity. Qed.

(** ** C57: meta_metaparse *)

Theorem C57_meta_metaparse : forall cfg n s, grammar_fits cfg -> (150 <= n)%nat -> (2 * length s + 3 < n)%nat ->
  (forall f, build_parser (metaparse_parser cfg n) s = Built f ->
     exists e, exp_text true e s /\ literals_fit e /\ code_of e f)
  /\ (forall e, exp_text true e s -> literals_fit e ->
     exists f, build_parser (metaparse_parser cfg n) s = Built f /\ code_of e f)
  /\ (forall e, exp_text true e s -> ~ literals_fit e ->
     build_parser (metaparse_parser cfg n) s = BuildIllformed)
  /\ build_parser (metaparse_parser cfg n) s <> BuildOutOfFuel.
Proof.
  intros cfg n s Fg Ln L. assert (L' : (length s < n)%nat) by lia.
  destruct (built _ _ _ _ (metaparse_verdict cfg n Fg Ln) s L') as (A & B).
  set (arg := VTmpl 6 [VChar 95]) in *.
  assert (Ha : arg_class arg) by (eexists; reflexivity).
  splits.
  - intros f E. destruct (A f E) as (e & Y & D). exists e. splits; auto.
    + apply (dfun_literals arg). congruence.
    + eapply code; eauto.
  - intros e Y Li. rewrite (B e Y). apply (dfun_literals arg) in Li.
    destruct (dfun arg e) as [f|] eqn:D; [|congruence]. exists f. split; auto. eapply code; eauto.
  - intros e Y Li. rewrite (B e Y). destruct (dfun arg e) as [f|] eqn:D; auto.
    exfalso. apply Li. apply (dfun_literals arg). congruence.
  - pose proof (metaparse_terminates cfg n s start Fg Ln L) as T. unfold build_parser.
    destruct (metaparse_parser cfg n s start); congruence.
Qed.
Print Assumptions C57_meta_metaparse.

(** The parser written with [grammar] and the parser written with combinators build
    functions that compute the same; only the latter skips whitespace in front. *)
Theorem C57_same_functions : forall cfg n s, grammar_fits cfg -> (150 <= n)%nat -> (length s < n)%nat ->
  not_starting_with space_char s ->
  ((exists f, build_parser (metaparse_parser cfg n) s = Built f)
     <-> (exists g, build_parser (eval cfg no_program n function_parser) s = Built g))
  /\ forall f g, build_parser (metaparse_parser cfg n) s = Built f ->
       build_parser (eval cfg no_program n function_parser) s = Built g ->
       forall T (ar : arithmetic T) t y,
         (exists r, native ar f t = Some r /\ as_arg ar r = y) <-> (exists r, native ar g t = Some r /\ as_arg ar r = y).
Proof.
  intros cfg n s Fg Ln L N.
  destruct (built _ _ _ _ (metaparse_verdict cfg n Fg Ln) s L) as (A & B).
  destruct (built _ _ _ _ (function_verdict cfg no_program n (grammar_fun_fits cfg Fg)) s L) as (A' & B').
  set (arg := VTmpl 6 [VChar 95]) in *.
  assert (Ha : arg_class arg) by (eexists; reflexivity).
  assert (Ha' : arg_class fun_arg) by (eexists; reflexivity).
  assert (Sp : forall e, exp_text true e s -> spaced_text true e s).
  { intros e H. exists [], s. auto. }
  assert (Us : forall e, spaced_text true e s -> exp_text true e s).
  { intros e (w & t & -> & F & H). destruct w as [|c w]; auto. inversion F; subst. contradiction. }
  split; [split|].
  - intros (f & E). destruct (A f E) as (e & Y & D). rewrite (B' e (Sp e Y)).
    assert (Li : literals_fit e) by (apply (dfun_literals arg); congruence).
    apply (dfun_literals fun_arg) in Li. destruct (dfun fun_arg e); [eauto|congruence].
  - intros (f & E). destruct (A' f E) as (e & Y & D). rewrite (B e (Us e Y)).
    assert (Li : literals_fit e) by (apply (dfun_literals fun_arg); congruence).
    apply (dfun_literals arg) in Li. destruct (dfun arg e); [eauto|congruence].
  - intros f g Ef Eg T ar t y. destruct (A f Ef) as (e & Y & D). destruct (A' g Eg) as (e' & Y' & D').
    pose proof (exp_text_unique _ _ _ _ Y (Us _ Y')) as <-.
    rewrite (code arg e f Ha D T ar t y), (code fun_arg e g Ha' D' T ar t y). tauto.
Qed.
Print Assumptions C57_same_functions.

Theorem C57_leading_whitespace_refuted : exists s g,
  build_parser (eval c11 no_program 150 function_parser) s = Built g
  /\ forall f, build_parser (metaparse_parser c11 150) s <> Built f.
Proof.
  exists (text " 13"). eexists. split; [vm_compute; reflexivity|]. intros f. vm_compute. discriminate.
Qed.
Print Assumptions C57_leading_whitespace_refuted.

Example C57_documented :
  match build_parser (metaparse_parser c11 150) (text "1+ 2*4-6/_") with
  | Built f => option_map (as_arg int_arithmetic) (native int_arithmetic f 2) = Some 6
  | _ => False
  end.
Proof. vm_compute. reflexivity. Qed.

(** ** C58: grammar_calculator *)

Theorem C58_grammar_calculator : forall cfg n s, grammar_fits cfg -> (150 <= n)%nat -> (2 * length s + 3 < n)%nat ->
  (forall v, build_parser (grammar_calculator cfg n) s = Built v <->
     exists e z, exp_text false e s /\ eager_means e z /\ v = VInt z)
  /\ (forall e, exp_text false e s -> (forall z, ~ eager_means e z) ->
     build_parser (grammar_calculator cfg n) s = BuildIllformed)
  /\ build_parser (grammar_calculator cfg n) s <> BuildOutOfFuel.
Proof.
  intros cfg n s Fg Ln L. assert (L' : (length s < n)%nat) by lia.
  destruct (built _ _ _ _ (grammar_calculator_verdict cfg n Fg Ln) s L') as (A & B).
  splits.
  - intros v. split.
    + intros E. destruct (A v E) as (e & Y & D). unfold dcalc in D.
      destruct (zden eager_op None e) as [z|] eqn:Z; [|discriminate]. injection D as <-.
      exists e, z. splits; auto. apply eager_means_zden. auto.
    + intros (e & z & Y & M & ->). rewrite (B e Y). apply eager_means_zden in M.
      unfold dcalc. rewrite M. reflexivity.
  - intros e Y N. rewrite (B e Y). unfold dcalc.
    destruct (zden eager_op None e) as [z|] eqn:Z; auto. apply eager_means_zden in Z.
    exfalso. eapply N; eauto.
  - pose proof (grammar_calculator_terminates cfg n s start Fg Ln L) as T. unfold build_parser.
    destruct (grammar_calculator cfg n s start); congruence.
Qed.
Print Assumptions C58_grammar_calculator.

(** What grammar_calculator computes, calculator computes as well ... *)
Theorem C58_agrees_with_calculator : forall cfg n s v, grammar_fits cfg -> (150 <= n)%nat -> (length s < n)%nat ->
  build_parser (grammar_calculator cfg n) s = Built v ->
  build_parser (eval cfg no_program n calculator) s = Built v.
Proof.
  intros cfg n s v Fg Ln L E.
  destruct (built _ _ _ _ (grammar_calculator_verdict cfg n Fg Ln) s L) as (A & _).
  destruct (built _ _ _ _ (calculator_verdict cfg no_program n (grammar_fun_fits cfg Fg)) s L) as (_ & B).
  destruct (A v E) as (e & Y & D). unfold dcalc in *.
  destruct (zden eager_op None e) as [z|] eqn:Z; [|discriminate]. injection D as <-.
  assert (Sp : spaced_text false e s) by (exists [], s; auto). rewrite (B e Sp).
  assert (G : forall e z, zden eager_op None e = Some z -> zden zop None e = Some z).
  { clear. induction e as [ds| |o a IHa b IHb]; intros z; cbn [zden]; auto.
    destruct (zden eager_op None a) as [x|]; [|discriminate].
    destruct (zden eager_op None b) as [y|]; [|discriminate].
    rewrite (IHa x eq_refl), (IHb y eq_refl). unfold eager_op.
    destruct (zop o x y); [|discriminate]. destruct (zop (partner o) x y); [auto|discriminate]. }
  rewrite (G e z Z). reflexivity.
Qed.
Print Assumptions C58_agrees_with_calculator.

(** ... but not the other way round, even without whitespace in front: both
    operations of a level are evaluated. *)
Theorem C58_calculator_refuted : exists s t v,
  build_parser (eval c11 no_program 150 calculator) s = Built v
  /\ build_parser (grammar_calculator c11 150) s = BuildIllformed
  /\ build_parser (eval c11 no_program 150 calculator) t = Built (VInt 2147483646)
  /\ build_parser (grammar_calculator c11 150) t = BuildIllformed.
Proof.
  exists (text "2*0"), (text "2147483647-1"). eexists. vm_compute. splits; reflexivity.
Qed.
Print Assumptions C58_calculator_refuted.

Theorem C58_default_limits_suffice : forall d, grammar_fits (default_config d) /\ fun_fits (default_config d).
Proof.
  intros d. assert (G : grammar_fits (default_config d)).
  { unfold grammar_fits, fits_one_of, fits_sequence, fits_one_char_except.
    cbn [limit_sequence limit_one_of limit_one_char_except default_config]. splits; intros; lia. }
  split; auto. apply grammar_fun_fits. auto.
Qed.
Print Assumptions C58_default_limits_suffice.

(** The call of grammar_calculator/main.cpp:155-156 *)
Example C58_documented :
  build_parser (grammar_calculator c11 150) (text "13") = Built (VInt 13)
  /\ build_parser (grammar_calculator c11 150) (text "1+ 2*4-6/2") = Built (VInt 6)
  /\ build_parser (grammar_calculator c98 150) (text "1+ 2*4-6/2") = Built (VInt 6)
  /\ build_parser (grammar_calculator c11 150) (text " 1") = ParsingFailed 1 1 none_of_the_expected_cases_found.
Proof. vm_compute. repeat split; reflexivity. Qed.

Example C58_value : exists e, exp_text false e (text "6/2") /\ eager_means e 3.
Proof.
  exists (FBin Div (FNum [54]) (FNum [50])). split.
  - apply ct_one. apply (ct_more Mul Div _ Div _ _ _ (text "/2") (text "2")); [auto| | |].
    + apply ct_one. apply (one_num false 54 [] (text "/2")); side.
    + exists []. splits; [reflexivity|constructor|side].
    + apply (one_num false 50 [] []); side.
  - assert (is_int 6 /\ is_int 2 /\ is_int 3 /\ is_int 12) as (I6 & I2 & I3 & I12)
      by (unfold is_int; change (2 ^ 31) with 2147483648; lia).
    apply (em_bin Div (FNum [54]) (FNum [50]) 6 2 3 12).
    + apply (em_num [54]). exact I6.
    + apply (em_num [50]). exact I2.
    + split; auto. exists 0. lia.
    + split; [exact I12|reflexivity].
Qed.
