(** The meaning of the programs of example/meta_hs and what the library computes; the
    programs of the example. *)

From Coq Require Import ZArith List Bool Lia.
From Verif Require Import Base Util Calculator Spec SpecGrammar SpecCalc SpecExamples Grammar MetaHs SpecHs SpecHsEval
  Proofs_Fold Proofs_Calc Proofs_HsEval.
Import ListNotations.
Open Scope Z_scope.

Section Programs.
Variable users : nat -> nat * (list Z -> option Z).
Variable P : hs_code.

Local Notation evals := (evals users P).
Local Notation forces := (forces users P).
Local Notation applies := (applies users P).
Local Notation all_force := (all_force users P).
Local Notation evals_at := (evals_at users P).
Local Notation forces_at := (forces_at users P).
Local Notation applies_at := (applies_at users P).
Local Notation all_force_at := (all_force_at users P).

Lemma erase :
  (forall r e k v, evals_at r e k v -> evals r e v)
  /\ (forall th k v, forces_at th k v -> forces th v)
  /\ (forall f th k v, applies_at f th k v -> applies f th v)
  /\ (forall ths zs, all_force_at ths zs -> all_force ths zs).
Proof.
  apply wrapped_ind; intros; try (econstructor; eassumption); try (econstructor; eauto; fail).
Qed.
Lemma erase_call : forall x zs z, library_call users P x zs z -> call_means users P x zs z.
Proof.
  intros x zs z (k & f & _ & Hf & _ & Ha). exists f. split; [eapply (proj1 erase); eauto|].
  clear Hf. induction Ha; econstructor; eauto. eapply (proj1 (proj2 (proj2 erase))); eauto.
Qed.

Hypothesis plain_calls : unwrapped_program P.

Inductive tgood : bool -> thunk -> Prop :=
| tg_int : forall s z, tgood s (TInt z)
| tg_exp : forall s e r, scope_good r -> bound P (map fst r) e -> unwrapped P (map fst r) e ->
    (s = true -> computed e \/ function_name P (map fst r) e) -> tgood s (TExp e r)
with scope_good : scope -> Prop :=
| sg_nil : scope_good []
| sg_cons : forall x th r, tgood true th -> scope_good r -> scope_good ((x, th) :: r).

Inductive vgood : hval -> Prop :=
| vg_int : forall z, vgood (NInt z)
| vg_bool : forall b, vgood (NBool b)
| vg_fun : forall x xs e r, scope_good r -> bound P (x :: xs ++ map fst r) e ->
    unwrapped P (x :: xs ++ map fst r) e -> vgood (NFun x xs e r)
| vg_tmpl : forall k ths, Forall (tgood false) ths -> vgood (NTmpl k ths).

Lemma same_names : forall xs ys e, (forall x, In x xs <-> In x ys) ->
  (bound P xs e -> bound P ys e) /\ (unwrapped P xs e -> unwrapped P ys e).
Proof.
  intros xs ys e H. induction e as [ds|x|f [IHf1 IHf2] a [IHa1 IHa2]|c [IHc1 IHc2] a [IHa1 IHa2] b [IHb1 IHb2]
    |o a [IHa1 IHa2] b [IHb1 IHb2]]; cbn; try tauto.
  - rewrite H. tauto.
  - split; [tauto|]. intros (Hf & Ha & K). splits; auto. destruct K as [K|[K|K]]; auto.
    + right; left. destruct a; auto. cbn in K |- *. rewrite <- H. auto.
    + right; right. clear - K H. induction f; auto. cbn in K |- *. rewrite <- H. auto.
Qed.
Lemma bound_usable : forall xs e, bound P xs e -> usable P xs e.
Proof.
  intros xs e. induction e as [ds|x|f IHf a IHa|c IHc a IHa b IHb|o a IHa b IHb]; cbn; intros B.
  - constructor.
  - destruct (in_dec (list_eq_dec Z.eq_dec) x xs) as [I|I]; [constructor; auto|].
    destruct (named x P) as [g|] eqn:G; [|tauto]. eapply us_global; eauto.
    intros e ->. destruct (plain_calls _ _ (named_in _ _ _ _ G)) as (K & _). congruence.
  - constructor; tauto.
  - constructor; tauto.
  - constructor; tauto.
Qed.
Lemma template_value : forall r f v, evals r f v -> template_call P (map fst r) f ->
  (exists k ths, v = NTmpl k ths) \/ (exists z, v = NInt z).
Proof.
  intros r f. revert r. induction f as [ds|x|f IHf a IHa|c IHc a IHa b IHb|o a IHa b IHb];
    intros r v H T; cbn [template_call] in T; try contradiction.
  - destruct T as (N & k & K). apply named_none in N. inversion H; subst; try congruence. left; eauto.
  - inversion H; subst. match goal with Q : evals r f _ |- _ => destruct (IHf _ _ Q T) as [(k & ths & ->)|(z & ->)] end;
    match goal with Q : applies _ _ _ |- _ => inversion Q; subst; eauto end.
Qed.
Lemma scope_good_in : forall r x th, scope_good r -> named x r = Some th -> tgood true th.
Proof.
  intros r x th H N. induction H as [|y th' r T Sg IH]; cbn [named] in N; [discriminate|].
  destruct (list_eq_dec Z.eq_dec x y); [congruence|auto].
Qed.

Lemma wrap :
  (forall r e v, evals r e v -> scope_good r -> bound P (map fst r) e -> unwrapped P (map fst r) e ->
     vgood v /\ exists k, evals_at r e k v /\ (k <= 1)%nat
       /\ (computed e \/ function_name P (map fst r) e -> k = 0%nat))
  /\ (forall th v, forces th v -> forall s, tgood s th ->
     vgood v /\ exists k, forces_at th k v /\ (k <= 1)%nat /\ (s = true -> k = 0%nat))
  /\ (forall f th v, applies f th v -> vgood f -> tgood false th ->
     (tgood true th \/ exists k ths, f = NTmpl k ths) -> vgood v /\ applies_at f th 0 v)
  /\ (forall ths zs, all_force ths zs -> Forall (tgood false) ths -> all_force_at ths zs).
Proof.
  apply meaning_ind.
  - intros r ds Sg B U. split; [constructor|]. exists 1%nat. splits; [constructor|lia|]. cbn. intros [[]|[]].
  - intros r x th v N _ IH Sg B U.
    destruct (IH true (scope_good_in _ _ _ Sg N)) as (G & k & K1 & _ & K2). rewrite (K2 eq_refl) in K1.
    split; auto. exists 1%nat. splits; [econstructor; eauto|lia|]. cbn. intros [[]|[K _]]. destruct K.
    apply named_in, (in_map fst) in N. exact N.
  - intros r x y ys e N G Sg B U.
    destruct (plain_calls _ _ (named_in _ _ _ _ G)) as (_ & Bd & Uw).
    split; [constructor; [constructor| |]; cbn; rewrite app_nil_r; auto|].
    exists 0%nat. splits; [eapply ea_function; eauto|lia|auto].
  - intros r x e v N G. destruct (plain_calls _ _ (named_in _ _ _ _ G)) as (K & _). congruence.
  - intros r x z N G Sg B U. split; [constructor|]. exists 1%nat. splits; [apply ea_constant; auto|lia|].
    cbn. intros [[]|[_ (y & ys & b & K)]]. congruence.
  - intros r x k N G Sg B U. split; [constructor; constructor|]. exists 1%nat. splits; [apply ea_template; auto|lia|].
    cbn. intros [[]|[_ (y & ys & b & K)]]. congruence.
  - intros r f a fv v Ef IHf Ap IHa Sg B U.
    cbn [bound unwrapped] in B, U. destruct B as [Bf Ba], U as (Uf & Ua & Uc).
    destruct (IHf Sg Bf Uf) as (Gf & kf & Hf & Kf & _).
    assert (Tf : tgood false (TExp a r)) by (constructor; auto; discriminate).
    destruct (IHa Gf Tf) as (Gv & Ab).
    { destruct Uc as [Uc|[Uc|Uc]]; [left; constructor; auto|left; constructor; auto|right].
      destruct (template_value _ _ _ Ef Uc) as [K|(z & ->)]; [auto|inversion Ap]. }
    split; auto. exists 0%nat. splits; [econstructor; eauto|lia|auto].
  - intros r c a b cv t v _ IHc T _ IHv Sg B U.
    cbn [bound unwrapped] in B, U. destruct B as (Bc & Ba & Bb), U as (Uc & Ua & Ub).
    destruct (IHc Sg Bc Uc) as (_ & kc & Hc & Kc & _).
    destruct IHv as (Gv & k & Hv & Kv & Sv); auto; [destruct t; auto|destruct t; auto|].
    split; auto. exists k. splits; [econstructor; eauto|lia|].
    intros [K|[]]. apply Sv. left. cbn in K. destruct t; tauto.
  - intros r o a b x y v _ IHa _ IHb O Sg B U.
    cbn [bound unwrapped] in B, U. destruct B as (Ba & Bb), U as (Ua & Ub).
    destruct (IHa Sg Ba Ua) as (_ & ka & Ha & Ka & _). destruct (IHb Sg Bb Ub) as (_ & kb & Hb & Kb & _).
    split; [destruct O; constructor|]. exists 0%nat. splits; [eapply ea_op with (ka := ka) (kb := kb); eauto|lia|auto].
  - intros z s T. split; [constructor|]. exists 0%nat. splits; [constructor|lia|auto].
  - intros e r v _ IH s T. inversion T as [|s' e' r' Sg Bd Uw Cp]; subst.
    destruct (IH Sg Bd Uw) as (Gv & k & Hk & K1 & K2). split; auto. exists k. splits; [constructor; auto|lia|auto].
  - intros x e r th v _ IH G Tf Ts. destruct Ts as [Ts|(k & ths & Q)]; [|discriminate Q].
    inversion G as [| |x' xs' e' r' Sg Bd Uw|]; subst.
    destruct IH as (Gv & k & Hk & K1 & _); [constructor; auto|exact Bd|exact Uw|].
    split; auto. replace 0%nat with (pred k) by lia. constructor; auto. apply bound_usable. exact Bd.
  - intros x y ys e r th G Tf Ts. destruct Ts as [Ts|(k & ths & Q)]; [|discriminate Q].
    inversion G as [| |x' xs' e' r' Sg Bd Uw|]; subst.
    assert (In_same : forall z, In z (x :: (y :: ys) ++ map fst r) <-> In z (y :: ys ++ map fst ((x, th) :: r))).
    { intros z. cbn. rewrite !in_app_iff. cbn. tauto. }
    split; [|constructor].
    constructor; [constructor; auto| |].
    + eapply (proj1 (same_names _ _ e In_same)); exact Bd.
    + eapply (proj2 (same_names _ _ e In_same)); exact Uw.
  - intros k ths th N G Tf _. inversion G; subst.
    split; [constructor; apply Forall_app; auto|]. constructor; auto.
  - intros k ths th zs z N _ IH Vz G Tf _. inversion G; subst. split; [constructor|].
    eapply aa_run; eauto. apply IH, Forall_app; auto.
  - intros _. constructor.
  - intros th z ths zs _ IH1 _ IH2 T. inversion T as [|th1 ths1 T1 T2]; subst.
    destruct (IH1 false T1) as (_ & k & Hk & K & _). econstructor; eauto.
Qed.

Lemma wrap_call : forall x zs z, call_means users P x zs z -> library_call users P x zs z.
Proof.
  intros x zs z (f & Hf & Ha).
  assert (B : bound P [] (HVar x)).
  { right. inversion Hf; subst; try discriminate; congruence. }
  destruct (proj1 wrap _ _ _ Hf sg_nil B Logic.I) as (G & k & Hk & K & _).
  exists k, f. splits; auto; [apply bound_usable, B|].
  clear Hf Hk. induction Ha as [v|v z0 v1 zs v2 A _ IH]; [constructor|].
  destruct (proj1 (proj2 (proj2 wrap)) _ _ _ A G) as (G1 & A1); [constructor|left; constructor|].
  econstructor; eauto.
Qed.

End Programs.

(** ** Depth *)

Lemma apply_all_below : forall users n n' zs c, (n <= n')%nat ->
  below (apply_all users n c zs) (apply_all users n' c zs).
Proof.
  intros users n n' zs. induction zs as [|z zs IH]; intros c L; cbn [apply_all]; [apply below_refl|].
  apply below_bind; auto. unfold apply_class. apply apply_by_below; auto. intros; apply resolve_below; auto.
Qed.
Lemma call_below : forall users n n' env x zs, (n <= n')%nat ->
  below (call users n env x zs) (call users n' env x zs).
Proof.
  intros users n n' env x zs L. unfold call. apply below_bind.
  - unfold get. destruct (lookup x env); [|apply below_refl]. apply below_bind; [apply bind_below, L|].
    intros c. apply below_bind; [apply resolve_below, L|]. intros; apply below_refl.
  - intros f. apply below_bind; [apply apply_all_below, L|]. intros r. unfold class_value.
    apply below_bind; [apply resolve_below, L|]. intros; apply below_refl.
Qed.

(** ** Texts *)

Lemma etext_words : forall r k e s t, etext r k e s t -> words_in e.
Proof.
  intros r k e s t H. induction H; cbn [words_in]; auto.
  destruct H as (u & _ & W & _). exact W.
Qed.
Lemma params_words : forall xs s t, params_text xs s t -> Forall word xs.
Proof. intros xs s t H. induction H as [|x xs s s1 t N _ IH]; constructor; auto. destruct N as (u & _ & W & _). exact W. Qed.
Lemma dtext_words : forall r d s, dtext r d s ->
  word (d_name d) /\ Forall word (d_params d) /\ words_in (d_body d).
Proof.
  intros r d s (s1 & s2 & s3 & N & Q & _ & E). splits.
  - destruct N as (u & _ & W & _). exact W.
  - eapply params_words; eauto.
  - eapply etext_words; eauto.
Qed.

(** ** The programs of the example *)

Section Exact.
Variable users : nat -> nat * (list Z -> option Z).
Variable P : hs_code.

Local Notation evals := (evals users P).
Local Notation forces := (forces users P).

Lemma num_iff : forall r ds v, evals r (HNum ds) v <-> v = NInt (decimal ds).
Proof. intros r ds v. split; [intros H; inversion H; auto|intros ->; constructor]. Qed.
Lemma param_iff : forall r x th v, named x r = Some th -> (evals r (HVar x) v <-> forces th v).
Proof. intros r x th v N. split; [intros H; inversion H; subst; congruence|econstructor; eauto]. Qed.
Lemma int_iff : forall r x z v, named x r = None -> named x P = Some (GInt z) -> (evals r (HVar x) v <-> v = NInt z).
Proof. intros r x z v N G. split; [intros H; inversion H; subst; congruence|intros ->; apply ev_constant; auto]. Qed.
Lemma forces_exp : forall e r v, forces (TExp e r) v <-> evals r e v.
Proof. intros. split; [intros H; inversion H; auto|constructor; auto]. Qed.
Lemma forces_int : forall z v, forces (TInt z) v <-> v = NInt z.
Proof. intros. split; [intros H; inversion H; auto|intros ->; constructor]. Qed.
Lemma op_iff : forall r o a b v, evals r (HOp o a b) v <->
  exists x y, evals r a (NInt x) /\ evals r b (NInt y) /\ op_means o x y v.
Proof.
  intros. split; [intros H; inversion H; subst; eauto|intros (x & y & H1 & H2 & H3); econstructor; eauto].
Qed.
Lemma if_iff : forall r c a b v, evals r (HIf c a b) v <->
  exists cv t, evals r c cv /\ truth cv t /\ evals r (if t then a else b) v.
Proof.
  intros. split; [intros H; inversion H; subst; eauto|intros (x & y & H1 & H2 & H3); econstructor; eauto].
Qed.
Lemma call_iff : forall r f x e a v, named f r = None -> named f P = Some (GFun [x] e) ->
  (evals r (HCall (HVar f) a) v <-> evals [(x, TExp a r)] e v).
Proof.
  intros r f x e a v N G. split.
  - intros H; inversion H as [| | | | | |? ? ? fv ? Hf Ha| |]; subst.
    inversion Hf; subst; try congruence.
    match goal with Q : named f P = Some (GFun _ _) |- _ => rewrite Q in G; injection G as -> -> -> end.
    inversion Ha; subst; auto.
  - intros H. eapply ev_call; [eapply ev_function; eauto|constructor; auto].
Qed.
Lemma template_iff : forall r f j a v, named f r = None -> named f P = Some (GTmpl j) -> fst (users j) = 1%nat ->
  (evals r (HCall (HVar f) a) v <-> exists x z, evals r a (NInt x) /\ snd (users j) [x] = Some z /\ v = NInt z).
Proof.
  intros r f j a v N G A. split.
  - intros H; inversion H as [| | | | | |? ? ? fv ? Hf Ha| |]; subst.
    inversion Hf; subst; try congruence.
    match goal with Q : named f P = Some (GTmpl _) |- _ => rewrite Q in G; injection G as -> end.
    inversion Ha as [| |? ? ? B|? ? ? zs z _ F V]; subst; [cbn in B; congruence|].
    cbn in F. inversion F as [|? x ? ? Fx Fn]; subst. inversion Fn; subst. rewrite forces_exp in Fx. eauto.
  - intros (x & z & Hx & V & ->). eapply ev_call; [eapply ev_template; eauto|].
    apply (ap_run _ _ j [] (TExp a r) [x] z); auto. cbn. constructor; [|constructor]. constructor; auto.
Qed.
Lemma call_one : forall f x e z w, named f P = Some (GFun [x] e) ->
  (call_means users P f [z] w <-> evals [(x, TInt z)] e (NInt w)).
Proof.
  intros f x e z w G. split.
  - intros (fv & Hf & Ha). inversion Hf; subst; try congruence.
    + discriminate.
    + match goal with Q : named f P = Some (GFun _ _) |- _ => rewrite Q in G; injection G as -> -> -> end.
      inversion Ha as [|? ? v1 ? ? A B]; subst. inversion B; subst. inversion A; subst; auto.
  - intros H. eexists. split; [eapply ev_function; [reflexivity|exact G]|].
    econstructor; [constructor; exact H|constructor].
Qed.
End Exact.

Lemma lt_iff : forall x y v t, op_means BLt x y v -> truth v t -> (t = true <-> x < y).
Proof. intros x y v t H T. inversion H; subst. inversion T; subst. auto. Qed.
Lemma lt_have : forall x y, op_means BLt x y (NBool (x <? y)).
Proof. intros. constructor. apply Z.ltb_lt. Qed.

Lemma fibonacci_pos : forall n, 1 <= fibonacci n.
Proof.
  assert (H : forall n, 1 <= fibonacci n /\ 1 <= fibonacci (S n)).
  { induction n as [|n [IH1 IH2]]; [cbn; lia|]. split; auto.
    change (fibonacci (S (S n))) with (fibonacci (S n) + fibonacci n). lia. }
  intros n; apply H.
Qed.
Lemma fibonacci_step : forall z, 2 <= z ->
  fibonacci (Z.to_nat z) = fibonacci (Z.to_nat (z - 2)) + fibonacci (Z.to_nat (z - 1)).
Proof.
  intros z L. replace (Z.to_nat (z - 1)) with (S (Z.to_nat (z - 2))) by lia.
  replace (Z.to_nat z) with (S (S (Z.to_nat (z - 2)))) by lia.
  change (fibonacci (S (S (Z.to_nat (z - 2))))) with (fibonacci (S (Z.to_nat (z - 2))) + fibonacci (Z.to_nat (z - 2))). lia.
Qed.
Lemma fibonacci_base : forall z, z < 2 -> fibonacci (Z.to_nat z) = 1.
Proof. intros z L. destruct (Z.to_nat z) as [|[|n]] eqn:E; [reflexivity|reflexivity|lia]. Qed.
Lemma factorial_pos : forall n, 1 <= factorial n.
Proof. induction n as [|n IH]; cbn [factorial]; [lia|]. nia. Qed.
Lemma factorial_step : forall z, 1 <= z -> factorial (Z.to_nat z) = z * factorial (Z.to_nat (z - 1)).
Proof.
  intros z L. replace (Z.to_nat z) with (S (Z.to_nat (z - 1))) by lia. cbn [factorial]. f_equal. lia.
Qed.
Lemma factorial_base : forall z, z < 1 -> factorial (Z.to_nat z) = 1.
Proof. intros z L. destruct (Z.to_nat z) as [|n] eqn:E; [reflexivity|lia]. Qed.

Local Notation ex_evals := (evals example_users example_code).
Local Notation ex_forces := (forces example_users example_code).

Lemma forces_same : forall th z v, ex_forces th (NInt z) -> ex_forces th v -> v = NInt z.
Proof. intros th z v H H'. symmetry. eapply (proj1 (proj2 (meaning_unique _ _))); eauto. Qed.

Definition n_sub (ds : str) : hexp := HOp BSub (HVar (text "n")) (HNum ds).
Lemma sub_iff : forall th z ds v, ex_forces th (NInt z) ->
  (ex_evals [(text "n", th)] (n_sub ds) v <-> v = NInt (z - decimal ds) /\ is_int (z - decimal ds)).
Proof.
  intros th z ds v F. unfold n_sub. rewrite op_iff. split.
  - intros (x & y & H1 & H2 & M). rewrite (param_iff _ _ _ _ th) in H1 by reflexivity.
    apply (forces_same _ _ _ F) in H1. injection H1 as ->. apply num_iff in H2. injection H2 as ->.
    inversion M; subst. auto.
  - intros (-> & I). exists z, (decimal ds). splits; [|apply num_iff; auto|constructor; auto].
    apply (param_iff _ _ _ _ th); auto.
Qed.

Definition fib_body : hexp :=
  HIf (HOp BLt (HVar (text "n")) (HNum (text "2"))) (HNum (text "1"))
      (HOp BAdd (HCall (HVar (text "fib")) (n_sub (text "2"))) (HCall (HVar (text "fib")) (n_sub (text "1")))).
Lemma fib_exact : forall m z th v, (Z.to_nat z < m)%nat -> is_int z -> ex_forces th (NInt z) ->
  (ex_evals [(text "n", th)] fib_body v
   <-> v = NInt (fibonacci (Z.to_nat z)) /\ is_int (fibonacci (Z.to_nat z))).
Proof.
  induction m as [|m IH]; intros z th v L I F; [lia|].
  unfold fib_body. rewrite if_iff.
  assert (C : (exists cv t, ex_evals [(text "n", th)] (HOp BLt (HVar (text "n")) (HNum (text "2"))) cv /\ truth cv t
      /\ ex_evals [(text "n", th)] (if t then HNum (text "1") else
          HOp BAdd (HCall (HVar (text "fib")) (n_sub (text "2"))) (HCall (HVar (text "fib")) (n_sub (text "1")))) v)
    <-> ex_evals [(text "n", th)] (if z <? 2 then HNum (text "1") else
          HOp BAdd (HCall (HVar (text "fib")) (n_sub (text "2"))) (HCall (HVar (text "fib")) (n_sub (text "1")))) v).
  { split.
    - intros (cv & t & H & T & E). apply op_iff in H as (x & y & H1 & H2 & M).
      rewrite (param_iff _ _ _ _ th) in H1 by reflexivity. apply (forces_same _ _ _ F) in H1. injection H1 as ->.
      apply num_iff in H2. injection H2 as ->. pose proof (lt_iff _ _ _ _ M T) as Lt. cbn in Lt.
      rewrite (same_bool (z <? 2) t (z < 2)); auto. apply Z.ltb_lt.
    - intros E. exists (NBool (z <? 2)), (z <? 2). splits; [|constructor|exact E].
      apply op_iff. exists z, 2. splits; [apply (param_iff _ _ _ _ th); auto|apply num_iff; auto|apply lt_have]. }
  rewrite C. clear C. destruct (Z.ltb_spec z 2) as [Z2|Z2].
  - rewrite num_iff, (fibonacci_base z Z2). cbn [decimal]. unfold is_int. cbn. intuition lia.
  - rewrite op_iff, (fibonacci_step z Z2).
    assert (F2 : ex_forces (TExp (n_sub (text "2")) [(text "n", th)]) (NInt (z - 2))).
    { apply forces_exp, (sub_iff _ z); auto. cbn. unfold is_int in *. split; auto. lia. }
    assert (F1 : ex_forces (TExp (n_sub (text "1")) [(text "n", th)]) (NInt (z - 1))).
    { apply forces_exp, (sub_iff _ z); auto. cbn. unfold is_int in *. split; auto. lia. }
    assert (I2 : is_int (z - 2)) by (unfold is_int in *; lia).
    assert (I1 : is_int (z - 1)) by (unfold is_int in *; lia).
    assert (E2 := fun v => IH (z - 2) _ v ltac:(lia) I2 F2). assert (E1 := fun v => IH (z - 1) _ v ltac:(lia) I1 F1).
    pose proof (fibonacci_pos (Z.to_nat (z - 2))) as P2. pose proof (fibonacci_pos (Z.to_nat (z - 1))) as P1.
    split.
    + intros (x & y & H1 & H2 & M). rewrite (call_iff _ _ _ _ (text "n") fib_body) in H1, H2 by reflexivity.
      apply E2 in H1 as (H1 & _). apply E1 in H2 as (H2 & _). injection H1 as ->. injection H2 as ->.
      inversion M; subst. auto.
    + intros (-> & J). do 2 eexists. splits; [| |apply om_add; exact J];
        apply (call_iff _ _ _ _ (text "n") fib_body); try reflexivity.
      * apply E2. unfold is_int in *. split; auto. lia.
      * apply E1. unfold is_int in *. split; auto. lia.
Qed.

Definition fact_body : hexp :=
  HIf (HOp BLt (HVar (text "n")) (HNum (text "1"))) (HNum (text "1"))
      (HOp BMul (HVar (text "n")) (HCall (HVar (text "fact")) (n_sub (text "1")))).
Lemma fact_exact : forall m z th v, (Z.to_nat z < m)%nat -> is_int z -> ex_forces th (NInt z) ->
  (ex_evals [(text "n", th)] fact_body v
   <-> v = NInt (factorial (Z.to_nat z)) /\ is_int (factorial (Z.to_nat z))).
Proof.
  induction m as [|m IH]; intros z th v L I F; [lia|].
  unfold fact_body. rewrite if_iff.
  assert (C : (exists cv t, ex_evals [(text "n", th)] (HOp BLt (HVar (text "n")) (HNum (text "1"))) cv /\ truth cv t
      /\ ex_evals [(text "n", th)] (if t then HNum (text "1") else
          HOp BMul (HVar (text "n")) (HCall (HVar (text "fact")) (n_sub (text "1")))) v)
    <-> ex_evals [(text "n", th)] (if z <? 1 then HNum (text "1") else
          HOp BMul (HVar (text "n")) (HCall (HVar (text "fact")) (n_sub (text "1")))) v).
  { split.
    - intros (cv & t & H & T & E). apply op_iff in H as (x & y & H1 & H2 & M).
      rewrite (param_iff _ _ _ _ th) in H1 by reflexivity. apply (forces_same _ _ _ F) in H1. injection H1 as ->.
      apply num_iff in H2. injection H2 as ->. pose proof (lt_iff _ _ _ _ M T) as Lt. cbn in Lt.
      rewrite (same_bool (z <? 1) t (z < 1)); auto. apply Z.ltb_lt.
    - intros E. exists (NBool (z <? 1)), (z <? 1). splits; [|constructor|exact E].
      apply op_iff. exists z, 1. splits; [apply (param_iff _ _ _ _ th); auto|apply num_iff; auto|apply lt_have]. }
  rewrite C. clear C. destruct (Z.ltb_spec z 1) as [Z2|Z2].
  - rewrite num_iff, (factorial_base z Z2). unfold is_int. cbn. intuition lia.
  - rewrite op_iff, (factorial_step z Z2).
    assert (F1 : ex_forces (TExp (n_sub (text "1")) [(text "n", th)]) (NInt (z - 1))).
    { apply forces_exp, (sub_iff _ z); auto. cbn. unfold is_int in *. split; auto. lia. }
    assert (I1 : is_int (z - 1)) by (unfold is_int in *; lia).
    assert (E1 := fun v => IH (z - 1) _ v ltac:(lia) I1 F1).
    pose proof (factorial_pos (Z.to_nat (z - 1))) as P1.
    split.
    + intros (x & y & H1 & H2 & M). rewrite (call_iff _ _ _ _ (text "n") fact_body) in H2 by reflexivity.
      rewrite (param_iff _ _ _ _ th) in H1 by reflexivity. apply (forces_same _ _ _ F) in H1. injection H1 as ->.
      apply E1 in H2 as (H2 & _). injection H2 as ->. inversion M; subst. auto.
    + intros (-> & J). do 2 eexists. splits; [apply (param_iff _ _ _ _ th); auto; exact F| |apply om_mul; exact J].
      apply (call_iff _ _ _ _ (text "n") fact_body); try reflexivity.
      apply E1. unfold is_int in *. split; auto. nia.
Qed.

Lemma times11_exact : forall z v,
  ex_evals [(text "n", TInt z)] (HOp BMul (HVar (text "n")) (HVar (text "val"))) v <-> v = NInt (z * 11) /\ is_int (z * 11).
Proof.
  intros z v. rewrite op_iff. split.
  - intros (x & y & H1 & H2 & M). rewrite (param_iff _ _ _ _ (TInt z)) in H1 by reflexivity.
    apply forces_int in H1. injection H1 as ->. rewrite (int_iff _ _ _ _ 11) in H2 by reflexivity. injection H2 as ->.
    inversion M; subst; auto.
  - intros (-> & I). exists z, 11. splits; [apply (param_iff _ _ _ _ (TInt z)); [reflexivity|apply forces_int; auto]
      |apply (int_iff _ _ _ _ 11); auto|constructor; auto].
Qed.
Lemma times4_exact : forall z v,
  ex_evals [(text "n", TInt z)] (HCall (HVar (text "f")) (HCall (HVar (text "f")) (HVar (text "n")))) v
  <-> v = NInt (z * 4) /\ is_int (z * 4).
Proof.
  intros z v. rewrite (template_iff _ _ _ _ 0) by reflexivity. cbn [example_users snd]. split.
  - intros (x & y & H & V & ->). rewrite (template_iff _ _ _ _ 0) in H by reflexivity. cbn [example_users snd] in H.
    destruct H as (x' & z' & H & V' & E). injection E as <-.
    rewrite (param_iff _ _ _ _ (TInt z)) in H by reflexivity. apply forces_int in H. injection H as ->.
    destruct (int_ok (z * 2)); [|discriminate]. injection V' as <-.
    destruct (int_ok (z * 2 * 2)) eqn:I; [|discriminate]. injection V as <-. apply int_ok_iff in I.
    replace (z * 4) with (z * 2 * 2) by lia. auto.
  - intros (-> & I). exists (z * 2), (z * 4). splits; auto.
    + apply (template_iff _ _ _ _ 0); try reflexivity. exists z, (z * 2). splits; auto.
      * apply (param_iff _ _ _ _ (TInt z)); [reflexivity|apply forces_int; auto].
      * cbn. rewrite (proj2 (int_ok_iff (z * 2))); auto. unfold is_int in *. lia.
    + replace (z * 2 * 2) with (z * 4) by lia. rewrite (proj2 (int_ok_iff (z * 4))); auto.
Qed.

(** the handcrafted metafunctions *)
Lemma int_only_iff : forall z v, int_only z = Ok v <-> v = z /\ is_int z.
Proof.
  intros z v. unfold int_only. destruct (int_ok z) eqn:E.
  - apply int_ok_iff in E. split; [intros [= ->]; auto|intros (-> & _); auto].
  - split; [discriminate|]. intros (_ & I). apply int_ok_iff in I. congruence.
Qed.
Lemma int_only_ok : forall z, is_int z -> int_only z = Ok z.
Proof. intros z I. apply int_only_iff; auto. Qed.
Lemma handcrafted_fib_exact : forall n z v, is_int z -> (Z.to_nat z < n)%nat ->
  (handcrafted_fib n z = Ok v <-> v = fibonacci (Z.to_nat z) /\ is_int v).
Proof.
  induction n as [|n IH]; intros z v I L; [lia|]. cbn [handcrafted_fib]. destruct (Z.ltb_spec z 2) as [Z2|Z2].
  - rewrite (fibonacci_base z Z2). split; [intros [= <-]; split; auto; unfold is_int; lia|intros (-> & _); auto].
  - rewrite (fibonacci_step z Z2).
    assert (I2 : is_int (z - 2)) by (unfold is_int in *; lia).
    assert (I1 : is_int (z - 1)) by (unfold is_int in *; lia).
    rewrite (int_only_ok _ I1), (int_only_ok _ I2). cbn [bind_res].
    pose proof (fibonacci_pos (Z.to_nat (z - 2))) as P2. pose proof (fibonacci_pos (Z.to_nat (z - 1))) as P1.
    split.
    + intros H. apply bind_ok in H as (x & X & H). apply bind_ok in H as (y & Y & H).
      apply IH in X as (-> & _); [|auto|lia]. apply IH in Y as (-> & _); [|auto|lia].
      apply int_only_iff in H as (-> & J). split; [lia|]. exact J.
    + intros (-> & J).
      assert (J1 : is_int (fibonacci (Z.to_nat (z - 1)))) by (unfold is_int in *; lia).
      assert (J2 : is_int (fibonacci (Z.to_nat (z - 2)))) by (unfold is_int in *; lia).
      rewrite (proj2 (IH (z - 1) _ I1 ltac:(lia)) (conj eq_refl J1)). cbn [bind_res].
      rewrite (proj2 (IH (z - 2) _ I2 ltac:(lia)) (conj eq_refl J2)). cbn [bind_res].
      apply int_only_iff. split; [lia|]. rewrite Z.add_comm. exact J.
Qed.
Lemma handcrafted_fact_exact : forall n z v, is_int z -> (Z.to_nat z < n)%nat ->
  (handcrafted_fact n z = Ok v <-> v = factorial (Z.to_nat z) /\ is_int v).
Proof.
  induction n as [|n IH]; intros z v I L; [lia|]. cbn [handcrafted_fact]. destruct (Z.ltb_spec z 1) as [Z2|Z2].
  - rewrite (factorial_base z Z2). split; [intros [= <-]; split; auto; unfold is_int; lia|intros (-> & _); auto].
  - rewrite (factorial_step z Z2).
    assert (I1 : is_int (z - 1)) by (unfold is_int in *; lia).
    rewrite (int_only_ok _ I1). cbn [bind_res].
    pose proof (factorial_pos (Z.to_nat (z - 1))) as P1.
    split.
    + intros H. apply bind_ok in H as (x & X & H).
      apply IH in X as (-> & _); [|auto|lia]. apply int_only_iff in H as (-> & J). auto.
    + intros (-> & J). assert (J1 : is_int (factorial (Z.to_nat (z - 1)))) 
        by (assert (factorial (Z.to_nat (z - 1)) <= z * factorial (Z.to_nat (z - 1))) by nia; unfold is_int in *; lia).
      rewrite (proj2 (IH (z - 1) _ I1 ltac:(lia)) (conj eq_refl J1)).
      cbn [bind_res]. apply int_only_iff. auto.
Qed.
Lemma handcrafted_times_exact : forall z v,
  (handcrafted_times4 z = Ok v <-> v = z * 4 /\ is_int v) /\ (handcrafted_times11 z = Ok v <-> v = z * 11 /\ is_int v).
Proof.
  intros z v. unfold handcrafted_times4, handcrafted_times11. split.
  - split.
    + intros H. apply bind_ok in H as (x & X & H). apply int_only_iff in X as (-> & _). apply int_only_iff in H as (-> & J).
      split; [lia|auto].
    + intros (-> & J). rewrite (int_only_ok (z * 2)) by (unfold is_int in *; lia). cbn [bind_res].
      apply int_only_iff. split; [lia|]. replace (z * 2 * 2) with (z * 4) by lia. auto.
  - rewrite int_only_iff. split; intros (-> & J); auto.
Qed.

Lemma a_word : forall c u, (letter_char c \/ c = 95) -> Forall name_char u -> word (c :: u).
Proof. intros c u H H'. exists c, u. auto. Qed.
Lemma handcrafted_fib_below : forall n n' z, (n <= n')%nat -> below (handcrafted_fib n z) (handcrafted_fib n' z).
Proof.
  induction n as [|n IH]; intros n' z L; [left; reflexivity|]. destruct n' as [|n']; [lia|].
  cbn [handcrafted_fib]. destruct (z <? 2); [apply below_refl|].
  apply below_bind; [apply below_refl|]. intros a. apply below_bind; [apply IH; lia|]. intros b.
  apply below_bind; [apply below_refl|]. intros c. apply below_bind; [apply IH; lia|]. intros d. apply below_refl.
Qed.
Lemma handcrafted_fib_more : forall n n' z v, (n <= n')%nat -> handcrafted_fib n z = Ok v -> handcrafted_fib n' z = Ok v.
Proof. intros n n' z v L. apply below_ok, handcrafted_fib_below, L. Qed.
Lemma handcrafted_fact_below : forall n n' z, (n <= n')%nat -> below (handcrafted_fact n z) (handcrafted_fact n' z).
Proof.
  induction n as [|n IH]; intros n' z L; [left; reflexivity|]. destruct n' as [|n']; [lia|].
  cbn [handcrafted_fact]. destruct (z <? 1); [apply below_refl|].
  apply below_bind; [apply below_refl|]. intros a. apply below_bind; [apply IH; lia|]. intros b. apply below_refl.
Qed.
Lemma handcrafted_fact_more : forall n n' z v, (n <= n')%nat -> handcrafted_fact n z = Ok v -> handcrafted_fact n' z = Ok v.
Proof. intros n n' z v L. apply below_ok, handcrafted_fact_below, L. Qed.
