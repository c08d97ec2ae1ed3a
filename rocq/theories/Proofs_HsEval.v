(** Proofs about the evaluation of the programs of example/meta_hs. *)

From Coq Require Import ZArith List Bool Lia.
From Verif Require Import Base Util Calculator Spec SpecGrammar SpecCalc SpecExamples Grammar MetaHs SpecHs SpecHsEval
  Proofs_Fold Proofs_Calc.
Import ListNotations.
Open Scope Z_scope.

Scheme evals_mind := Minimality for evals Sort Prop
  with forces_mind := Minimality for forces Sort Prop
  with applies_mind := Minimality for applies Sort Prop
  with all_force_mind := Minimality for all_force Sort Prop.
Combined Scheme meaning_ind from evals_mind, forces_mind, applies_mind, all_force_mind.

Scheme evals_at_mind := Minimality for evals_at Sort Prop
  with forces_at_mind := Minimality for forces_at Sort Prop
  with applies_at_mind := Minimality for applies_at Sort Prop
  with all_force_at_mind := Minimality for all_force_at Sort Prop.
Combined Scheme wrapped_ind from evals_at_mind, forces_at_mind, applies_at_mind, all_force_at_mind.

(** ** Determinism *)

Lemma same_bool : forall (b b' : bool) (A : Prop), (b = true <-> A) -> (b' = true <-> A) -> b = b'.
Proof. intros [] [] A H1 H2; auto; [symmetry|]; tauto. Qed.

Lemma op_means_unique : forall o x y v, op_means o x y v -> forall v', op_means o x y v' -> v = v'.
Proof.
  intros o x y v H v' H'; destruct H; inversion H'; subst; f_equal; eauto using same_bool.
  repeat match goal with Q : quotient _ _ _ |- _ => apply quotient_iff in Q as (_ & ->) end. reflexivity.
Qed.
Lemma truth_unique : forall v b, truth v b -> forall b', truth v b' -> b = b'.
Proof. intros v b H b' H'; destruct H; inversion H'; subst; eauto using same_bool. Qed.

Section Determinism.
Variable users : nat -> nat * (list Z -> option Z).
Variable P : hs_code.

Lemma meaning_unique :
  (forall r e v, evals users P r e v -> forall v', evals users P r e v' -> v = v')
  /\ (forall th v, forces users P th v -> forall v', forces users P th v' -> v = v')
  /\ (forall f th v, applies users P f th v -> forall v', applies users P f th v' -> v = v')
  /\ (forall ths zs, all_force users P ths zs -> forall zs', all_force users P ths zs' -> zs = zs').
Proof.
  apply meaning_ind.
  - intros r ds v' H; inversion H; auto.
  - intros r x th v N _ IH v' H; inversion H; subst; try congruence.
    apply IH. congruence.
  - intros r x y ys e N1 N2 v' H; inversion H; subst; congruence.
  - intros r x e v N1 N2 _ IH v' H; inversion H; subst; try congruence.
    apply IH. congruence.
  - intros r x z N1 N2 v' H; inversion H; subst; congruence.
  - intros r x k N1 N2 v' H; inversion H; subst; congruence.
  - intros r f a fv v _ IH1 _ IH2 v' H; inversion H; subst.
    match goal with E : evals _ _ _ f _ |- _ => apply IH1 in E as <- end. auto.
  - intros r c a b cv t v _ IH1 T _ IH2 v' H; inversion H; subst.
    match goal with E : evals _ _ _ c _ |- _ => apply IH1 in E as <- end.
    match goal with E : truth _ _, E' : truth _ _ |- _ => pose proof (truth_unique _ _ E _ E') as <- end. auto.
  - intros r o a b x y v _ IH1 _ IH2 O v' H; inversion H; subst.
    match goal with E : evals _ _ _ a _ |- _ => apply IH1 in E; injection E as <- end.
    match goal with E : evals _ _ _ b _ |- _ => apply IH2 in E; injection E as <- end.
    eapply op_means_unique; eauto.
  - intros z v' H; inversion H; auto.
  - intros e r v _ IH v' H; inversion H; auto.
  - intros x e r th v _ IH v' H; inversion H; auto.
  - intros x y ys e r th v' H; inversion H; auto.
  - intros k ths th N v' H; inversion H; subst; auto; congruence.
  - intros k ths th zs z L _ IH V v' H; inversion H; subst; [congruence|].
    match goal with E : all_force _ _ _ _ |- _ => apply IH in E as <- end. congruence.
  - intros zs' H; inversion H; auto.
  - intros th z ths zs _ IH1 _ IH2 zs' H; inversion H; subst.
    f_equal; auto. match goal with E : forces _ _ th _ |- _ => apply IH1 in E; injection E as <- end. auto.
Qed.

Lemma applies_all_unique : forall f zs v, applies_all users P f zs v ->
  forall v', applies_all users P f zs v' -> v = v'.
Proof.
  intros f zs v H. induction H as [|v0 z v1 zs v2 A _ IH]; intros v' H'; inversion H'; subst; auto.
  match goal with E : applies _ _ _ _ ?w |- _ => pose proof (proj1 (proj2 (proj2 meaning_unique)) _ _ _ E _ A); subst w end.
  auto.
Qed.
Lemma call_unique : forall x zs z z', call_means users P x zs z -> call_means users P x zs z' -> z = z'.
Proof.
  intros x zs z z' (f & F & A) (f' & F' & A').
  pose proof (proj1 meaning_unique _ _ _ F _ F'); subst f'.
  pose proof (applies_all_unique _ _ _ A _ A') as E. congruence.
Qed.
End Determinism.

(** ** Environments *)

Lemma named_lookup : forall A (x : str) (l : list (str * A)), lookup x l = named x l.
Proof. reflexivity. Qed.

Lemma named_in : forall A (x : str) (l : list (str * A)) a, named x l = Some a -> In (x, a) l.
Proof.
  intros A x l a. induction l as [|[y b] l IH]; cbn; [discriminate|].
  destruct (list_eq_dec Z.eq_dec x y) as [->|]; [intros [= ->]; auto|auto].
Qed.
Lemma named_none : forall A (x : str) (l : list (str * A)), named x l = None <-> ~ In x (map fst l).
Proof.
  intros A x l. induction l as [|[y b] l IH]; cbn; [tauto|].
  destruct (list_eq_dec Z.eq_dec x y) as [->|]; [split; [discriminate|tauto]|].
  rewrite IH. intuition congruence.
Qed.
Lemma named_app : forall A (x : str) (l l' : list (str * A)),
  named x (l ++ l') = match named x l with Some a => Some a | None => named x l' end.
Proof. intros A x l l'. induction l as [|[y b] l IH]; cbn; auto. destruct (list_eq_dec Z.eq_dec x y); auto. Qed.
Lemma named_map : forall A B (f : A -> B) (x : str) (l : list (str * A)),
  named x (map (fun xa => (fst xa, f (snd xa))) l) = option_map f (named x l).
Proof. intros A B f x l. induction l as [|[y b] l IH]; cbn; auto. destruct (list_eq_dec Z.eq_dec x y); auto. Qed.

Lemma word_no_op : forall o, ~ word (op_name o).
Proof.
  intros o (c & u & E & C & _). destruct o; cbn in E; injection E as <- _;
    destruct C as [[|]|]; unfold char in *; lia.
Qed.
Definition op_hop (o : bop) : hop :=
  match o with
  | BAdd => HPlus | BSub => HMinus | BMul => HTimes | BDiv => HDivides
  | BLt => HLess | BLe => HLessEqual | BGt => HGreater | BGe => HGreaterEqual
  | BEq => HEqualTo | BNe => HNotEqualTo
  end.
Lemma meta_hs_op : forall o, named (op_name o) meta_hs = Some (AValue (KCurry (TOp (op_hop o)) [])).
Proof. intros []; reflexivity. Qed.
Lemma meta_hs_word : forall x, word x -> named x meta_hs = None.
Proof.
  intros x W. apply named_none. intros H.
  assert (exists o, x = op_name o) as (o & ->).
  { cbn in H.
    destruct H as [<-|[<-|[<-|[<-|[<-|[<-|[<-|[<-|[<-|[<-|[]]]]]]]]]]];
      [exists BNe|exists BEq|exists BGe|exists BGt|exists BLe|exists BLt|exists BDiv|exists BMul|exists BSub|exists BAdd];
      reflexivity. }
  exact (word_no_op _ W).
Qed.

(** ** Sequencing *)

Lemma bind_ok : forall A B (r : res A) (f : A -> res B) b,
  bind_res r f = Ok b -> exists a, r = Ok a /\ f a = Ok b.
Proof. intros A B [a| |] f b H; cbn in H; try discriminate. eauto. Qed.

Ltac un_ok := repeat match goal with
  | H : bind_res _ _ = Ok _ |- _ =>
      let a := fresh "w" in let E := fresh "E" in apply bind_ok in H as (a & E & H)
  | H : Ok _ = Ok _ |- _ => injection H as H; subst
  | H : Ill = Ok _ |- _ => discriminate H
  | H : Deep = Ok _ |- _ => discriminate H
  end.

Lemma f2_length : forall A B (R : A -> B -> Prop) l l', Forall2 R l l' -> length l = length l'.
Proof. intros A B R l l' H; induction H; cbn; auto. Qed.

(** More fuel does not change a result. *)
Definition below {A : Type} (r r' : res A) : Prop := r = Deep \/ r = r'.

Lemma below_refl : forall A (r : res A), below r r.
Proof. right; reflexivity. Qed.
Lemma below_bind : forall A B (r r' : res A) (f f' : A -> res B),
  below r r' -> (forall a, below (f a) (f' a)) -> below (bind_res r f) (bind_res r' f').
Proof. intros A B r r' f f' [->| ->] H; [left; reflexivity|]. destruct r'; cbn; auto; right; reflexivity. Qed.
Lemma below_ok : forall A (r r' : res A) a, below r r' -> r = Ok a -> r' = Ok a.
Proof. intros A r r' a [->|<-] H; [discriminate|exact H]. Qed.

Lemma bind_below : forall n n' top env a, (n <= n')%nat -> below (bind n top env a) (bind n' top env a).
Proof.
  induction n as [|n IH]; intros n' top env a L; [left; reflexivity|].
  destruct n' as [|n']; [lia|]. destruct a; cbn [bind]; try apply below_refl.
  - destruct (lookup name env); [apply IH; lia|apply below_refl].
  - apply below_bind; [apply IH; lia|]. intros a'. apply below_bind; [apply IH; lia|]. intros; apply below_refl.
  - apply IH; lia.
Qed.
Lemma bind_more : forall n n' top env a c, (n <= n')%nat -> bind n top env a = Ok c -> bind n' top env a = Ok c.
Proof. intros n n' top env a c L. apply below_ok, bind_below, L. Qed.

(** ** Soundness *)

Section Programs.
Variable users : nat -> nat * (list Z -> option Z).
Variable P : hs_code.
Hypothesis names : well_named P.

Local Notation top := (program_env P).
Local Notation evals_at := (evals_at users P).
Local Notation forces_at := (forces_at users P).
Local Notation applies_at := (applies_at users P).
Local Notation all_force_at := (all_force_at users P).
Local Notation resolve := (resolve users).

(** classes and the arguments they stand for *)
Inductive rep : cls -> thunk -> Prop :=
| rep_int : forall z, rep (KInt z) (TInt z)
| rep_exp : forall m env r e c, env_rep env r -> words_in e -> bind m top env (tree e) = Ok c ->
    rep c (TExp e r)
with env_rep : environment -> scope -> Prop :=
| er_nil : env_rep top []
| er_cons : forall x a th env r, word x -> rep a th -> env_rep env r ->
    env_rep ((x, AValue a) :: env) ((x, th) :: r).

Inductive vrep : cls -> hval -> Prop :=
| vr_int : forall z, vrep (KInt z) (NInt z)
| vr_bool : forall b, vrep (KBool b) (NBool b)
| vr_fun : forall x xs e env r, env_rep env r -> Forall word (x :: xs) -> words_in e ->
    vrep (KLam (lambdas xs (tree e)) x top env) (NFun x xs e r)
| vr_tmpl : forall k args ths, Forall2 rep args ths -> vrep (KCurry (TUser k) args) (NTmpl k ths).

Lemma lookup_op : forall env r o, env_rep env r ->
  lookup (op_name o) env = Some (AValue (KCurry (TOp (op_hop o)) [])).
Proof.
  intros env r o H. induction H as [|x a th env r W _ H IH].
  - rewrite named_lookup. unfold program_env. rewrite named_app, named_map.
    destruct (named (op_name o) P) as [g|] eqn:E; cbn; [|apply meta_hs_op].
    apply named_in in E. apply names in E as [E _]. destruct (word_no_op _ E).
  - cbn [lookup]. destruct (list_eq_dec Z.eq_dec (op_name o) x) as [<-|]; auto. destruct (word_no_op _ W).
Qed.
Lemma lookup_top : forall x, word x -> lookup x top = option_map gtree (named x P).
Proof.
  intros x W. rewrite named_lookup. unfold program_env. rewrite named_app, named_map.
  destruct (named x P); cbn [option_map]; auto using meta_hs_word.
Qed.
Lemma lookup_word : forall env r x, env_rep env r -> word x ->
  match named x r with
  | Some th => exists a, lookup x env = Some (AValue a) /\ rep a th
  | None => lookup x env = option_map gtree (named x P)
  end.
Proof.
  intros env r x H W. induction H as [|y a th env r Wy R H IH]; cbn [named lookup]; [apply lookup_top, W|].
  destruct (list_eq_dec Z.eq_dec x y) as [->|]; auto. eauto.
Qed.

(** [c] stands for a value satisfying [F] with the number of layers. *)
Definition den (c : cls) (F : nat -> hval -> Prop) : Prop :=
  (exists th, rep c th /\ forall k v, forces_at th k v -> F k v) \/ (exists v, vrep c v /\ F 0%nat v).
Definition out (r : cls) (F : nat -> hval -> Prop) : Prop :=
  (exists v, vrep r v /\ F 0%nat v) \/ (exists a, r = KVal a /\ den a (fun k => F (S k))).
Definition less (F : nat -> hval -> Prop) (k : nat) (v : hval) : Prop := exists k', k = pred k' /\ F k' v.

Lemma den_impl : forall c (F G : nat -> hval -> Prop), (forall k v, F k v -> G k v) -> den c F -> den c G.
Proof. intros c F G H [(th & R & K)|(v & R & K)]; [left|right]; eauto. Qed.
Lemma out_impl : forall c (F G : nat -> hval -> Prop), (forall k v, F k v -> G k v) -> out c F -> out c G.
Proof.
  intros c F G H [(v & R & K)|(a & -> & K)]; [left|right]; eauto.
  exists a. split; auto. revert K. apply den_impl. auto.
Qed.

Lemma vrep_resolve : forall n c v r, vrep c v -> resolve n c = Ok r -> r = c.
Proof. intros [|n] c v r H E; [discriminate|]. destruct H; cbn in E; congruence. Qed.
Lemma vrep_member : forall c v, vrep c v -> member_type c = c.
Proof. intros c v H; destruct H; reflexivity. Qed.

Definition sound_at (n : nat) : Prop :=
  forall c F r, den c F -> resolve n c = Ok r -> out r F.

Lemma out_member : forall r F, out r F -> den (member_type r) (less F).
Proof.
  intros r F [(v & R & K)|(a & -> & K)].
  - rewrite (vrep_member _ _ R). right. exists v. split; auto. exists 0%nat. auto.
  - cbn [member_type]. revert K. apply den_impl. intros k v H. exists (S k). auto.
Qed.
(** [A::type] as a constant *)
Lemma member_sound : forall n c F ra rt, sound_at n -> den c F ->
  resolve n c = Ok ra -> resolve n (member_type ra) = Ok rt -> out rt (less F).
Proof. intros n c F ra rt S D E1 E2. eapply S; [|exact E2]. apply out_member. eapply S; eauto. Qed.

Lemma int_member_sound : forall n c F z, sound_at n -> den c F ->
  int_member (resolve n) c = Ok z -> exists k, (k <= 1)%nat /\ F k (NInt z).
Proof.
  intros n c F z S D H. unfold int_member in H. un_ok. destruct w0; un_ok.
  destruct (member_sound _ _ _ _ _ S D E E0) as [(v & R & k & K1 & K2)|(a & Q & _)]; [|discriminate Q].
  inversion R; subst. exists k. split; auto. lia.
Qed.
Lemma bool_member_sound : forall n c F b, sound_at n -> den c F ->
  bool_member (resolve n) c = Ok b -> exists k v, (k <= 1)%nat /\ F k v /\ truth v b.
Proof.
  intros n c F b S D H. unfold bool_member in H. un_ok.
  destruct (member_sound _ _ _ _ _ S D E E0) as [(v & R & k & K1 & K2)|(a & -> & _)]; [|discriminate H].
  exists k, v. splits; [lia|auto|]. destruct R; un_ok; constructor.
  destruct (Z.eqb_spec z 0); cbn; intuition congruence.
Qed.
Lemma int_members_sound : forall n cs ths zs, sound_at n -> Forall2 rep cs ths ->
  int_members (resolve n) cs = Ok zs -> all_force_at ths zs.
Proof.
  intros n cs ths zs S H. revert zs. induction H as [|c th cs ths R _ IH]; intros zs E; cbn [int_members] in E; un_ok.
  - constructor.
  - destruct (int_member_sound n c (forces_at th) w) as (k & K1 & K2); eauto; [left; eauto|].
    econstructor; eauto.
Qed.
Lemma rep_exp_den : forall n env r e c, env_rep env r -> words_in e -> bind n top env (tree e) = Ok c ->
  den c (evals_at r e).
Proof.
  intros n env r e c He W B. left. exists (TExp e r). split; [econstructor; eauto|].
  intros k v Q; inversion Q; auto.
Qed.

Lemma in_scope : forall A x (r : list (str * A)), named x r = None <-> ~ In x (map fst r).
Proof. intros; apply named_none. Qed.
Lemma bind_usable : forall n env r e c, env_rep env r -> words_in e -> bind n top env (tree e) = Ok c ->
  usable P (map fst r) e.
Proof.
  induction n as [n IH] using (well_founded_induction Wf_nat.lt_wf).
  intros env r e c He W B. destruct n as [|n]; [discriminate|].
  destruct e as [ds|x|f a|cd a b|o a b]; cbn [tree bind] in B; cbn [words_in] in W.
  - constructor.
  - pose proof (lookup_word _ _ x He W) as L. destruct (named x r) as [th|] eqn:N.
    + apply us_param. apply named_in, (in_map fst) in N. exact N.
    + rewrite L in B. destruct (named x P) as [g|] eqn:G; [|discriminate B]. cbn [option_map] in B.
      apply named_none in N. destruct (names _ _ (named_in _ _ _ _ G)) as [_ Wg].
      destruct g as [[|y ys] e|z|j]; try (eapply us_global; eauto; discriminate).
      eapply us_expression; eauto. cbn [gtree lambdas] in B. destruct n as [|n]; [discriminate B|].
      cbn [bind] in B. eapply (IH n ltac:(lia) top []); eauto; [constructor|tauto].
  - un_ok. constructor; eapply (IH n ltac:(lia)); eauto; tauto.
  - destruct W as (Wc & Wa & Wb).
    apply bind_ok in B as (f2 & B2 & B). apply bind_ok in B as (cb & Bb & B).
    destruct n as [|n]; [discriminate B2|]. cbn [bind] in B2.
    apply bind_ok in B2 as (f1 & B1 & B2). apply bind_ok in B2 as (ca & Ba & B2).
    destruct n as [|n]; [discriminate B1|]. cbn [bind] in B1.
    apply bind_ok in B1 as (f0 & B0 & B1). apply bind_ok in B1 as (cc & Bc & B1).
    constructor; eauto.
  - destruct W as (Wa & Wb).
    apply bind_ok in B as (f1 & B1 & B). apply bind_ok in B as (cb & Bb & B).
    destruct n as [|n]; [discriminate B1|]. cbn [bind] in B1.
    apply bind_ok in B1 as (f0 & B0 & B1). apply bind_ok in B1 as (ca & Ba & B1).
    constructor; eauto.
Qed.

Lemma hop_means : forall o x y c, hop_result (op_hop o) x y = Some c ->
  exists v, vrep c v /\ op_means o x y v.
Proof.
  intros o x y c H. destruct o; cbn in H;
    try (match type of H with (if int_ok ?z then _ else _) = _ => destruct (int_ok z) eqn:I; [|discriminate H] end;
      injection H as <-; apply int_ok_iff in I; eexists; split; [constructor|constructor; exact I]);
    try (injection H as <-; eexists; split; [constructor|constructor];
      rewrite ?Z.ltb_lt, ?Z.leb_le, ?Z.eqb_eq, ?negb_true_iff, ?Z.eqb_neq; lia).
  destruct (Z.eqb_spec y 0); [discriminate|].
  destruct (int_ok (Z.quot x y)) eqn:I; [|discriminate H]. injection H as <-. apply int_ok_iff in I.
  eexists; split; [constructor|constructor; auto]. apply quotient_iff; auto.
Qed.

Lemma apply_sound : forall n c F a th b, sound_at n -> den c F -> rep a th ->
  apply_by users (resolve n) n c a = Ok b -> den b (fun k v => exists f, F 0%nat f /\ applies_at f th k v).
Proof.
  intros n c F a th b S D Ra H. unfold apply_by in H. apply bind_ok in H as (rc & E & H).
  destruct (S _ _ _ D E) as [(fv & R & K)|(a' & -> & _)]; [|discriminate H].
  destruct R as [z|bb|x xs e env r Re W We|k args ths Rs]; try discriminate H.
  - un_ok. inversion W as [|? ? Wx Ws]; subst.
    destruct xs as [|y ys]; cbn [lambdas] in E0.
    + assert (He : env_rep ((x, AValue a) :: env) ((x, th) :: r)) by (constructor; auto).
      apply (den_impl _ (less (evals_at ((x, th) :: r) e))).
      { intros k v (k' & -> & Hv). exists (NFun x [] e r). split; auto. constructor; auto.
        exact (bind_usable _ _ _ _ _ He We E0). }
      apply out_member. eapply S; [|exact E1]. eapply rep_exp_den; eauto.
    + destruct n as [|n]; [discriminate E0|]. cbn [bind] in E0. injection E0 as <-.
      cbn in E1. injection E1 as <-. cbn [member_type].
      right. eexists. split; [constructor; [constructor; eauto|exact Ws|exact We]|].
      eexists; split; [exact K|constructor].
  - cbn [arity] in H.
    assert (Rs' : Forall2 rep (args ++ [a]) (ths ++ [th])) by (apply Forall2_app; auto).
    pose proof (f2_length _ _ _ _ _ Rs) as L. rewrite L in H.
    destruct (Nat.eqb_spec (Datatypes.S (length ths)) (fst (users k))) as [A|A].
    + cbn [run_tmpl] in H. un_ok. destruct (snd (users k) w) as [z|] eqn:V; cbn in H; un_ok.
      right. eexists; split; [constructor|]. eexists; split; [exact K|].
      eapply aa_run; eauto. eapply int_members_sound; eauto.
    + un_ok. right. eexists; split; [constructor; exact Rs'|]. eexists; split; [exact K|].
      apply aa_collect; auto.
Qed.

Lemma bind_op : forall m env r o c, env_rep env r -> bind m top env (ARef (op_name o)) = Ok c ->
  c = KVal (KCurry (TOp (op_hop o)) []).
Proof.
  intros [|m] env r o c H E; [discriminate|]. cbn [bind] in E. rewrite (lookup_op _ _ _ H) in E.
  destruct m; cbn in E; congruence.
Qed.

(** an application of a template that is not imported *)
Lemma resolve_first : forall n t a r, arity users t <> 1%nat ->
  resolve n (KApp (KVal (KCurry t [])) a) = Ok r -> r = KCurry t [a].
Proof.
  intros [|[|n]] t a r A H; try discriminate.
  cbn [MetaHs.resolve bind_res member_type] in H. unfold apply_by in H. cbn [MetaHs.resolve bind_res length app] in H.
  destruct (Nat.eqb_spec 1 (arity users t)); [congruence|]. cbn in H. congruence.
Qed.
Lemma resolve_more : forall n t args f b r,
  (forall m r', resolve m f = Ok r' -> r' = KCurry t args) -> S (length args) <> arity users t ->
  resolve n (KApp f b) = Ok r -> r = KCurry t (args ++ [b]).
Proof.
  intros [|n] t args f b r Hf A H; [discriminate|].
  cbn [MetaHs.resolve] in H. apply bind_ok in H as (rf & E & H). apply Hf in E as ->.
  apply bind_ok in H as (b' & E & H). unfold apply_by in E. apply bind_ok in E as (rc & E1 & E2).
  assert (rc = KCurry t args) as -> by (destruct n; [discriminate|cbn in E1; congruence]).
  destruct (Nat.eqb_spec (S (length args)) (arity users t)); [congruence|].
  injection E2 as <-. destruct n; [discriminate|cbn in H; congruence].
Qed.
Lemma resolve_last : forall n t args f b r,
  (forall m r', resolve m f = Ok r' -> r' = KCurry t args) -> S (length args) = arity users t ->
  resolve n (KApp f b) = Ok r ->
  exists m c, n = S m /\ run_tmpl users (resolve m) t (args ++ [b]) = Ok c /\ resolve m c = Ok r.
Proof.
  intros [|n] t args f b r Hf A H; [discriminate|].
  cbn [MetaHs.resolve] in H. apply bind_ok in H as (rf & E & H). apply Hf in E as ->.
  apply bind_ok in H as (b' & E & H). unfold apply_by in E. apply bind_ok in E as (rc & E1 & E2).
  assert (rc = KCurry t args) as -> by (destruct n; [discriminate|cbn in E1; congruence]).
  rewrite A, Nat.eqb_refl in E2. eauto.
Qed.

Lemma sound_exp : forall n, (forall m, (m < n)%nat -> sound_at m) ->
  forall k env r e c v, env_rep env r -> words_in e -> bind k top env (tree e) = Ok c ->
  resolve n c = Ok v -> out v (evals_at r e).
Proof.
  intros n IH k. induction k as [|k IHk]; intros env r e c v He W B R; [discriminate|].
  destruct e as [ds|x|f a|cd a b|o a b]; cbn [tree bind] in B; cbn [words_in] in W.
  - injection B as <-. destruct n; [discriminate|]. cbn in R. injection R as <-.
    right. eexists; split; [reflexivity|]. right. eexists; split; constructor.
  - pose proof (lookup_word _ _ x He W) as L. destruct (named x r) as [th|] eqn:N.
    + destruct L as (a & L & Ra). rewrite L in B. destruct k; [discriminate|]. cbn in B. injection B as <-.
      destruct n; [discriminate|]. cbn in R. injection R as <-.
      right. eexists; split; [reflexivity|]. left. exists th. split; auto. intros k0 v0; econstructor; eauto.
    + rewrite L in B. destruct (named x P) as [g|] eqn:G; [|discriminate B]. cbn [option_map] in B.
      assert (Wg := names _ _ (named_in _ _ _ _ G)). destruct Wg as [_ Wg].
      destruct g as [xs e|z|j]; cbn [gtree] in B; (destruct k as [|k]; [discriminate B|]).
      * cbn [bind] in B. destruct xs as [|y ys]; cbn [lambdas] in B.
        -- apply (out_impl _ (evals_at [] e)); [intros; eapply ea_expression; eauto|].
           eapply (IHk top [] e c v); [constructor|tauto| |exact R].
           eapply bind_more; [|exact B]; lia.
        -- destruct k; [discriminate B|]. cbn [bind] in B. injection B as <-.
           destruct n; [discriminate|]. cbn in R. injection R as <-.
           left. eexists; split; [constructor; [constructor|tauto|tauto]|]. eapply ea_function; eauto.
      * cbn in B. injection B as <-. destruct n; [discriminate|]. cbn in R. injection R as <-.
        right. eexists; split; [reflexivity|]. right. eexists; split; [constructor|]. apply ea_constant; auto.
      * cbn in B. injection B as <-. destruct n; [discriminate|]. cbn in R. injection R as <-.
        right. eexists; split; [reflexivity|]. right. eexists; split; [constructor; constructor|]. apply ea_template; auto.
  - destruct W as [Wf Wa]. un_ok. rename w into cf, w0 into ca.
    destruct n as [|n]; [discriminate|]. cbn [MetaHs.resolve] in R. un_ok.
    assert (S : sound_at n) by (apply IH; lia).
    assert (Df : den cf (evals_at r f)) by (eapply rep_exp_den; eauto).
    assert (Ra : rep ca (TExp a r)) by (econstructor; eauto).
    pose proof (out_member _ _ (S _ _ _ Df E1)) as D1.
    pose proof (apply_sound _ _ _ _ _ _ S D1 Ra E2) as D2.
    apply (out_impl _ _ _) with (2 := S _ _ _ D2 R).
    intros k0 v0 (fv & (kf & F0 & F1) & F2). eapply ea_call; eauto. lia.
  - destruct W as (Wc & Wa & Wb).
    apply bind_ok in B as (f2 & B2 & B). apply bind_ok in B as (cb & Bb & B). injection B as <-.
    destruct k as [|k]; [discriminate B2|]. cbn [bind] in B2.
    apply bind_ok in B2 as (f1 & B1 & B2). apply bind_ok in B2 as (ca & Ba & B2). injection B2 as <-.
    destruct k as [|k]; [discriminate B1|]. cbn [bind] in B1.
    apply bind_ok in B1 as (f0 & B0 & B1). apply bind_ok in B1 as (cc & Bc & B1). injection B1 as <-.
    destruct k as [|k]; [discriminate B0|]. cbn [bind] in B0. injection B0 as <-.
    apply (resolve_last _ TIf [cc; ca]) in R as (m & c & -> & T & R); [| |reflexivity].
    2: { intros m r' H. eapply (resolve_more _ _ [cc]) in H; [exact H| |discriminate].
         intros m' r2. apply resolve_first. discriminate. }
    cbn [run_tmpl app] in T. apply bind_ok in T as (t & T & Q). injection Q as <-.
    assert (S : sound_at m) by (apply IH; lia).
    assert (Dc : den cc (evals_at r cd)) by (eapply rep_exp_den; eauto).
    destruct (bool_member_sound _ _ _ _ S Dc T) as (kc & cv & C0 & C1 & C2).
    apply (out_impl _ (evals_at r (if t then a else b))); [intros; eapply ea_if; eauto|].
    eapply S; [|exact R]. destruct t; eapply rep_exp_den; eauto.
  - destruct W as (Wa & Wb).
    apply bind_ok in B as (f1 & B1 & B). apply bind_ok in B as (cb & Bb & B). injection B as <-.
    destruct k as [|k]; [discriminate B1|]. cbn [bind] in B1.
    apply bind_ok in B1 as (f0 & B0 & B1). apply bind_ok in B1 as (ca & Ba & B1). injection B1 as <-.
    apply (bind_op _ _ _ _ _ He) in B0 as ->.
    apply (resolve_last _ (TOp (op_hop o)) [ca]) in R as (m & c & -> & T & R); [| |reflexivity].
    2: { intros m r' H. eapply resolve_first in H; [exact H|discriminate]. }
    cbn [run_tmpl app] in T.
    apply bind_ok in T as (x & X & T). apply bind_ok in T as (y & Y & T).
    destruct (hop_result (op_hop o) x y) as [c'|] eqn:Hr; [|discriminate T]. injection T as ->.
    apply hop_means in Hr as (v' & V & M).
    assert (S : sound_at m) by (apply IH; lia).
    apply (vrep_resolve _ _ _ _ V) in R as ->. left. exists v'. split; auto.
    destruct (int_member_sound m ca (evals_at r a) x) as (ka & A1 & A2); eauto using rep_exp_den.
    destruct (int_member_sound m cb (evals_at r b) y) as (kb & A3 & A4); eauto using rep_exp_den.
    eapply ea_op; eauto.
Qed.

Lemma sound : forall n, sound_at n.
Proof.
  induction n as [n IH] using (well_founded_induction Wf_nat.lt_wf).
  intros c F r [(th & R & K)|(v & R & K)] E.
  - destruct R as [z|m env sc e c He W B].
    + destruct n; [discriminate|]. cbn in E. injection E as <-.
      left. eexists; split; [constructor|]. apply K. constructor.
    + apply (out_impl _ (evals_at sc e)); [intros; apply K; constructor; auto|].
      eapply sound_exp; eauto.
  - rewrite (vrep_resolve _ _ _ _ R E). left; eauto.
Qed.

Lemma get_sound : forall n x c, word x -> get users n top x = Ok c ->
  usable P [] (HVar x) /\ den c (less (evals_at [] (HVar x))).
Proof.
  intros n x c W H. unfold get in H.
  destruct (lookup x top) as [a|] eqn:L; [|discriminate H]. un_ok.
  assert (B : bind (S n) top top (tree (HVar x)) = Ok w) by (cbn [tree bind]; rewrite L; exact E).
  split.
  - apply (bind_usable (S n) top [] (HVar x) w); [constructor|exact W|exact B].
  - apply out_member. eapply (sound n); [|exact E0].
    apply (rep_exp_den (S n) top); [constructor|exact W|exact B].
Qed.
Lemma apply_all_sound : forall n zs c b F, den c F -> apply_all users n c zs = Ok b ->
  forall z, class_value users n b = Ok z -> exists f, F 0%nat f /\ applies_all_at users P f zs (NInt z).
Proof.
  intros n zs. induction zs as [|z zs IH]; intros c b F D H z' V; cbn [apply_all] in H.
  - injection H as ->. unfold class_value in V. un_ok. destruct w; un_ok.
    destruct (sound n _ _ _ D E) as [(v & Vr & K)|(a & Q & _)]; [|discriminate Q].
    inversion Vr; subst. eexists; split; [exact K|constructor].
  - un_ok. unfold apply_class in E.
    pose proof (apply_sound _ _ _ _ (TInt z) _ (sound n) D (rep_int z) E) as D1.
    destruct (IH _ _ _ D1 H _ V) as (f1 & (f & F1 & A) & A'). exists f. split; auto. econstructor; eauto.
Qed.
Theorem call_sound : forall n x zs z, word x -> call users n top x zs = Ok z -> library_call users P x zs z.
Proof.
  intros n x zs z W H. unfold call in H. un_ok.
  destruct (get_sound _ _ _ W E) as (U & D).
  destruct (apply_all_sound _ _ _ _ _ D E0 _ H) as (f & (k & K1 & K2) & A).
  exists k, f. splits; auto. lia.
Qed.

(** ** Completeness *)

Lemma int_member_below : forall rs rs' c, (forall c, below (rs c) (rs' c)) -> below (int_member rs c) (int_member rs' c).
Proof.
  intros rs rs' c H. unfold int_member. apply below_bind; auto. intros a. apply below_bind; auto.
  intros; apply below_refl.
Qed.
Lemma bool_member_below : forall rs rs' c, (forall c, below (rs c) (rs' c)) -> below (bool_member rs c) (bool_member rs' c).
Proof.
  intros rs rs' c H. unfold bool_member. apply below_bind; auto. intros a. apply below_bind; auto.
  intros; apply below_refl.
Qed.
Lemma int_members_below : forall rs rs' cs, (forall c, below (rs c) (rs' c)) -> below (int_members rs cs) (int_members rs' cs).
Proof.
  intros rs rs' cs H. induction cs as [|c cs IH]; cbn [int_members]; [apply below_refl|].
  apply below_bind; [apply int_member_below; auto|]. intros a. apply below_bind; auto. intros; apply below_refl.
Qed.
Lemma run_tmpl_below : forall rs rs' t cs, (forall c, below (rs c) (rs' c)) ->
  below (run_tmpl users rs t cs) (run_tmpl users rs' t cs).
Proof.
  intros rs rs' t cs H. destruct t as [o| |k]; cbn [run_tmpl].
  - destruct cs as [|a [|b [|]]]; try apply below_refl.
    apply below_bind; [apply int_member_below; auto|]. intros x.
    apply below_bind; [apply int_member_below; auto|]. intros y; apply below_refl.
  - destruct cs as [|a [|b [|c [|]]]]; try apply below_refl.
    apply below_bind; [apply bool_member_below; auto|]. intros x; apply below_refl.
  - apply below_bind; [apply int_members_below; auto|]. intros x; apply below_refl.
Qed.
Lemma apply_by_below : forall rs rs' n n' c a, (n <= n')%nat -> (forall c, below (rs c) (rs' c)) ->
  below (apply_by users rs n c a) (apply_by users rs' n' c a).
Proof.
  intros rs rs' n n' c a L H. unfold apply_by. apply below_bind; auto. intros rc.
  destruct rc; try apply below_refl.
  - apply below_bind; [apply bind_below, L|]. intros l. apply below_bind; auto. intros; apply below_refl.
  - destruct (Nat.eqb (S (length args)) (arity users t)); [apply run_tmpl_below; auto|apply below_refl].
Qed.
Lemma resolve_below : forall n n' c, (n <= n')%nat -> below (resolve n c) (resolve n' c).
Proof.
  induction n as [|n IH]; intros n' c L; [left; reflexivity|]. destruct n' as [|n']; [lia|].
  destruct c; try apply below_refl. cbn [MetaHs.resolve].
  apply below_bind; [apply IH; lia|]. intros rf. apply below_bind; [apply apply_by_below; [lia|]|].
  - intros c. apply IH; lia.
  - intros b. apply IH; lia.
Qed.
Lemma resolve_more_fuel : forall n n' c r, (n <= n')%nat -> resolve n c = Ok r -> resolve n' c = Ok r.
Proof. intros n n' c r L. apply below_ok, resolve_below, L. Qed.

Definition resolves (c r : cls) : Prop := exists n, resolve n c = Ok r.
Definition binds (env : environment) (a : ast) (c : cls) : Prop := exists n, bind n top env a = Ok c.
Definition applies_to (c a b : cls) : Prop := exists n, apply_by users (resolve n) n c a = Ok b.

Lemma binds_unique : forall env a c c', binds env a c -> binds env a c' -> c = c'.
Proof.
  intros env a c c' (n & H) (n' & H').
  apply (bind_more _ (Nat.max n n')) in H; [|lia]. apply (bind_more _ (Nat.max n n')) in H'; [|lia]. congruence.
Qed.
Lemma resolves_at : forall c r, resolves c r -> exists N, forall n, (N <= n)%nat -> resolve n c = Ok r.
Proof. intros c r (N & H). exists N. intros n L. eapply resolve_more_fuel; eauto. Qed.
Lemma binds_at : forall env a c, binds env a c -> exists N, forall n, (N <= n)%nat -> bind n top env a = Ok c.
Proof. intros env a c (N & H). exists N. intros n L. eapply bind_more; eauto. Qed.
Lemma applies_from : forall c a b, applies_to c a b ->
  exists N, forall n, (N <= n)%nat -> apply_by users (resolve n) n c a = Ok b.
Proof.
  intros c a b (N & H). exists N. intros n L. eapply below_ok; [|exact H].
  apply apply_by_below; auto. intros; apply resolve_below; auto.
Qed.
Lemma resolves_app : forall f a rf b r, resolves f rf -> applies_to (member_type rf) a b -> resolves b r ->
  resolves (KApp f a) r.
Proof.
  intros f a rf b r H1 H2 H3.
  apply resolves_at in H1 as (N1 & H1). apply applies_from in H2 as (N2 & H2). apply resolves_at in H3 as (N3 & H3).
  exists (S (N1 + N2 + N3)). cbn [MetaHs.resolve].
  rewrite H1 by lia. cbn [bind_res]. rewrite H2 by lia. cbn [bind_res]. apply H3. lia.
Qed.
Lemma binds_app : forall env f a cf ca, binds env f cf -> binds env a ca -> binds env (AApp f a) (KApp cf ca).
Proof.
  intros env f a cf ca H1 H2. apply binds_at in H1 as (N1 & H1). apply binds_at in H2 as (N2 & H2).
  exists (S (N1 + N2)). cbn [bind]. rewrite H1, H2 by lia. reflexivity.
Qed.

Fixpoint behind (k : nat) (c : cls) (v : hval) : Prop :=
  match k with
  | O => exists r, resolves c r /\ vrep r v
  | S k' => exists a, resolves c (KVal a) /\ behind k' a v
  end.

Lemma vrep_behind : forall c v, vrep c v -> behind 0 c v.
Proof. intros c v H. exists c. split; auto. exists 1%nat. destruct H; reflexivity. Qed.
Lemma behind_same : forall k c c' v, (forall r, resolves c r -> resolves c' r) -> behind k c v -> behind k c' v.
Proof. intros [|k] c c' v H (r & R & K); exists r; auto. Qed.
Lemma kval_behind : forall k a v, behind k a v -> behind (S k) (KVal a) v.
Proof. intros k a v H. exists a. split; auto. exists 1%nat; reflexivity. Qed.
Lemma behind_member : forall k c v, behind k c v -> exists r, resolves c r /\ behind (pred k) (member_type r) v.
Proof.
  intros [|k] c v (r & R & K); eexists; (split; [exact R|]).
  - rewrite (vrep_member _ _ K). apply vrep_behind, K.
  - exact K.
Qed.
Lemma behind_both : forall k c v, behind k c v -> (k <= 1)%nat -> exists N rt ra, vrep rt v /\
  forall n, (N <= n)%nat -> resolve n c = Ok ra /\ resolve n (member_type ra) = Ok rt.
Proof.
  intros k c v H L. apply behind_member in H as (ra & R & H). replace (pred k) with 0%nat in H by lia.
  destruct H as (rt & R' & V).
  apply resolves_at in R as (N1 & R). apply resolves_at in R' as (N2 & R').
  exists (N1 + N2)%nat, rt, ra. split; auto. intros n L'. rewrite R, R' by lia. auto.
Qed.
Lemma int_member_complete : forall k c z, behind k c (NInt z) -> (k <= 1)%nat ->
  exists N, forall n, (N <= n)%nat -> int_member (resolve n) c = Ok z.
Proof.
  intros k c z H K. apply behind_both in H as (N & rt & ra & V & H); auto. exists N. intros n L.
  destruct (H n L) as (R1 & R2). unfold int_member. rewrite R1. cbn [bind_res]. rewrite R2. inversion V; reflexivity.
Qed.
Lemma bool_member_complete : forall k c v b, behind k c v -> (k <= 1)%nat -> truth v b ->
  exists N, forall n, (N <= n)%nat -> bool_member (resolve n) c = Ok b.
Proof.
  intros k c v b H K T. apply behind_both in H as (N & rt & ra & V & H); auto. exists N. intros n L.
  destruct (H n L) as (R1 & R2). unfold bool_member. rewrite R1. cbn [bind_res]. rewrite R2.
  destruct T; inversion V; subst; cbn; auto. f_equal.
  apply (same_bool _ _ (z <> 0)); auto. destruct (Z.eqb_spec z 0); cbn; intuition congruence.
Qed.
Lemma hop_complete : forall o x y v, op_means o x y v ->
  exists c, hop_result (op_hop o) x y = Some c /\ vrep c v.
Proof.
  assert (B : forall f b A, (f = true <-> A) -> (b = true <-> A) -> exists c, Some (KBool f) = Some c /\ vrep c (NBool b)).
  { intros f b A H H'. rewrite (same_bool _ _ _ H H'). eexists; split; [reflexivity|constructor]. }
  intros o x y v H; destruct H as [x y I|x y I|x y I|x y q Q I|x y b H|x y b H|x y b H|x y b H|x y b H|x y b H];
    cbn [op_hop hop_result].
  1-3: apply int_ok_iff in I; rewrite I; eexists; split; [reflexivity|constructor].
  - apply quotient_iff in Q as (Q & ->). destruct (Z.eqb_spec y 0); [congruence|].
    apply int_ok_iff in I; rewrite I; eexists; split; [reflexivity|constructor].
  - eapply B; [apply Z.ltb_lt|exact H].
  - eapply B; [apply Z.leb_le|exact H].
  - eapply B; [apply Z.ltb_lt|]. rewrite H. lia.
  - eapply B; [apply Z.leb_le|]. rewrite H. lia.
  - eapply B; [apply Z.eqb_eq|exact H].
  - eapply B; [|exact H]. rewrite negb_true_iff. apply Z.eqb_neq.
Qed.

Lemma binds_top_function : forall env x y ys e, lookup x env = Some (gtree (GFun (y :: ys) e)) ->
  binds env (ARef x) (KLam (lambdas ys (tree e)) y top top).
Proof. intros env x y ys e H. exists 3%nat. cbn [bind]. rewrite H. reflexivity. Qed.
Lemma binds_value : forall env x a, lookup x env = Some (AValue a) -> binds env (ARef x) (KVal a).
Proof. intros env x a H. exists 2%nat. cbn [bind]. rewrite H. reflexivity. Qed.
Lemma binds_op : forall env r o, env_rep env r ->
  binds env (ARef (op_name o)) (KVal (KCurry (TOp (op_hop o)) [])).
Proof. intros env r o H. apply binds_value. eapply lookup_op; eauto. Qed.
Lemma binds_if : forall env, binds env (AValue (KCurry TIf [])) (KVal (KCurry TIf [])).
Proof. intros env. exists 1%nat. reflexivity. Qed.

Lemma bind_total : forall xs e, usable P xs e -> forall env r, env_rep env r -> words_in e ->
  xs = map fst r -> exists c, binds env (tree e) c.
Proof.
  intros xs e U. induction U as [xs ds|xs x I|xs x e N G _ IH|xs x g N G D|xs f a _ IHf _ IHa|xs c a b _ IHc _ IHa _ IHb|xs o a b _ IHa _ IHb];
    intros env r H W ->; cbn [words_in tree] in *.
  - eexists. exists 1%nat. reflexivity.
  - pose proof (lookup_word _ _ x H W) as L. destruct (named x r) as [th|] eqn:N; [|apply named_none in N; contradiction].
    destruct L as (a & L & _). eexists. apply binds_value, L.
  - apply named_none in N. pose proof (lookup_word _ _ x H W) as L. rewrite N, G in L. cbn in L.
    destruct (names _ _ (named_in _ _ _ _ G)) as (_ & _ & We).
    destruct (IH top []) as (c & (n & Hc)); [constructor|exact We|reflexivity|].
    exists c. exists (S (S n)). cbn [bind]. rewrite L. exact Hc.
  - apply named_none in N. pose proof (lookup_word _ _ x H W) as L. rewrite N, G in L. cbn [option_map] in L.
    destruct g as [[|y ys] e|z|k]; [destruct (D e); reflexivity| | |].
    + eexists. eapply binds_top_function; eauto.
    + eexists. apply binds_value, L.
    + eexists. apply binds_value, L.
  - destruct (IHf env r) as (cf & Hf); try tauto. destruct (IHa env r) as (ca & Ha); try tauto.
    eexists. apply binds_app; eauto.
  - destruct (IHc env r) as (cc & Hc); try tauto. destruct (IHa env r) as (ca & Ha); try tauto.
    destruct (IHb env r) as (cb & Hb); try tauto.
    eexists. repeat apply binds_app; eauto. apply binds_if.
  - destruct (IHa env r) as (ca & Ha); try tauto. destruct (IHb env r) as (cb & Hb); try tauto.
    eexists. repeat apply binds_app; eauto. eapply binds_op; eauto.
Qed.

(** the parts of what is bound are bound *)
Lemma binds_inv_app : forall env f a c, binds env (AApp f a) c ->
  exists cf ca, c = KApp cf ca /\ binds env f cf /\ binds env a ca.
Proof.
  intros env f a c (n & B). destruct n as [|n]; [discriminate|]. cbn [bind] in B. un_ok.
  exists w, w0. splits; [auto|exists n; auto|exists n; auto].
Qed.

Lemma curry_resolves : forall t args, resolves (KCurry t args) (KCurry t args).
Proof. intros. exists 1%nat. reflexivity. Qed.
Lemma applies_more : forall t args a, S (length args) <> arity users t ->
  applies_to (KCurry t args) a (KCurry t (args ++ [a])).
Proof.
  intros t args a H. exists 1%nat. unfold apply_by. cbn [MetaHs.resolve bind_res].
  destruct (Nat.eqb_spec (S (length args)) (arity users t)); congruence.
Qed.
Lemma applies_last : forall t args a N c, S (length args) = arity users t ->
  (forall n, (N <= n)%nat -> run_tmpl users (resolve n) t (args ++ [a]) = Ok c) ->
  applies_to (KCurry t args) a c.
Proof.
  intros t args a N c H R. exists (S N). unfold apply_by.
  assert (E : resolve (S N) (KCurry t args) = Ok (KCurry t args)) by reflexivity. rewrite E. cbn [bind_res].
  rewrite H, Nat.eqb_refl. apply R. lia.
Qed.
Lemma applies_resolves : forall c c' a b, resolves c c' -> applies_to c' a b -> resolves c' c' -> applies_to c a b.
Proof.
  intros c c' a b R A R'. apply resolves_at in R as (N & R). apply resolves_at in R' as (N1 & R').
  apply applies_from in A as (N2 & A).
  exists (N + N1 + N2)%nat. specialize (A (N + N1 + N2)%nat ltac:(lia)). unfold apply_by in *.
  rewrite R' in A by lia. rewrite R by lia. exact A.
Qed.
Lemma vrep_resolves : forall c v, vrep c v -> resolves c c.
Proof. intros c v H. exists 1%nat. destruct H; reflexivity. Qed.

Lemma complete :
  (forall r e k v, evals_at r e k v -> forall env c, env_rep env r -> words_in e ->
     binds env (tree e) c -> behind k c v)
  /\ (forall th k v, forces_at th k v -> forall c, rep c th -> behind k c v)
  /\ (forall f th k v, applies_at f th k v -> forall c a, vrep c f -> rep a th ->
     exists b, applies_to c a b /\ behind k b v)
  /\ (forall ths zs, all_force_at ths zs -> forall cs, Forall2 rep cs ths ->
     exists N, forall n, (N <= n)%nat -> int_members (resolve n) cs = Ok zs).
Proof.
  apply wrapped_ind.
  - intros r ds env c He W B. cbn [tree] in B.
    rewrite (binds_unique _ _ _ _ B (ex_intro _ 1%nat eq_refl)). apply kval_behind, vrep_behind. constructor.
  - intros r x th k v N _ IH env c He W B.
    pose proof (lookup_word _ _ x He W) as L. rewrite N in L. destruct L as (a & L & R).
    rewrite (binds_unique _ _ _ _ B (binds_value _ _ _ L)). apply kval_behind. auto.
  - intros r x y ys e N G env c He W B.
    pose proof (lookup_word _ _ x He W) as L. rewrite N, G in L.
    destruct (names _ _ (named_in _ _ _ _ G)) as (_ & Wp & We).
    rewrite (binds_unique _ _ _ _ B (binds_top_function _ _ _ _ _ L)).
    apply vrep_behind. constructor; auto. constructor.
  - intros r x e k v N G _ IH env c He W B.
    pose proof (lookup_word _ _ x He W) as L. rewrite N, G in L.
    destruct (names _ _ (named_in _ _ _ _ G)) as (_ & Wp & We).
    apply (IH top); [constructor|exact We|].
    destruct B as (n & B). destruct n as [|n]; [discriminate|]. cbn [tree bind] in B.
    rewrite L in B. cbn [option_map gtree lambdas] in B. destruct n as [|n]; [discriminate|].
    exists n. exact B.
  - intros r x z N G env c He W B.
    pose proof (lookup_word _ _ x He W) as L. rewrite N, G in L.
    rewrite (binds_unique _ _ _ _ B (binds_value _ _ _ L)). apply kval_behind, vrep_behind. constructor.
  - intros r x k N G env c He W B.
    pose proof (lookup_word _ _ x He W) as L. rewrite N, G in L.
    rewrite (binds_unique _ _ _ _ B (binds_value _ _ _ L)). apply kval_behind, vrep_behind. constructor. constructor.
  - intros r f a kf fv k v _ IHf K Ap IHa env c He W B. cbn [words_in tree] in W, B. destruct W as [Wf Wa].
    apply binds_inv_app in B as (cf & ca & -> & Bf & Ba).
    pose proof (IHf env cf He Wf Bf) as Hf.
    assert (Ra : rep ca (TExp a r)) by (destruct Ba as (n & Ha); econstructor; eauto).
    apply behind_member in Hf as (rf & Rf & Hf). replace (pred kf) with 0%nat in Hf by lia.
    destruct Hf as (rv & Rv & Vv).
    destruct (IHa rv ca Vv Ra) as (b & Ab & Sb).
    apply (behind_same _ b); auto. intros rb Rb. eapply resolves_app; eauto.
    eapply applies_resolves; eauto. eapply vrep_resolves; eauto.
  - intros r c a b kc cv t k v _ IHc K T _ IHv env c0 He W B. cbn [words_in tree] in W, B.
    destruct W as (Wc & Wa & Wb).
    apply binds_inv_app in B as (f2 & cb & -> & B2 & Bb). apply binds_inv_app in B2 as (f1 & ca & -> & B1 & Ba).
    apply binds_inv_app in B1 as (f0 & cc & -> & B0 & Bc).
    rewrite (binds_unique _ _ _ _ B0 (binds_if env)).
    assert (Hv : behind k (if t then ca else cb) v) by (destruct t; eauto).
    apply (behind_same _ (if t then ca else cb)); auto. intros rt Rt.
    apply (resolves_app _ _ (KCurry TIf [cc; ca]) (if t then ca else cb)); auto.
    + apply (resolves_app _ _ (KCurry TIf [cc]) (KCurry TIf [cc; ca])); [|apply (applies_more TIf [cc]); discriminate|apply curry_resolves].
      apply (resolves_app _ _ (KVal (KCurry TIf [])) (KCurry TIf [cc])); [exists 1%nat; reflexivity|apply (applies_more TIf []); discriminate|apply curry_resolves].
    + destruct (bool_member_complete _ _ _ _ (IHc env cc He Wc Bc) K T) as (N & HN).
      apply (applies_last _ _ _ N); [reflexivity|].
      intros n L. cbn [run_tmpl app]. rewrite HN by lia. reflexivity.
  - intros r o a b ka kb x y v _ IHa Ka _ IHb Kb O env c0 He W B. cbn [words_in tree] in W, B.
    destruct W as (Wa & Wb).
    apply binds_inv_app in B as (f1 & cb & -> & B1 & Bb). apply binds_inv_app in B1 as (f0 & ca & -> & B0 & Ba).
    rewrite (binds_unique _ _ _ _ B0 (binds_op _ _ _ He)).
    destruct (hop_complete _ _ _ _ O) as (c & Hc & Vc).
    exists c. split; auto. apply (resolves_app _ _ (KCurry (TOp (op_hop o)) [ca]) c); [| |eapply vrep_resolves; eauto].
    + apply (resolves_app _ _ (KVal (KCurry (TOp (op_hop o)) [])) (KCurry (TOp (op_hop o)) [ca]));
        [exists 1%nat; reflexivity|apply (applies_more (TOp (op_hop o)) []); discriminate|apply curry_resolves].
    + destruct (int_member_complete _ _ _ (IHa env ca He Wa Ba) Ka) as (N1 & H1).
      destruct (int_member_complete _ _ _ (IHb env cb He Wb Bb) Kb) as (N2 & H2).
      apply (applies_last _ _ _ (N1 + N2)); [reflexivity|].
      intros n L. cbn [run_tmpl app]. rewrite H1, H2 by lia. cbn [bind_res]. rewrite Hc. reflexivity.
  - intros z c R. inversion R; subst. apply vrep_behind; constructor.
  - intros e r k v _ IH c R. inversion R as [|m env r' e' c' He W B]; subst.
    apply (IH env); auto. exists m; exact B.
  - intros x e r th k v U _ IH c a V R.
    inversion V as [| |x' xs' e' env r' He Wx We|]; subst. inversion Wx; subst.
    assert (He' : env_rep ((x, AValue a) :: env) ((x, th) :: r)) by (constructor; auto).
    destruct (bind_total _ _ U _ _ He' We eq_refl) as (cb & Hb).
    pose proof (IH _ _ He' We Hb) as Kb.
    apply behind_member in Kb as (rb & Rb & Sb). exists (member_type rb). split; auto.
    apply binds_at in Hb as (N1 & Hb). apply resolves_at in Rb as (N2 & Rb).
    exists (S (N1 + N2)). unfold apply_by.
    assert (E : resolve (S (N1 + N2)) (KLam (lambdas [] (tree e)) x top env) = Ok (KLam (lambdas [] (tree e)) x top env)) by reflexivity.
    rewrite E. cbn [bind_res lambdas].
    rewrite Hb by lia. cbn [bind_res]. rewrite Rb by lia. reflexivity.
  - intros x y ys e r th c a V R.
    inversion V as [| |x' xs' e' env r' He Wx We|]; subst. inversion Wx; subst.
    exists (KLam (lambdas ys (tree e)) y top ((x, AValue a) :: env)). split.
    { exists 2%nat. reflexivity. }
    apply vrep_behind. constructor; auto. constructor; auto.
  - intros k ths th N c a V R. inversion V as [| | |k' args ths' Rs]; subst.
    exists (KCurry (TUser k) (args ++ [a])). split.
    + apply applies_more. cbn [arity]. rewrite (f2_length _ _ _ _ _ Rs). auto.
    + apply vrep_behind. constructor. apply Forall2_app; auto.
  - intros k ths th zs z N _ IH Vz c a V R. inversion V as [| | |k' args ths' Rs]; subst.
    destruct (IH (args ++ [a])) as (M & HM); [apply Forall2_app; auto|].
    exists (KInt z). split; [|apply vrep_behind; constructor].
    apply (applies_last _ _ _ M); [cbn [arity]; rewrite (f2_length _ _ _ _ _ Rs); auto|].
    intros n L. cbn [run_tmpl]. rewrite HM by lia. cbn [bind_res]. rewrite Vz. reflexivity.
  - intros cs F. inversion F; subst. exists 0%nat. reflexivity.
  - intros th k z ths zs _ IH1 K _ IH2 cs F. inversion F as [|c1 th1 cs1 ths1 R1 R2]; subst.
    destruct (int_member_complete _ _ _ (IH1 _ R1) K) as (N1 & H1). destruct (IH2 _ R2) as (N2 & H2).
    exists (N1 + N2)%nat. intros n L. cbn [int_members].
    rewrite H1 by lia. cbn [bind_res]. rewrite H2 by lia. reflexivity.
Qed.

Theorem call_complete : forall x zs z, word x -> library_call users P x zs z ->
  exists N, forall n, (N <= n)%nat -> call users n top x zs = Ok z.
Proof.
  intros x zs z W (k & f & U & Hf & K & Ha).
  destruct (bind_total _ _ U top [] er_nil W eq_refl) as (c & Hc).
  pose proof (proj1 complete _ _ _ _ Hf top c er_nil W Hc) as Kc.
  apply behind_member in Kc as (r & Rr & Sf). replace (pred k) with 0%nat in Sf by lia.
  assert (Hg : exists N, forall n, (N <= n)%nat -> get users n top x = Ok (member_type r)).
  { apply resolves_at in Rr as (N2 & Rr). destruct Hc as (N1 & Hc). destruct N1 as [|N1]; [discriminate Hc|].
    exists (N1 + N2)%nat. intros n L. cbn [tree bind] in Hc. unfold get.
    destruct (lookup x top) as [a|]; [|discriminate Hc].
    rewrite (bind_more N1 n _ _ _ _ ltac:(lia) Hc). cbn [bind_res]. rewrite Rr by lia. reflexivity. }
  assert (Hap : forall v zs v', applies_all_at users P v zs v' -> forall c, behind 0 c v ->
    exists N b, behind 0 b v' /\ forall n, (N <= n)%nat -> apply_all users n c zs = Ok b).
  { clear - names. intros v zs v' H. induction H as [v|v z v1 zs v2 A _ IH]; intros c S.
    - exists 0%nat, c. split; auto.
    - destruct S as (rc & Rc & Vc).
      destruct (proj1 (proj2 (proj2 complete)) _ _ _ _ A rc (KInt z) Vc (rep_int z)) as (b & Ab & Sb).
      destruct (IH b Sb) as (N1 & b2 & S2 & H2).
      assert (A1 : applies_to c (KInt z) b) by (eapply applies_resolves; eauto using vrep_resolves).
      apply applies_from in A1 as (N2 & A1). exists (N1 + N2)%nat, b2. split; auto.
      intros n L. cbn [apply_all]. unfold apply_class. rewrite A1 by lia. cbn [bind_res]. apply H2. lia. }
  destruct Hg as (N1 & Hg). destruct (Hap _ _ _ Ha _ Sf) as (N2 & b & (rb & Rb & Vb) & Hb).
  apply resolves_at in Rb as (N3 & Rb). exists (N1 + N2 + N3)%nat. intros n L.
  unfold call, class_value. rewrite Hg by lia. cbn [bind_res]. rewrite Hb by lia. cbn [bind_res].
  rewrite Rb by lia. inversion Vb; subst. reflexivity.
Qed.

End Programs.
