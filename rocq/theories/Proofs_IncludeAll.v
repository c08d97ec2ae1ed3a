(** Lemmas about including headers: every compiler is of one of the kinds. *)

From Coq Require Import ZArith NArith List Bool Lia Permutation Arith.
From Verif Require Import Include HeaderFiles SpecInclude Proofs_Include Proofs_IncludeRun.
Import ListNotations.
Open Scope Z_scope.

(** ** The checks *)

Lemma event_eqb_eq : forall a b, event_eqb a b = true -> a = b.
Proof.
  intros a b. destruct a, b; cbn; intros H; try discriminate;
    try (apply Pos.eqb_eq in H; subst; reflexivity); try (apply Nat.eqb_eq in H; subst; reflexivity);
    apply andb_true_iff in H; destruct H as (H1 & H2); apply Pos.eqb_eq in H1; apply Pos.eqb_eq in H2; subst; reflexivity.
Qed.
Lemma events_eqb_eq : forall a b, events_eqb a b = true -> a = b.
Proof.
  induction a as [|x a IH]; intros [|y b] H; cbn in H; try discriminate; [reflexivity|].
  apply andb_true_iff in H. destruct H as (H1 & H2). apply event_eqb_eq in H1. apply IH in H2. subst. reflexivity.
Qed.
Lemma entry_eqb_eq : forall a b, entry_eqb a b = true -> a = b.
Proof.
  intros [x y z] [x' y' z'] H. unfold entry_eqb in H. cbn in H. apply andb_true_iff in H. destruct H as (H & H3).
  apply andb_true_iff in H. destruct H as (H1 & H2). apply N.eqb_eq in H1. apply events_eqb_eq in H2. apply Nat.eqb_eq in H3.
  subst. reflexivity.
Qed.

Lemma get_put : forall A p q (t : trie A) a, get (put t p a) q = if Pos.eqb p q then Some a else get t q.
Proof.
  induction p as [p IH|p IH|]; intros q t a; destruct t as [|l x r]; destruct q as [q|q|]; cbn; try reflexivity;
    try (rewrite IH; destruct (Pos.eqb p q); [reflexivity|destruct q; reflexivity]); try (rewrite IH; reflexivity);
    destruct q; reflexivity.
Qed.
Lemma distinct_ok : forall l t, distinct l t = true -> NoDup l /\ (forall n, In n l -> get t n = None).
Proof.
  induction l as [|n l IH]; intros t H; cbn in H; [split; [constructor|intros n []]|].
  destruct (get t n) eqn:E; [discriminate|]. apply IH in H. destruct H as (N & G). split.
  - constructor; [|exact N]. intros X. apply G in X. rewrite get_put, Pos.eqb_refl in X. discriminate.
  - intros m [<-|X]; [exact E|]. apply G in X. rewrite get_put in X. destruct (Pos.eqb n m); [discriminate|exact X].
Qed.

Record tables (k : kind) (forb : N) (prov : trie (list file)) (t : trie entry) : Prop := mktables {
  tb_forb : forb = bits (not_read k);
  tb_entries : checked (entries_ok k forb prov t);
  tb_definitions : checked (definitions_ok forb t);
  tb_macros : checked (macros_ok k);
  tb_offers : checked (offers_ok k forb prov t);
  tb_public : checked (public_ok prov t) }.

Lemma have_tables : forall k, In k kinds -> exists forb prov t, tables k forb prov t.
Proof.
  intros k ink.
  pose proof kinds_correct as H. rewrite forallb_forall in H. specialize (H k ink). unfold correct in H.
  apply andb_true_iff in H. destruct H as (H & H5). apply andb_true_iff in H. destruct H as (H & H4).
  apply andb_true_iff in H. destruct H as (H & H3). apply andb_true_iff in H. destruct H as (H1 & H2).
  exists (forbidden_bits k), all_providers, (build k (forbidden_bits k) all_providers).
  split; [reflexivity|constructor; exact H1|constructor; exact H2|constructor; exact H3|constructor; exact H4|constructor; exact H5].
Qed.

Lemma table_entries : forall k forb prov t f c, tables k forb prov t -> nth_error headers f = Some c -> has_bit forb f = false ->
  (e_depth (look t f) <= 13)%nat
  /\ (memf f special = true -> look t f = mkentry (N.setbit 0 (N.of_nat f)) [] 0)
  /\ (memf f special = false -> enter k forb (look_name prov) (look t) f c = Some (look t f)).
Proof.
  intros k forb prov t f c T E A. destruct (tb_entries _ _ _ _ T) as [H]. unfold entries_ok in H. rewrite forallb_forall in H.
  specialize (H _ (in_numbered _ _ E)). cbn [fst snd] in H. rewrite A in H. cbn [orb] in H.
  apply andb_true_iff in H. destruct H as (D & H). split; [apply Nat.leb_le; exact D|]. split; intros S; rewrite S in H.
  - apply entry_eqb_eq. exact H.
  - destruct (enter k forb (look_name prov) (look t) f c); [|discriminate]. apply entry_eqb_eq in H. subst. reflexivity.
Qed.

Lemma special_small : forall f, memf f special = true ->
  exists c, nth_error headers f = Some c /\ forall k, In k kinds -> memf f (not_read k) = false.
Proof.
  assert (G : forallb (fun f => match nth_error headers f with Some _ => true | None => false end
      && forallb (fun k => negb (memf f (not_read k))) kinds) special = true) by (vm_compute; reflexivity).
  intros f H. apply memf_in in H. rewrite forallb_forall in G. specialize (G f H). apply andb_true_iff in G. destruct G as (G1 & G2).
  destruct (nth_error headers f) as [c|]; [|discriminate]. exists c. split; [reflexivity|]. intros k I. rewrite forallb_forall in G2.
  apply negb_true_iff. apply G2. exact I.
Qed.

(** ** Nothing defined before *)

Lemma starts : forall ms m, untouched ms ->
  (memb m temps = true \/ (exists k x, assoc m (owned k) = Some x) \/ (exists f, index_of m guards 0 = Some f)
   \/ m = BOOST_METAPARSE_VARIADIC_STRING \/ m = BOOST_NO_CONSTEXPR_C_STR) -> ms m = None.
Proof.
  intros ms m (U & _) H. pose proof start_is_ok as S. unfold start_ok in S. rewrite forallb_forall in S.
  assert (I : In m (temps ++ map fst (owned (mkkind K98 None None None)) ++ [BOOST_METAPARSE_VARIADIC_STRING; BOOST_NO_CONSTEXPR_C_STR]
      ++ flat_map (fun o => match o with Some m => [m] | None => [] end) guards)).
  { rewrite !in_app_iff. destruct H as [H|[(k & x & H)|[(f & H)|H]]].
    - left. apply memb_in. exact H.
    - right. left. apply assoc_in in H. apply (in_map fst) in H. exact H.
    - right. right. right. apply index_nth in H. destruct H as (j & _ & N). apply nth_error_In in N.
      apply in_flat_map. exists (Some m). split; [exact N|left; reflexivity].
    - right. right. left. cbn. destruct H; auto. }
  apply S in I. apply andb_true_iff in I. destruct I as (I1 & I2). apply memb_in in I1. apply negb_true_iff in I2.
  unfold all_defined in I1. apply in_flat_map in I1. destruct I1 as (c & C1 & C2). apply (U c m C1 C2).
  intros X. apply memb_in in X. congruence.
Qed.

(** ** The special headers *)

Definition cxx11_cond : cond :=
  And (And (And (Not (Defined BOOST_NO_CXX11_VARIADIC_TEMPLATES)) (Not (Defined BOOST_NO_VARIADIC_TEMPLATES)))
      (Or (And (Not (Defined BOOST_NO_CONSTEXPR)) (Not (Defined BOOST_NO_CXX11_CONSTEXPR)))
          (And (Defined MSC_VER) (AtLeast MSC_VER 1900))))
    (Or (Not (Defined BOOST_GCC)) (AtLeast BOOST_GCC 40700)).
Lemma cxx11_cond_ok : forall ms, holds ms cxx11_cond = true <-> supports_cxx11 ms.
Proof.
  intros ms. unfold cxx11_cond, supports_cxx11. cbn [holds].
  assert (N : forall m, negb (is_defined ms m) = true <-> ms m = None).
  { intros m. unfold is_defined. destruct (ms m); split; intros; try discriminate; reflexivity. }
  rewrite !andb_true_iff, !orb_true_iff, !andb_true_iff, !N, !Z.leb_le. unfold is_defined, value_of.
  split.
  - intros (((A & B) & C) & D). split; [exact A|]. split; [exact B|]. split.
    + destruct C as [C|(C1 & C2)]; [left; exact C|]. right. destruct (ms MSC_VER) as [v|]; [|discriminate]. exists v. auto.
    + intros v E. rewrite E in D. destruct D; [discriminate|assumption].
  - intros (A & B & C & D). split; [split; [split; assumption|]|].
    + destruct C as [C|(v & C1 & C2)]; [left; exact C|]. right. rewrite C1. auto.
    + destruct (ms BOOST_GCC) as [v|]; [|left; reflexivity]. right. apply D. reflexivity.
Qed.

Lemma define_other : forall (ms : macros) m v x, x <> m -> define ms m v x = ms x.
Proof. intros. unfold define. destruct (Pos.eqb_spec x m); [contradiction|reflexivity]. Qed.
Lemma define_same : forall (ms : macros) m v, define ms m v m = Some v.
Proof. intros. unfold define. rewrite Pos.eqb_refl. reflexivity. Qed.

Ltac other := rewrite define_other by (let X := fresh in intros X; vm_compute in X; discriminate X).

Lemma config_run : forall ms, untouched ms ->
  exists r v, preprocess headers 0 c_config ms = Some (r, []) /\ r BOOST_METAPARSE_CONFIG_HPP = Some 0
    /\ r BOOST_METAPARSE_STD = Some v /\ standard ms v.
Proof.
  intros ms U.
  assert (G : ms BOOST_METAPARSE_CONFIG_HPP = None).
  { apply starts; auto. right. right. left. exists h_config. vm_compute. reflexivity. }
  assert (V : ms BOOST_METAPARSE_VARIADIC_STRING = None) by (apply starts; auto).
  assert (W : ms BOOST_NO_CONSTEXPR_C_STR = None) by (apply starts; auto 6).
  unfold c_config. rewrite preprocess_if. cbn [holds]. unfold is_defined at 1. rewrite G. cbn [negb].
  rewrite preprocess_do. cbn [one]. rewrite G. set (ms1 := define ms BOOST_METAPARSE_CONFIG_HPP 0).
  match goal with |- context [preprocess headers 0 (If ?c (Define BOOST_NO_CONSTEXPR_C_STR 0 ;; Done) Done ?rest) ms1] =>
    set (k2 := rest); set (c1 := c) end.
  assert (K : exists ms2, preprocess headers 0 (If c1 (Define BOOST_NO_CONSTEXPR_C_STR 0 ;; Done) Done k2) ms1 = preprocess headers 0 k2 ms2
     /\ (ms2 = ms1 \/ ms2 = define ms1 BOOST_NO_CONSTEXPR_C_STR 0)).
  { rewrite preprocess_if. destruct (holds ms1 c1).
    - exists (define ms1 BOOST_NO_CONSTEXPR_C_STR 0). split; [|right; reflexivity]. rewrite preprocess_do. cbn [one].
      unfold ms1 at 1. other. rewrite W. rewrite preprocess_done.
      destruct (preprocess headers 0 k2 (define ms1 BOOST_NO_CONSTEXPR_C_STR 0)) as [[? ?]|]; reflexivity.
    - exists ms1. split; [|left; reflexivity]. rewrite preprocess_done.
      destruct (preprocess headers 0 k2 ms1) as [[? ?]|]; reflexivity. }
  destruct K as (ms2 & -> & M2).
  assert (A : forall m, m <> BOOST_METAPARSE_CONFIG_HPP -> m <> BOOST_NO_CONSTEXPR_C_STR -> ms2 m = ms m).
  { intros m X Y. destruct M2 as [->| ->]; unfold ms1; rewrite ?define_other by assumption; reflexivity. }
  assert (A1 : ms2 BOOST_METAPARSE_CONFIG_HPP = Some 0).
  { destruct M2 as [->| ->]; unfold ms1; [|other]; apply define_same. }
  assert (A2 : ms2 BOOST_METAPARSE_STD = ms BOOST_METAPARSE_STD) by (apply A; intros X; vm_compute in X; discriminate X).
  assert (A3 : ms2 BOOST_METAPARSE_VARIADIC_STRING = None) by (rewrite A; [exact V| |]; intros X; vm_compute in X; discriminate X).
  assert (A4 : ms2 BOOST_NO_CXX14_CONSTEXPR = ms BOOST_NO_CXX14_CONSTEXPR) by (apply A; intros X; vm_compute in X; discriminate X).
  assert (A5 : holds ms2 cxx11_cond = holds ms cxx11_cond).
  { apply holds_agree. intros m I. apply A; intros ->; revert I; vm_compute; intuition discriminate. }
  clear A M2. unfold k2. rewrite preprocess_if. cbn [holds]. fold cxx11_cond.
  match goal with |- context [preprocess headers 0 (if _ then ?c else Done) ms2] => set (k3 := c) end.
  assert (K : exists ms3 v, preprocess headers 0 (if negb (is_defined ms2 BOOST_METAPARSE_STD) then k3 else Done) ms2 = Some (ms3, [])
     /\ ms3 BOOST_METAPARSE_STD = Some v /\ standard ms v /\ ms3 BOOST_METAPARSE_CONFIG_HPP = Some 0 /\ ms3 BOOST_METAPARSE_VARIADIC_STRING = None).
  { unfold is_defined. rewrite A2. unfold standard. destruct (ms BOOST_METAPARSE_STD) as [v|] eqn:ES; cbn [negb].
    - exists ms2, v. rewrite preprocess_done. auto.
    - unfold k3. rewrite preprocess_if. fold cxx11_cond. rewrite A5.
      assert (D : forall s, exists ms3, one 0 (Define BOOST_METAPARSE_STD s) ms2 = Some (ms3, []) /\ ms3 BOOST_METAPARSE_STD = Some s
         /\ ms3 BOOST_METAPARSE_CONFIG_HPP = Some 0 /\ ms3 BOOST_METAPARSE_VARIADIC_STRING = None).
      { intros s. exists (define ms2 BOOST_METAPARSE_STD s). cbn [one]. rewrite A2. split; [reflexivity|].
        split; [apply define_same|]. split; other; assumption. }
      destruct (holds ms cxx11_cond) eqn:EC.
      + rewrite preprocess_if. cbn [holds]. unfold is_defined. rewrite A4.
        destruct (ms BOOST_NO_CXX14_CONSTEXPR) as [w|] eqn:E14; cbn [negb]; rewrite preprocess_do.
        * destruct (D 2011) as (ms3 & -> & D1 & D2 & D3). rewrite !preprocess_done. exists ms3, 2011.
          split; [reflexivity|]. split; [exact D1|]. split; [|auto]. right. left. split; [apply cxx11_cond_ok; exact EC|]. split; [discriminate|reflexivity].
        * destruct (D 2014) as (ms3 & -> & D1 & D2 & D3). rewrite !preprocess_done. exists ms3, 2014.
          split; [reflexivity|]. split; [exact D1|]. split; [|auto]. left. split; [apply cxx11_cond_ok; exact EC|]. split; reflexivity.
      + rewrite preprocess_do. destruct (D 1998) as (ms3 & -> & D1 & D2 & D3). rewrite !preprocess_done. exists ms3, 1998.
        split; [reflexivity|]. split; [exact D1|]. split; [|auto]. right. right. split; [|reflexivity].
        rewrite <- cxx11_cond_ok. congruence. }
  destruct K as (ms3 & v & -> & S1 & S2 & S3 & S4).
  rewrite preprocess_if. destruct (holds ms3 (AtLeast BOOST_METAPARSE_STD 2011)).
  - rewrite preprocess_do. cbn [one]. rewrite S4, !preprocess_done.
    exists (define ms3 BOOST_METAPARSE_VARIADIC_STRING 0), v. split; [reflexivity|]. split; [other; exact S3|]. split; [other; exact S1|exact S2].
  - rewrite !preprocess_done. exists ms3, v. auto.
Qed.

Lemma limit_run : forall ms g m z, ms g = None -> m <> g ->
  exists r, preprocess headers 0 (If (Not (Defined g)) (Define g 0 ;; If (Not (Defined m)) (Define m z ;; Done) Done Done) Done Done) ms = Some (r, [])
    /\ r g = Some 0 /\ r m = match ms m with Some v => Some v | None => Some z end.
Proof.
  intros ms g m z G N. rewrite preprocess_if. cbn [holds]. unfold is_defined. rewrite G. cbn [negb].
  rewrite preprocess_do. cbn [one]. rewrite G. rewrite preprocess_if. cbn [holds]. unfold is_defined. rewrite define_other by exact N.
  destruct (ms m) as [v|] eqn:E; cbn [negb].
  - rewrite !preprocess_done. exists (define ms g 0). split; [reflexivity|]. split; [apply define_same|].
    rewrite define_other by exact N. exact E.
  - rewrite preprocess_do. cbn [one]. rewrite define_other, E by exact N. rewrite !preprocess_done.
    exists (define (define ms g 0) m z). split; [reflexivity|]. split; [|apply define_same].
    rewrite define_other by congruence. apply define_same.
Qed.

Lemma guard_none : forall ms f c m, untouched ms -> nth_error headers f = Some c -> guard_of c = Some m -> ms m = None.
Proof.
  intros ms f c m U E G. apply starts; [exact U|]. right. right. left.
  assert (X : In (Some m) guards). { unfold guards. rewrite <- G. apply in_map. eapply nth_error_In; eauto. }
  revert X. generalize 0%nat. generalize guards as l. induction l as [|[x|] l IH]; intros i X; [destruct X| |]; cbn.
  - destruct (Pos.eqb_spec m x) as [->|]; [eauto|]. destruct X as [X|X]; [congruence|]. apply IH. exact X.
  - destruct X as [X|X]; [discriminate|]. apply IH. exact X.
Qed.

(** the settings afterwards *)
Definition specials_settled (ms : macros) : Prop :=
  (forall f c, memf f special = true -> nth_error headers f = Some c ->
     exists r m, preprocess headers 0 c ms = Some (r, []) /\ guard_of c = Some m /\ r m = Some 0)
  /\ (exists v, settled ms h_config BOOST_METAPARSE_STD = Some v /\ standard ms v)
  /\ (exists v, settled ms h_limit_string_size BOOST_METAPARSE_LIMIT_STRING_SIZE = Some v /\ v <= 2048)
  /\ (forall m g, assoc m specials = Some g -> memb m settings = true -> settled ms g m <> None)
  /\ (forall m g v, assoc m specials = Some g -> ms m = Some v -> settled ms g m = Some v).
Lemma specials_are_settled : forall ms, untouched ms -> specials_settled ms.
Proof.
  intros ms U.
  assert (E0 : nth_error headers h_config = Some c_config) by reflexivity.
  assert (E1 : nth_error headers h_limit_string_size = Some c_limit_string_size) by reflexivity.
  assert (E2 : nth_error headers h_limit_sequence_size = Some c_limit_sequence_size) by reflexivity.
  assert (E3 : nth_error headers h_limit_one_of_size = Some c_limit_one_of_size) by reflexivity.
  assert (E4 : nth_error headers h_limit_one_char_except_size = Some c_limit_one_char_except_size) by reflexivity.
  destruct (config_run ms U) as (r0 & v & R0 & G0 & S0 & ST).
  destruct (limit_run ms BOOST_METAPARSE_LIMIT_STRING_SIZE_HPP BOOST_METAPARSE_LIMIT_STRING_SIZE 32) as (r1 & R1 & G1 & S1);
    [exact (guard_none ms _ _ _ U E1 eq_refl)|intros X; vm_compute in X; discriminate X|].
  destruct (limit_run ms BOOST_METAPARSE_LIMIT_SEQUENCE_SIZE_HPP BOOST_METAPARSE_LIMIT_SEQUENCE_SIZE 5) as (r2 & R2 & G2 & S2);
    [exact (guard_none ms _ _ _ U E2 eq_refl)|intros X; vm_compute in X; discriminate X|].
  destruct (limit_run ms BOOST_METAPARSE_LIMIT_ONE_OF_SIZE_HPP BOOST_METAPARSE_LIMIT_ONE_OF_SIZE 20) as (r3 & R3 & G3 & S3);
    [exact (guard_none ms _ _ _ U E3 eq_refl)|intros X; vm_compute in X; discriminate X|].
  destruct (limit_run ms BOOST_METAPARSE_LIMIT_ONE_CHAR_EXCEPT_SIZE_HPP BOOST_METAPARSE_LIMIT_ONE_CHAR_EXCEPT_SIZE 10) as (r4 & R4 & G4 & S4);
    [exact (guard_none ms _ _ _ U E4 eq_refl)|intros X; vm_compute in X; discriminate X|].
  assert (T0 : settled ms h_config BOOST_METAPARSE_STD = Some v) by (unfold settled; rewrite E0, R0; exact S0).
  assert (T1 : settled ms h_limit_string_size BOOST_METAPARSE_LIMIT_STRING_SIZE =
    match ms BOOST_METAPARSE_LIMIT_STRING_SIZE with Some v => Some v | None => Some 32 end).
  { unfold settled. rewrite E1. unfold c_limit_string_size. rewrite R1. exact S1. }
  assert (T2 : settled ms h_limit_sequence_size BOOST_METAPARSE_LIMIT_SEQUENCE_SIZE =
    match ms BOOST_METAPARSE_LIMIT_SEQUENCE_SIZE with Some v => Some v | None => Some 5 end).
  { unfold settled. rewrite E2. unfold c_limit_sequence_size. rewrite R2. exact S2. }
  assert (T3 : settled ms h_limit_one_of_size BOOST_METAPARSE_LIMIT_ONE_OF_SIZE =
    match ms BOOST_METAPARSE_LIMIT_ONE_OF_SIZE with Some v => Some v | None => Some 20 end).
  { unfold settled. rewrite E3. unfold c_limit_one_of_size. rewrite R3. exact S3. }
  assert (T4 : settled ms h_limit_one_char_except_size BOOST_METAPARSE_LIMIT_ONE_CHAR_EXCEPT_SIZE =
    match ms BOOST_METAPARSE_LIMIT_ONE_CHAR_EXCEPT_SIZE with Some v => Some v | None => Some 10 end).
  { unfold settled. rewrite E4. unfold c_limit_one_char_except_size. rewrite R4. exact S4. }
  split; [|split; [|split; [|split]]].
  - intros f c SP E. apply memf_in in SP. unfold special in SP.
    destruct SP as [<-|[<-|[<-|[<-|[<-|[]]]]]].
    + rewrite E0 in E. injection E as <-. exists r0, BOOST_METAPARSE_CONFIG_HPP. split; [exact R0|]. split; [reflexivity|exact G0].
    + rewrite E1 in E. injection E as <-. exists r1, BOOST_METAPARSE_LIMIT_STRING_SIZE_HPP. split; [exact R1|]. split; [reflexivity|exact G1].
    + rewrite E2 in E. injection E as <-. exists r2, BOOST_METAPARSE_LIMIT_SEQUENCE_SIZE_HPP. split; [exact R2|]. split; [reflexivity|exact G2].
    + rewrite E3 in E. injection E as <-. exists r3, BOOST_METAPARSE_LIMIT_ONE_OF_SIZE_HPP. split; [exact R3|]. split; [reflexivity|exact G3].
    + rewrite E4 in E. injection E as <-. exists r4, BOOST_METAPARSE_LIMIT_ONE_CHAR_EXCEPT_SIZE_HPP. split; [exact R4|]. split; [reflexivity|exact G4].
  - exists v. auto.
  - rewrite T1. destruct U as (_ & L). unfold value_of in L.
    destruct (ms BOOST_METAPARSE_LIMIT_STRING_SIZE) as [w|]; [exists w; auto|exists 32; split; [reflexivity|lia]].
  - intros m g A S. apply assoc_in in A. unfold specials in A.
    destruct A as [A|[A|[A|[A|[A|[A|[A|[]]]]]]]]; injection A as <- <-; try (exfalso; revert S; vm_compute; discriminate).
    + rewrite T0. discriminate.
    + rewrite T1. destruct (ms BOOST_METAPARSE_LIMIT_STRING_SIZE); discriminate.
    + rewrite T2. destruct (ms BOOST_METAPARSE_LIMIT_SEQUENCE_SIZE); discriminate.
    + rewrite T3. destruct (ms BOOST_METAPARSE_LIMIT_ONE_OF_SIZE); discriminate.
    + rewrite T4. destruct (ms BOOST_METAPARSE_LIMIT_ONE_CHAR_EXCEPT_SIZE); discriminate.
  - intros m g w A S. apply assoc_in in A. unfold specials in A.
    destruct A as [A|[A|[A|[A|[A|[A|[A|[]]]]]]]]; injection A as <- <-.
    + rewrite T0. unfold standard in ST. rewrite S in ST. subst. reflexivity.
    + rewrite starts in S by auto. discriminate.
    + rewrite starts in S by auto 6. discriminate.
    + rewrite T1, S. reflexivity.
    + rewrite T2, S. reflexivity.
    + rewrite T3, S. reflexivity.
    + rewrite T4, S. reflexivity.
Qed.

(** ** The kind of a compiler *)

Definition kind_of (ms : macros) (v : Z) : kind :=
  if v <? 2011 then mkkind K98 None None None
  else let clang := negb (value_of ms clang__ =? 0) in
    mkkind (if v <? 2014 then K11 else K14) (Some clang)
      (if clang then Some (negb (value_of ms HAS_STRING_LITERAL_TEMPLATES =? 0)) else None)
      (Some (is_defined ms SUNPRO_CC)).
Lemma kind_in : forall ms v, In (kind_of ms v) kinds.
Proof.
  intros ms v. unfold kind_of. destruct (v <? 2011); [left; reflexivity|].
  destruct (v <? 2014), (negb (value_of ms clang__ =? 0)), (negb (value_of ms HAS_STRING_LITERAL_TEMPLATES =? 0)), (is_defined ms SUNPRO_CC);
    cbn; tauto.
Qed.

(** What holds for all inclusions in a translation unit. *)
Record unit_ok (ms : macros) (k : kind) (v : Z) (forb : N) (prov : trie (list file)) (t : trie entry) : Prop := mkunit {
  u_tables : tables k forb prov t;
  u_standard : standard ms v;
  u_11 : (2011 <=? v) = k11 k;
  u_14 : (2014 <=? v) = k14 k;
  u_literal : k_literal k = true -> literal_templates ms;
  u_std : settled ms h_config BOOST_METAPARSE_STD = Some v;
  u_settings : forall m g, assoc m specials = Some g -> memb m settings = true -> settled ms g m <> None;
  u_kept : forall m g w, assoc m specials = Some g -> ms m = Some w -> settled ms g m = Some w;
  u_kind : In k kinds;
  u_start : forall m, ms m = expected k ms [] [] [] m;
  u_run : forall hs K d ms1 P, Forall (includable forb) hs -> (14 <= d)%nat ->
    closed forb (look t) P -> inP K P -> (forall m, ms1 m = expected k ms P [] [] m) ->
    exists K', (forall h, has_bit K' h = has_bit K h || existsb (fun g => has_bit (e_all (look t g)) h) hs)
      /\ ran k ms forb (look t) (preprocess headers d (includes hs) ms1) P [] [] K' [] [] (length headers) }.

Lemma have_unit : forall ms, untouched ms -> exists k v forb prov t, unit_ok ms k v forb prov t.
Proof.
  intros ms U. destruct (specials_are_settled ms U) as (SR & (v & SV & ST) & SL & SS & SK).
  set (k := kind_of ms v). destruct (have_tables k (kind_in ms v)) as (forb & prov & t & T).
  exists k, v, forb, prov, t.
  assert (K11 : (2011 <=? v) = k11 k).
  { unfold k, kind_of. destruct (Z.ltb_spec v 2011).
    - cbn. apply Z.leb_gt. lia.
    - unfold k11. cbn [k_std]. destruct (v <? 2014); apply Z.leb_le; lia. }
  assert (K14 : (2014 <=? v) = k14 k).
  { unfold k, kind_of. destruct (Z.ltb_spec v 2011).
    - cbn. apply Z.leb_gt. lia.
    - unfold k14. cbn [k_std]. destruct (Z.ltb_spec v 2014); [apply Z.leb_gt|apply Z.leb_le]; lia. }
  assert (CL : forall b, k_clang k = Some b -> negb (value_of ms clang__ =? 0) = b).
  { intros b. unfold k, kind_of. destruct (v <? 2011); cbn [k_clang]; intros X; [discriminate|]. injection X as X. exact X. }
  assert (EX : forall b, k_ext k = Some b -> negb (value_of ms HAS_STRING_LITERAL_TEMPLATES =? 0) = b).
  { intros b. unfold k, kind_of. destruct (v <? 2011); cbn [k_ext]; intros X; [discriminate|].
    destruct (negb (value_of ms clang__ =? 0)); [|discriminate]. injection X as X. exact X. }
  assert (SU : forall b, k_sun k = Some b -> is_defined ms SUNPRO_CC = b).
  { intros b. unfold k, kind_of. destruct (v <? 2011); cbn [k_sun]; intros X; [discriminate|]. injection X as X. exact X. }
  assert (ENT : forall f, has_bit forb f = false -> forall c, nth_error headers f = Some c ->
     (e_depth (look t f) <= 13)%nat
     /\ (memf f special = true -> look t f = mkentry (N.setbit 0 (N.of_nat f)) [] 0)
     /\ (memf f special = false -> enter k forb (look_name prov) (look t) f c = Some (look t f))).
  { intros f A c E. eapply table_entries; eauto. }
  pose proof (kind_in ms v : In k kinds) as IK.
  split; auto.
  - intros L. unfold k_literal in L. split.
    + destruct (k_clang k) as [[|]|] eqn:E; try discriminate. specialize (CL true eq_refl). apply negb_true_iff in CL. apply Z.eqb_neq in CL. exact CL.
    + destruct (k_clang k) as [[|]|]; try discriminate. destruct (k_ext k) as [[|]|] eqn:E; try discriminate.
      specialize (EX true eq_refl). apply negb_true_iff in EX. apply Z.eqb_neq in EX. exact EX.
  - intros m. unfold expected. cbn [assoc].
    destruct (memb m temps) eqn:ET; [apply starts; auto|].
    destruct (assoc m (owned k)) as [[[g w]|]|] eqn:EO.
    + cbn [memf existsb]. apply starts; [auto|]. right. left. exists k, (Some (g, w)). exact EO.
    + apply starts; [auto|]. right. left. exists k, None. exact EO.
    + destruct (assoc m specials); [reflexivity|]. destruct (index_of m guards 0) eqn:EI; [|reflexivity].
      cbn [memf existsb orb]. apply starts; [auto|]. right. right. left. eauto.
  - intros hs K d ms1 P F D C I M.
    apply (list_ok k ms forb (look_name prov) (look t)); auto.
    + intros f c E A S. apply (ENT f A c E). exact S.
    + intros f S. destruct (special_small f S) as (c & E & R). refine (proj1 (proj2 (ENT f _ c E)) S).
      rewrite (tb_forb _ _ _ _ T), has_bits. apply R. exact IK.
    + exact (tb_macros _ _ _ _ T).
    + exists v. auto.
    + intros m f X. apply starts; [auto|]. right. right. left. eauto.
    + intros f X. rewrite Forall_forall in F. destruct (F f X) as (L & A & _). destruct (nth_some f L) as (c & E).
      apply (ENT f A c E).
Qed.

Lemma not_general : forall k f, In k kinds -> memf f (not_read k) = true -> ~ general f.
Proof.
  intros k f I M (_ & G1 & G2 & G3 & G4). apply memf_in in M. unfold not_read in M. destruct M as [M|M]; [congruence|].
  apply in_app_iff in M. destruct M as [M|M].
  - destruct (k_literal k); [|destruct M]. destruct M as [<-|[]]. apply G2. apply memf_in. vm_compute. reflexivity.
  - destruct (k_std k).
    + apply in_app_iff in M. tauto.
    + apply in_app_iff in M. tauto.
    + apply in_app_iff in M. destruct M as [M|M]; [|tauto].
      destruct M as [<-|[<-|[<-|[]]]]; apply G2; apply memf_in; vm_compute; reflexivity.
Qed.
Lemma general_includable : forall k forb prov t f, tables k forb prov t -> In k kinds -> general f -> includable forb f.
Proof.
  intros k forb prov t f T I G. split; [apply G|]. split.
  - unfold allowed. rewrite (tb_forb _ _ _ _ T), has_bits. destruct (memf f (not_read k)) eqn:E; [|reflexivity].
    exfalso. eapply not_general; eauto.
  - unfold requires. destruct (Nat.eqb_spec f h_v1_cpp11_impl_string) as [->|]; [|reflexivity].
    exfalso. destruct G as (_ & _ & G & _). apply G. apply memf_in. vm_compute. reflexivity.
Qed.

(** ** What follows *)

Lemma definitions_app : forall a b, definitions (a ++ b) = definitions a ++ definitions b.
Proof. intros. unfold definitions. apply flat_map_app. Qed.
Lemma definitions_contents : forall l, definitions (contents l) = definitions l.
Proof. induction l as [|x l IH]; [reflexivity|]. unfold definitions, contents in *. destruct x; cbn; rewrite ?IH; reflexivity. Qed.
Lemma definitions_perm : forall a b, Permutation a b -> Permutation (definitions a) (definitions b).
Proof. intros a b P. unfold definitions. apply Permutation_flat_map. exact P. Qed.
Lemma definitions_owns : forall t P, definitions (owns t P) = flat_map (fun g => definitions (e_own (t g))) P.
Proof. intros t. induction P as [|g P IH]; [reflexivity|]. cbn [owns flat_map]. rewrite definitions_app. f_equal. exact IH. Qed.

Lemma NoDup_sub : forall (A B : Type) (F : A -> list B) (l P : list A), NoDup (flat_map F l) -> NoDup P -> incl P l -> NoDup (flat_map F P).
Proof.
  intros A B F l P. revert l. induction P as [|g P IH]; intros l D N I; [constructor|]. cbn [flat_map].
  inversion N as [|? ? N1 N2]; subst.
  destruct (in_split g l (I g (or_introl eq_refl))) as (l1 & l2 & ->).
  rewrite flat_map_app in D. cbn [flat_map] in D.
  assert (D' : NoDup (F g ++ flat_map F (l1 ++ l2))).
  { rewrite flat_map_app. eapply Permutation_NoDup; [|exact D]. apply Permutation_app_swap_app. }
  assert (I' : incl P (l1 ++ l2)).
  { intros x X. pose proof (I x (or_intror X)) as Y. apply in_app_iff in Y. apply in_app_iff.
    destruct Y as [Y|[Y|Y]]; auto. subst. contradiction. }
  clear D. assert (DG : NoDup (F g)) by (revert D'; generalize (F g) as a; induction a as [|z a IHa]; intros D'; [constructor|];
    inversion D'; subst; constructor; [intros X; apply H1; apply in_app_iff; auto|auto]).
  assert (DR : NoDup (flat_map F (l1 ++ l2))) by (revert D'; generalize (F g) as a; induction a as [|z a IHa]; intros D'; [exact D'|];
    inversion D'; subst; auto).
  assert (DD : forall x, In x (F g) -> In x (flat_map F (l1 ++ l2)) -> False).
  { revert D'. generalize (F g) as a. induction a as [|z a IHa]; intros D' x X0 Y; [destruct X0|]. destruct X0 as [<-|X]; inversion D'; subst.
    - apply H1. apply in_app_iff. auto.
    - eapply IHa; eauto. }
  specialize (IH _ DR N2 I').
  assert (SUB : incl (flat_map F P) (flat_map F (l1 ++ l2))).
  { intros x X. apply in_flat_map in X. destruct X as (y & Y1 & Y2). apply in_flat_map. exists y. auto. }
  clear - DG IH DD SUB. induction (F g) as [|z a IHa]; [exact IH|]. cbn. inversion DG; subst. constructor.
  - intros X. apply in_app_iff in X. destruct X as [X|X]; [contradiction|]. apply (DD z (or_introl eq_refl)). apply SUB. exact X.
  - apply IHa; [assumption|]. intros x X. apply DD. right. exact X.
Qed.

Lemma numbered_in : forall f c, In (f, c) numbered -> nth_error headers f = Some c.
Proof.
  unfold numbered. intros f c.
  assert (G : forall (l : list code) i f, In (f, c) (combine (seq i (length l)) l) -> exists j, f = (i + j)%nat /\ nth_error l j = Some c).
  { induction l as [|x l IH]; intros i f0 H; [destruct H|]. cbn in H. destruct H as [H|H].
    - injection H as <- <-. exists 0%nat. split; [lia|reflexivity].
    - apply IH in H. destruct H as (j & -> & E). exists (S j). split; [lia|exact E]. }
  intros H. apply G in H. destruct H as (j & -> & E). exact E.
Qed.

Lemma definitions_unique : forall k forb prov t P, tables k forb prov t -> NoDup P ->
  (forall g, In g P -> has_bit forb g = false /\ (g < length headers)%nat) ->
  NoDup (definitions (owns (look t) P)).
Proof.
  intros k forb prov t P T N A. destruct (tb_definitions _ _ _ _ T) as [H]. unfold definitions_ok in H. apply distinct_ok in H.
  destruct H as (H & _). rewrite definitions_owns.
  assert (E : forall l : list (file * code), flat_map (fun p => if has_bit forb (fst p) then [] else definitions (e_own (look t (fst p)))) l
    = flat_map (fun f => if has_bit forb f then [] else definitions (e_own (look t f))) (map fst l)).
  { induction l as [|p l IH]; [reflexivity|]. cbn [flat_map map]. rewrite IH. reflexivity. }
  rewrite E in H.
  replace (flat_map (fun g => definitions (e_own (look t g))) P)
    with (flat_map (fun f => if has_bit forb f then [] else definitions (e_own (look t f))) P).
  - eapply NoDup_sub; eauto. intros g X. destruct (A g X) as (_ & L). destruct (nth_some g L) as (c & EC).
    apply (in_map fst) with (x := (g, c)). apply in_numbered. exact EC.
  - clear - A. induction P as [|g P IH]; [reflexivity|]. cbn [flat_map]. rewrite (proj1 (A g (or_introl eq_refl))). f_equal.
    apply IH. intros h X. apply A. right. exact X.
Qed.

Lemma expected_ext : forall k ms P P' Q L m, (forall f, In f P <-> In f P') -> expected k ms P Q L m = expected k ms P' Q L m.
Proof.
  intros k ms P P' Q L m H.
  assert (M : forall f, memf f P = memf f P').
  { intros f. destruct (memf f P) eqn:E.
    - apply memf_in in E. apply H in E. apply memf_in in E. auto.
    - destruct (memf f P') eqn:E'; [|reflexivity]. apply memf_in in E'. apply H in E'. apply memf_in in E'. congruence. }
  unfold expected. destruct (assoc m L); [reflexivity|]. destruct (memb m temps); [reflexivity|].
  destruct (assoc m (owned k)) as [[[g v]|]|]; [rewrite M; reflexivity|reflexivity|].
  destruct (assoc m specials); [rewrite M; reflexivity|]. destruct (index_of m guards 0); [rewrite M; reflexivity|reflexivity].
Qed.

Lemma includes_app : forall a b d ms, preprocess headers d (includes (a ++ b)) ms =
  match preprocess headers d (includes a) ms with
  | Some (ms1, o1) => match preprocess headers d (includes b) ms1 with Some (ms2, o2) => Some (ms2, o1 ++ o2) | None => None end
  | None => None
  end.
Proof.
  intros a b d ms. rewrite <- preprocess_prepend. f_equal. unfold includes, prepend. apply fold_right_app.
Qed.

(** The files that are read *)
Definition closure (t : trie entry) (hs : list file) (f : file) : Prop :=
  exists g, In g hs /\ has_bit (e_all (look t g)) f = true.
Lemma whole_run : forall ms k v forb prov t hs d, unit_ok ms k v forb prov t -> Forall general hs -> (14 <= d)%nat ->
  exists ms' out new, preprocess headers d (includes hs) ms = Some (ms', out)
    /\ (forall m, ms' m = expected k ms new [] [] m)
    /\ NoDup new /\ (forall f, In f new <-> closure t hs f)
    /\ closed forb (look t) new
    /\ uses_declared out
    /\ Permutation (contents out) (owns (look t) new)
    /\ (forall f, In (Reads f) out -> has_bit forb f = false).
Proof.
  intros ms k v forb prov t hs d U G D. pose proof (u_tables _ _ _ _ _ _ U) as T.
  assert (F : Forall (includable forb) hs).
  { eapply Forall_impl; [|exact G]. intros f X. eapply general_includable; eauto. apply (u_kind _ _ _ _ _ _ U). }
  destruct (u_run _ _ _ _ _ _ U hs 0%N d ms [] F D) as (K & KK & ms' & out & new & R & M & N & A & C & I & S & E & RD).
  - intros g [].
  - intros h X. rewrite has_bit_0 in X. discriminate.
  - apply (u_start _ _ _ _ _ _ U).
  - rewrite app_nil_r in *. exists ms', out, new. split; [exact R|]. split; [exact M|]. split; [exact N|].
    assert (CL : forall f, has_bit K f = true <-> closure t hs f).
    { intros f. rewrite KK, has_bit_0. cbn [orb]. rewrite existsb_exists. reflexivity. }
    split.
    { intros f. rewrite <- CL. split; [intros X; apply A; exact X|apply I]. }
    split; [exact C|]. split.
    { intros l1 n l2 X. apply (S [] (fun g Y => match Y with end) (fun x Y => Y) l1 n l2 X). }
    split; [exact E|]. intros f X. apply RD. exact X.
Qed.

Lemma owned_keys : forall k m x, assoc m (owned k) = Some x -> memb m temps = false /\ In m exported.
Proof.
  intros k m x H. apply assoc_in in H. apply (in_map fst) in H. cbn [fst] in H.
  assert (E : map fst (owned k) = map fst (owned (mkkind K98 None None None))) by reflexivity. rewrite E in H.
  assert (G : forallb (fun m => negb (memb m temps) && memb m exported) (map fst (owned (mkkind K98 None None None))) = true)
    by (vm_compute; reflexivity).
  rewrite forallb_forall in G. apply G in H. apply andb_true_iff in H. destruct H as (H1 & H2).
  split; [apply negb_true_iff; exact H1|apply memb_in; exact H2].
Qed.
Lemma special_keys : forall m g, assoc m specials = Some g -> memb m temps = false /\ (In m settings \/ In m exported)
  /\ forall k, assoc m (owned k) = None.
Proof.
  intros m g H. apply assoc_in in H. unfold specials in H.
  destruct H as [H|[H|[H|[H|[H|[H|[H|[]]]]]]]]; injection H as <- <-;
    (split; [vm_compute; reflexivity|]; split;
      [try (left; apply memb_in; vm_compute; reflexivity); right; apply memb_in; vm_compute; reflexivity|intros k; reflexivity]).
Qed.
Lemma owned_defined : forall k ms P Q m g v, assoc m (owned k) = Some (Some (g, v)) -> In g P -> expected k ms P Q [] m = Some v.
Proof.
  intros k ms P Q m g v H I. destruct (owned_keys _ _ _ H) as (T & _). unfold expected. cbn [assoc]. rewrite T, H.
  apply memf_in in I. rewrite I. reflexivity.
Qed.
Lemma special_defined : forall k ms P Q m g, assoc m specials = Some g -> In g P -> expected k ms P Q [] m = settled ms g m.
Proof.
  intros k ms P Q m g H I. destruct (special_keys _ _ H) as (T & _ & O). unfold expected. cbn [assoc]. rewrite T, O, H.
  apply memf_in in I. rewrite I. reflexivity.
Qed.

Lemma owned_in : forall t g P e, In g P -> In e (e_own (t g)) -> In e (owns t P).
Proof. intros. unfold owns. apply in_flat_map. eauto. Qed.
Lemma in_out : forall out l e, Permutation (contents out) l -> In e l -> In e out.
Proof. intros out l e P I. apply contents_incl. apply (Permutation_in e (Permutation_sym P)). exact I. Qed.
Lemma declared_out : forall out t P g n, Permutation (contents out) (owns t P) -> In g P -> declaredb n (e_own (t g)) = true -> declared n out.
Proof.
  intros out t P g n E I D. apply declaredb_ok in D. destruct D as [D|D]; [left|right]; eapply in_out; eauto; eapply owned_in; eauto.
Qed.
Lemma said_by : forall out t P e, Permutation (contents out) (owns t P) -> In e out -> (forall f, e <> Reads f) ->
  exists g, In g P /\ In e (e_own (t g)).
Proof.
  intros out t P e E I N. assert (X : In e (contents out)).
  { unfold contents. apply filter_In. split; [exact I|]. destruct e; try reflexivity. exfalso. eapply N. reflexivity. }
  apply (Permutation_in e E) in X. apply in_flat_map in X. exact X.
Qed.

Lemma offered : forall ms k v forb prov t out P, unit_ok ms k v forb prov t -> closed forb (look t) P ->
  Permutation (contents out) (owns (look t) P) ->
  (forall m n, In (Offers m n) out -> ~ (literal_templates ms /\ m = BOOST_METAPARSE_V1_STRING) -> declared n out)
  /\ (forall m m', In (OffersMacro m m') out -> 2011 <= v \/ m = BOOST_METAPARSE_DEFINE_ERROR -> expected k ms P [] [] m' <> None).
Proof.
  intros ms k v forb prov t out P U C E. pose proof (u_tables _ _ _ _ _ _ U) as T. destruct (tb_offers _ _ _ _ T) as [O].
  unfold offers_ok in O. rewrite forallb_forall in O.
  assert (G : forall e, In e out -> (forall f, e <> Reads f) -> exists g, In g P /\ offer_ok k prov t g e = true).
  { intros e I N. destruct (said_by _ _ _ _ E I N) as (g & G1 & G2). exists g. split; [exact G1|].
    destruct (C g G1) as (A & L & _). destruct (nth_some g L) as (c & EC). specialize (O _ (in_numbered _ _ EC)). cbn [fst] in O.
    unfold allowed in A. rewrite A in O. cbn [orb] in O. rewrite forallb_forall in O. apply O. exact G2. }
  split.
  - intros m n I NL. destruct (G _ I ltac:(discriminate)) as (g & G1 & G2). cbn [offer_ok] in G2. apply orb_true_iff in G2.
    destruct G2 as [G2|G2].
    + exfalso. apply andb_true_iff in G2. destruct G2 as (L & M). apply Pos.eqb_eq in M. apply NL. split; [|exact M].
      apply (u_literal _ _ _ _ _ _ U). exact L.
    + apply existsb_exists in G2. destruct G2 as (h & _ & G2). apply andb_true_iff in G2. destruct G2 as (B & D).
      eapply declared_out; [exact E| |exact D]. apply (C g G1). exact B.
  - intros m m' I S. destruct (G _ I ltac:(discriminate)) as (g & G1 & G2). cbn [offer_ok] in G2. apply orb_true_iff in G2.
    destruct G2 as [G2|G2].
    + exfalso. apply andb_true_iff in G2. destruct G2 as (L & M). apply negb_true_iff in L, M. rewrite <- (u_11 _ _ _ _ _ _ U) in L.
      apply Z.leb_gt in L. apply Pos.eqb_neq in M. destruct S; [lia|contradiction].
    + destruct (assoc m' (owned k)) as [[[h w]|]|] eqn:EO; [|discriminate|].
      * rewrite (owned_defined _ _ _ _ _ _ _ EO); [discriminate|]. apply (C g G1). exact G2.
      * destruct (assoc m' specials) as [h|] eqn:ES; [|discriminate]. apply andb_true_iff in G2. destruct G2 as (S1 & S2).
        rewrite (special_defined _ _ _ _ _ _ ES); [|apply (C g G1); exact S2]. eapply u_settings; eauto.
Qed.

Lemma public_declared : forall ms k v forb prov t out P h hv n nv, unit_ok ms k v forb prov t -> closed forb (look t) P ->
  Permutation (contents out) (owns (look t) P) -> In (h, (hv, (n, nv))) public ->
  ((inP (e_all (look t h)) P -> declared n out /\ declared nv out) /\ (inP (e_all (look t hv)) P -> declared nv out))
  /\ has_bit (e_all (look t h_metaparse)) h = true.
Proof.
  intros ms k v forb prov t out P h hv n nv U C E I. pose proof (u_tables _ _ _ _ _ _ U) as T. destruct (tb_public _ _ _ _ T) as [O].
  unfold public_ok in O. rewrite forallb_forall in O. specialize (O _ I). cbv beta iota in O.
  apply andb_true_iff in O. destruct O as (O & O4). apply andb_true_iff in O. destruct O as (O & O3).
  apply andb_true_iff in O. destruct O as (O1 & O2).
  assert (V : forall f x, provides_ok prov t f x = true -> inP (e_all (look t f)) P -> declared x out).
  { intros f x X Y. unfold provides_ok in X. apply existsb_exists in X. destruct X as (g & _ & X).
    apply andb_true_iff in X. destruct X as (B & D). eapply declared_out; [exact E| |exact D]. apply Y. exact B. }
  split; [split|exact O4].
  - intros X. split; [eapply V; eauto|]. eapply V; [exact O2|]. apply (C hv). apply X. exact O3.
  - intros X. eapply V; eauto.
Qed.

(** to check a start that is given *)
Lemma untouched_check : forall ms : macros,
  forallb (fun m => memb m settings || match ms m with Some _ => false | None => true end) all_defined = true ->
  value_of ms BOOST_METAPARSE_LIMIT_STRING_SIZE <= 2048 -> untouched ms.
Proof.
  intros ms H L. split; [|exact L]. intros c m I D N. rewrite forallb_forall in H.
  assert (X : In m all_defined) by (apply in_flat_map; eauto). apply H in X. apply orb_true_iff in X.
  destruct X as [X|X]; [apply memb_in in X; contradiction|]. destruct (ms m); [discriminate|reflexivity].
Qed.
