(** Lemmas about including headers: running the preprocessor gives what following
    the headers says. *)

From Coq Require Import ZArith NArith List Bool Lia Permutation Arith.
From Verif Require Import Include HeaderFiles SpecInclude Proofs_Include.
Import ListNotations.
Open Scope Z_scope.

(** (so that no tactic tries to compute a check) *)
Inductive checked (b : bool) : Prop := is_checked : b = true -> checked b.

Section Sound.
Variable k : kind.
Variable ms0 : macros.
Variable forb : N.
Variable prov : name -> list file.
Variable t : file -> entry.

Definition allowed (f : file) : Prop := has_bit forb f = false.
Definition settled (g : file) (m : macro) : option Z :=
  match nth_error headers g with
  | Some c => match preprocess headers 0 c ms0 with Some (r, _) => r m | None => None end
  | None => None
  end.

(** The macros when the files [P] were included, the files [Q] are open and the open
    file has defined [L]. *)
Definition expected (P Q : list file) (L : list (macro * Z)) (m : macro) : option Z :=
  match assoc m L with
  | Some v => Some v
  | None =>
    if memb m temps then None
    else match assoc m (owned k) with
    | Some (Some (g, v)) => if memf g P then Some v else None
    | Some None => None
    | None =>
      match assoc m specials with
      | Some g => if memf g P then settled g m else ms0 m
      | None =>
        match index_of m guards 0 with
        | Some f => if memf f P || memf f Q then Some 0 else None
        | None => ms0 m
        end
      end
    end
  end.

Hypothesis entries : forall f c, nth_error headers f = Some c -> allowed f -> memf f special = false ->
  enter k forb prov t f c = Some (t f).
Hypothesis entries_special : forall f, memf f special = true -> t f = mkentry (N.setbit 0 (N.of_nat f)) [] 0.
Hypothesis mok : checked (macros_ok k).
Hypothesis std_known : exists v, settled h_config BOOST_METAPARSE_STD = Some v
  /\ (2011 <=? v) = k11 k /\ (2014 <=? v) = k14 k.
Hypothesis limit_known : exists v, settled h_limit_string_size BOOST_METAPARSE_LIMIT_STRING_SIZE = Some v /\ v <= 2048.
Hypothesis settings_known : forall m g, assoc m specials = Some g -> memb m settings = true -> settled g m <> None.
Hypothesis clang_known : forall b, k_clang k = Some b -> negb (value_of ms0 clang__ =? 0) = b.
Hypothesis ext_known : forall b, k_ext k = Some b -> negb (value_of ms0 HAS_STRING_LITERAL_TEMPLATES =? 0) = b.
Hypothesis sun_known : forall b, k_sun k = Some b -> is_defined ms0 SUNPRO_CC = b.
Hypothesis special_runs : forall f c, memf f special = true -> nth_error headers f = Some c ->
  exists r m, preprocess headers 0 c ms0 = Some (r, []) /\ guard_of c = Some m /\ r m = Some 0.
Hypothesis guards_free : forall m f, index_of m guards 0 = Some f -> ms0 m = None.

Definition inP (b : N) (P : list file) : Prop := forall h, has_bit b h = true -> In h P.
Definition closed (P : list file) : Prop :=
  forall g, In g P -> allowed g /\ (g < length headers)%nat /\ inP (e_all (t g)) P.
Definition said (P : list file) (pre : list event) : Prop := forall g, In g P -> incl (e_own (t g)) pre.
Definition uses_after (pre out : list event) : Prop :=
  forall l1 n l2, out = l1 ++ Uses n :: l2 -> declared n (pre ++ l1).
Definition owns (P : list file) : list event := flat_map (fun g => e_own (t g)) P.

Definition ran (res : option (macros * list event)) (P Q : list file) (L : list (macro * Z)) (K : N)
    (own0 own : list event) (bound : nat) : Prop :=
  exists ms' out new,
    res = Some (ms', out)
    /\ (forall m, ms' m = expected (new ++ P) Q L m)
    /\ NoDup new
    /\ (forall g, In g new -> ~ In g P /\ (g < bound)%nat /\ has_bit K g = true)
    /\ closed (new ++ P)
    /\ inP K (new ++ P)
    /\ (forall pre, said P pre -> incl own0 pre -> uses_after pre out)
    /\ Permutation (contents out) (own ++ owns new)
    /\ (forall f, In (Reads f) out -> allowed f /\ (f < bound)%nat).

Lemma declared_incl : forall n l l', declared n l -> incl l l' -> declared n l'.
Proof. intros n l l' [H|H] I; [left|right]; apply I; exact H. Qed.
Lemma uses_after_app : forall pre a b, uses_after pre a -> uses_after (pre ++ a) b -> uses_after pre (a ++ b).
Proof.
  intros pre a b A B l1 n l2 E.
  destruct (Nat.le_gt_cases (length a) (length l1)) as [L|L].
  - assert (X : exists r, l1 = a ++ r).
    { exists (skipn (length a) l1). rewrite <- (firstn_skipn (length a) l1) at 1. f_equal.
      assert (Y : firstn (length a) (a ++ b) = firstn (length a) (l1 ++ Uses n :: l2)) by (rewrite E; reflexivity).
      rewrite !firstn_app, firstn_all, Nat.sub_diag in Y. cbn in Y. rewrite app_nil_r in Y.
      replace (length a - length l1)%nat with 0%nat in Y by lia. cbn in Y. rewrite app_nil_r in Y. symmetry. exact Y. }
    destruct X as (r & ->). rewrite <- app_assoc in E. apply app_inv_head in E.
    rewrite app_assoc. eapply B. exact E.
  - assert (X : exists r, a = l1 ++ Uses n :: r).
    { assert (Y : firstn (length a) (a ++ b) = firstn (length a) (l1 ++ Uses n :: l2)) by (rewrite E; reflexivity).
      rewrite !firstn_app, firstn_all, Nat.sub_diag in Y. cbn in Y. rewrite app_nil_r in Y.
      rewrite firstn_all2 in Y by lia. destruct (length a - length l1)%nat eqn:Z; [lia|]. cbn in Y.
      exists (firstn n0 l2). exact Y. }
    destruct X as (r & ->). eapply A. reflexivity.
Qed.
Lemma contents_app : forall a b, contents (a ++ b) = contents a ++ contents b.
Proof. intros. unfold contents. apply filter_app. Qed.
Lemma contents_incl : forall l, incl (contents l) l.
Proof. intros l x H. unfold contents in H. apply filter_In in H. tauto. Qed.
Lemma owns_app : forall a b, owns (a ++ b) = owns a ++ owns b.
Proof. intros. unfold owns. apply flat_map_app. Qed.

Definition before (b c : N) : Prop := forall h, has_bit b h = true -> has_bit c h = true.

Lemma ran_app : forall res1 res2 P Q L1 L2 K1 K2 own0 own1 own2 b,
  ran res1 P Q L1 K1 own0 own1 b ->
  (forall ms1 new, (forall m, ms1 m = expected (new ++ P) Q L1 m) -> closed (new ++ P) -> inP K1 (new ++ P) ->
     (forall g, In g new -> (g < b)%nat) ->
     ran (res2 ms1) (new ++ P) Q L2 K2 (own0 ++ own1) own2 b) ->
  before K1 K2 ->
  ran (match res1 with
       | Some (ms1, o1) => match res2 ms1 with Some (ms2, o2) => Some (ms2, o1 ++ o2) | None => None end
       | None => None end) P Q L2 K2 own0 (own1 ++ own2) b.
Proof.
  intros res1 res2 P Q L1 L2 K1 K2 own0 own1 own2 b (ms1 & o1 & new1 & R1 & M1 & N1 & G1 & C1 & I1 & U1 & E1 & F1) H B.
  destruct (H ms1 new1 M1 C1 I1) as (ms2 & o2 & new2 & R2 & M2 & N2 & G2 & C2 & I2 & U2 & E2 & F2).
  { intros g X. apply G1 in X. tauto. }
  exists ms2, (o1 ++ o2), (new2 ++ new1). rewrite R1, R2. split; [reflexivity|].
  rewrite <- app_assoc. split; [exact M2|]. split.
  { clear - N1 N2 G2. induction new2 as [|x l IH]; [exact N1|]. cbn. inversion N2; subst. constructor.
    - rewrite in_app_iff. intros [X|X]; [auto|]. apply (G2 x (or_introl eq_refl)). apply in_app_iff. left. exact X.
    - apply IH; auto. intros g X. apply G2. right. exact X. }
  split.
  { intros g X. apply in_app_iff in X. destruct X as [X|X].
    - destruct (G2 g X) as (A & D & E). split; [|split; auto]. intros Y. apply A. apply in_app_iff. right. exact Y.
    - destruct (G1 g X) as (A & D & E). split; [|split]; auto. }
  split; [exact C2|]. split; [exact I2|].
  assert (IN : incl own1 o1 /\ (forall g, In g new1 -> incl (e_own (t g)) o1)).
  { split.
    - intros x X. apply contents_incl. apply (Permutation_in x (Permutation_sym E1)). apply in_app_iff. left. exact X.
    - intros g X x Y. apply contents_incl. apply (Permutation_in x (Permutation_sym E1)). apply in_app_iff. right.
      apply in_flat_map. exists g. split; auto. }
  split.
  { intros pre S O. apply uses_after_app; [apply U1; auto|]. apply U2.
    - intros g X. apply in_app_iff in X. destruct X as [X|X].
      + apply incl_appr. apply IN. exact X.
      + apply incl_appl. apply S. exact X.
    - apply incl_app; [apply incl_appl; exact O | apply incl_appr; apply IN]. }
  split.
  { rewrite contents_app, owns_app. rewrite E1, E2.
    rewrite <- !app_assoc. apply Permutation_app_head.
    rewrite (Permutation_app_comm (owns new1) (own2 ++ owns new2)). rewrite <- app_assoc. reflexivity. }
  intros f X. apply in_app_iff in X. destruct X; auto.
Qed.

Lemma ran_nothing : forall ms P Q L K own0 b e,
  (forall m, ms m = expected P Q L m) -> closed P -> inP K P ->
  (forall n, e <> [Uses n]) -> (forall f, e <> [Reads f]) -> (length e <= 1)%nat ->
  ran (Some (ms, e)) P Q L K own0 e b.
Proof.
  intros ms P Q L K own0 b e M C I U R LE. exists ms, e, []. cbn [app].
  split; [reflexivity|]. split; [exact M|]. split; [constructor|]. split; [intros g []|].
  split; [exact C|]. split; [exact I|].
  destruct e as [|x [|y e]]; [| |cbn in LE; lia].
  - split; [|split; [reflexivity|intros f []]]. intros pre _ _ l1 n l2 E. destruct l1; discriminate.
  - split; [|split].
    + intros pre _ _ l1 n l2 E. destruct l1 as [|z l1]; [|destruct l1; discriminate].
      cbn in E. injection E as -> _. exfalso. eapply U. reflexivity.
    + unfold contents, owns. cbn. destruct x; try reflexivity. exfalso. eapply R. reflexivity.
    + intros f [->|[]]. exfalso. eapply R. reflexivity.
Qed.

(** ** Single steps *)

Definition one (d : nat) (x : directive) (ms : macros) : option (macros * list event) :=
  match x with
  | Include f =>
      match d, nth_error headers f with
      | S d, Some c' =>
          match preprocess headers d c' ms with
          | Some (ms', l) => Some (ms', Reads f :: l)
          | None => None
          end
      | _, _ => None
      end
  | Define m v =>
      match ms m with
      | Some w => if w =? v then Some (ms, []) else None
      | None => Some (define ms m v, [])
      end
  | Undef m => Some (undef ms m, [])
  | Error => None
  | Needs m => if is_defined ms m then Some (ms, []) else None
  | Says e => Some (ms, [e])
  end.
Lemma preprocess_do : forall d x c ms,
  preprocess headers d (Do x c) ms =
  match one d x ms with
  | Some (ms1, o1) => match preprocess headers d c ms1 with Some (ms2, o2) => Some (ms2, o1 ++ o2) | None => None end
  | None => None
  end.
Proof. intros. destruct d; destruct x; reflexivity. Qed.
Lemma preprocess_if : forall d x y n c ms,
  preprocess headers d (If x y n c) ms =
  match preprocess headers d (if holds ms x then y else n) ms with
  | Some (ms1, o1) => match preprocess headers d c ms1 with Some (ms2, o2) => Some (ms2, o1 ++ o2) | None => None end
  | None => None
  end.
Proof. intros. destruct d; reflexivity. Qed.
Lemma preprocess_done : forall d ms, preprocess headers d Done ms = Some (ms, []).
Proof. intros. destruct d; reflexivity. Qed.

Lemma has_bit_lor : forall a b h, has_bit (N.lor a b) h = has_bit a h || has_bit b h.
Proof. intros. unfold has_bit. apply N.lor_spec. Qed.
Lemma has_bit_setbit : forall a f h, has_bit (N.setbit a (N.of_nat f)) h = Nat.eqb f h || has_bit a h.
Proof.
  intros. unfold has_bit. rewrite N.setbit_eqb. f_equal.
  destruct (Nat.eqb_spec f h) as [->|E]; [apply N.eqb_refl|]. apply N.eqb_neq. lia.
Qed.
Lemma has_bit_0 : forall h, has_bit 0 h = false.
Proof. intros. unfold has_bit. apply N.bits_0. Qed.
Lemma has_bits : forall l h, has_bit (bits l) h = memf h l.
Proof.
  induction l as [|f l IH]; intros h; [apply has_bit_0|]. cbn [bits]. rewrite has_bit_setbit, IH. cbn [memf existsb].
  rewrite Nat.eqb_sym. reflexivity.
Qed.

Definition file_ok (f : file) : Prop := forall d c ms P Q,
  nth_error headers f = Some c -> allowed f -> closed P -> (forall h, In h (requires f) -> In h P) ->
  (forall q, In q Q -> (f < q)%nat) -> (forall m, ms m = expected P Q [] m) -> (e_depth (t f) <= d)%nat ->
  ran (preprocess headers d c ms) P Q [] (e_all (t f)) [] [] (S f).

Lemma nth_some : forall (f : file), (f < length headers)%nat -> exists c, nth_error headers f = Some c.
Proof.
  intros f L. destruct (nth_error headers f) eqn:E; [eauto|]. apply nth_error_None in E. lia.
Qed.

Lemma include_ok : forall g b d ms P Q K,
  file_ok g -> (g < b)%nat -> (g < length headers)%nat -> allowed g -> closed P -> inP K P ->
  (forall h, In h (requires g) -> In h P) ->
  (forall q, In q Q -> (b <= q)%nat) -> (forall m, ms m = expected P Q [] m) -> (S (e_depth (t g)) <= d)%nat ->
  forall own0, ran (one d (Include g) ms) P Q [] (N.lor K (e_all (t g))) own0 [] b.
Proof.
  intros g b d ms P Q K F Lb Lh A C I R HQ M D own0.
  destruct d as [|d]; [lia|]. destruct (nth_some g Lh) as (c & E). cbn [one]. rewrite E.
  destruct (F d c ms P Q E A C R) as (ms' & out & new & R1 & M1 & N1 & G1 & C1 & I1 & U1 & E1 & F1); auto.
  { intros q X. apply HQ in X. lia. }
  { lia. }
  exists ms', (Reads g :: out), new. rewrite R1. split; [reflexivity|]. split; [exact M1|]. split; [exact N1|].
  split.
  { intros h X. destruct (G1 h X) as (Y & Z & W). split; [exact Y|]. split; [lia|]. rewrite has_bit_lor, W. apply orb_true_r. }
  split; [exact C1|]. split.
  { intros h X. rewrite has_bit_lor in X. apply orb_true_iff in X. destruct X as [X|X]; [|auto].
    apply in_app_iff. right. apply I. exact X. }
  split.
  { intros pre S O. change (Reads g :: out) with ([Reads g] ++ out). apply uses_after_app.
    - intros l1 n l2 X. destruct l1 as [|z l1]; [discriminate|destruct l1; discriminate].
    - apply U1; [|intros x []]. intros h X. apply incl_appl. apply S. exact X. }
  split; [exact E1|].
  intros f [X|X]; [injection X as <-; auto|]. destruct (F1 f X). split; [auto|lia].
Qed.

(** ** What is known about macros *)

Lemma assoc_in : forall A (m : macro) (l : list (macro * A)) a, assoc m l = Some a -> In (m, a) l.
Proof.
  intros A m. induction l as [|[x b] l IH]; cbn; intros a H; [discriminate|].
  destruct (Pos.eqb_spec m x) as [->|]; [injection H as ->; auto|right; auto].
Qed.
Lemma in_numbered : forall f c, nth_error headers f = Some c -> In (f, c) numbered.
Proof.
  intros f c E. unfold numbered.
  assert (G : forall (l : list code) i f, nth_error l f = Some c -> In ((i + f)%nat, c) (combine (seq i (length l)) l)).
  { induction l as [|x l IH]; intros i f0 E0; [destruct f0; discriminate|]. cbn.
    destruct f0 as [|f0]; cbn in E0.
    - left. injection E0 as ->. rewrite Nat.add_0_r. reflexivity.
    - right. replace (i + S f0)%nat with (S i + f0)%nat by lia. apply IH. exact E0. }
  apply (G headers 0%nat f E).
Qed.
Lemma mok_parts : checked (guards_ok k)
  /\ (forall m g, assoc m specials = Some g -> untouchable k m = true /\ memf g special = true)
  /\ (forall f c, nth_error headers f = Some c -> memf f special = true -> checked (special_ok k (f, c)))
  /\ (untouchable k clang__ = true /\ untouchable k HAS_STRING_LITERAL_TEMPLATES = true /\ untouchable k SUNPRO_CC = true)
  /\ (forall m g v, assoc m (owned k) = Some (Some (g, v)) -> memf g special = false).
Proof.
  destruct mok as [H]. unfold macros_ok in H. apply andb_true_iff in H. destruct H as (H & D).
  apply andb_true_iff in H. destruct H as (H & C). apply andb_true_iff in H. destruct H as (H & W).
  apply andb_true_iff in H. destruct H as (A & B).
  split; [constructor; exact A|]. split.
  { intros m g X. rewrite forallb_forall in B. apply assoc_in in X. apply B in X. cbn [fst snd] in X.
    apply andb_true_iff in X. exact X. }
  split.
  { intros f c E X. constructor. rewrite forallb_forall in C. specialize (C (f, c) (in_numbered _ _ E)).
    cbn [fst] in C. rewrite X in C. exact C. }
  split.
  { cbn [forallb fst] in D. rewrite !andb_true_iff in D. tauto. }
  intros m g v X. apply assoc_in in X. rewrite forallb_forall in W. apply W in X. cbn [snd] in X. apply negb_true_iff in X. exact X.
Qed.

Lemma free_macro : forall P Q L m, assoc m L = None -> untouchable k m = true -> assoc m specials = None ->
  index_of m guards 0 = None -> expected P Q L m = ms0 m.
Proof.
  intros P Q L m A U S G. unfold expected. rewrite A. unfold untouchable in U. apply andb_true_iff in U. destruct U as (U & V).
  apply negb_true_iff in U. rewrite U. destruct (assoc m (owned k)); [discriminate|]. rewrite S, G. reflexivity.
Qed.
Lemma special_macro : forall P Q L m g, assoc m L = None -> assoc m specials = Some g ->
  expected P Q L m = if memf g P then settled g m else ms0 m.
Proof.
  intros P Q L m g A S. unfold expected. rewrite A. destruct mok_parts as (_ & U & _). destruct (U m g S) as (U' & _). clear U. rename U' into U.
  unfold untouchable in U. apply andb_true_iff in U. destruct U as (U & V).
  apply negb_true_iff in U. rewrite U. destruct (assoc m (owned k)); [discriminate|]. rewrite S. reflexivity.
Qed.
Section Body.
Variable me : file.
Hypothesis smaller : forall g, (g < me)%nat -> file_ok g.
Hypothesis me_small : (me <= length headers)%nat.

Definition local_ok (L : list (macro * Z)) : Prop :=
  forall m v, assoc m L = Some v -> memb m temps = true \/ assoc m (owned k) = Some (Some (me, v)).

Lemma local_free : forall L m, local_ok L -> untouchable k m = true -> assoc m L = None.
Proof.
  intros L m O U. destruct (assoc m L) eqn:E; [|reflexivity]. unfold untouchable in U. apply andb_true_iff in U. destruct U as (U & V).
  apply negb_true_iff in U. destruct (O _ _ E) as [X|X]; [congruence|]. rewrite X in V. discriminate.
Qed.

Lemma knows_ok : forall a m b ms P Q, knows k forb me a m = Some b ->
  closed P -> inP (a_known a) P -> ~ In me P -> (forall m, ms m = expected P Q (a_local a) m) -> local_ok (a_local a) ->
  is_defined ms m = b.
Proof.
  intros a m b ms P Q H C I NM M O. unfold is_defined. rewrite M. unfold knows in H.
  destruct (assoc m (a_local a)) as [v|] eqn:EL.
  { injection H as <-. unfold expected. rewrite EL. reflexivity. }
  destruct (memb m temps) eqn:ET.
  { injection H as <-. unfold expected. rewrite EL, ET. reflexivity. }
  destruct (assoc m (owned k)) as [[[g v]|]|] eqn:EO.
  { unfold expected. rewrite EL, ET, EO.
    destruct (Nat.eqb_spec g me) as [->|].
    { injection H as <-. destruct (memf me P) eqn:X; [|reflexivity]. apply memf_in in X. contradiction. }
    destruct (has_bit (a_known a) g) eqn:EK.
    { injection H as <-. apply I in EK. apply memf_in in EK. rewrite EK. reflexivity. }
    destruct (has_bit forb g) eqn:EF; [|discriminate]. injection H as <-.
    destruct (memf g P) eqn:X; [|reflexivity]. apply memf_in in X. apply C in X. unfold allowed in X. destruct X. congruence. }
  { injection H as <-. unfold expected. rewrite EL, ET, EO. reflexivity. }
  destruct (assoc m specials) as [g|] eqn:ES.
  { destruct (memb m settings) eqn:EM; [|discriminate]. destruct (has_bit (a_known a) g) eqn:EK; [|discriminate].
    injection H as <-. rewrite (special_macro _ _ _ _ _ EL ES). apply I in EK. apply memf_in in EK. rewrite EK.
    destruct (settled g m) eqn:X; [reflexivity|]. exfalso. eapply settings_known; eauto. }
  destruct (Pos.eqb_spec m SUNPRO_CC) as [->|]; [|discriminate].
  rewrite (free_macro P Q _ SUNPRO_CC EL); [apply sun_known; exact H|apply mok_parts|vm_compute; reflexivity|vm_compute; reflexivity].
Qed.

Lemma decides_ok : forall c a b ms P Q, decides k forb me a c = Some b ->
  closed P -> inP (a_known a) P -> ~ In me P -> (forall m, ms m = expected P Q (a_local a) m) -> local_ok (a_local a) ->
  holds ms c = b.
Proof.
  induction c; intros a b ms P Q H C I NM M O; cbn [decides holds] in *; try discriminate.
  - eapply knows_ok; eauto.
  - unfold value_of. rewrite M. destruct mok_parts as (_ & _ & _ & (U1 & U2 & _) & _).
    destruct (Pos.eqb_spec m clang__) as [->|].
    { rewrite (free_macro P Q _ clang__); [apply clang_known; exact H|apply local_free; assumption|assumption|vm_compute; reflexivity|vm_compute; reflexivity]. }
    destruct (Pos.eqb_spec m HAS_STRING_LITERAL_TEMPLATES) as [->|]; [|discriminate].
    rewrite (free_macro P Q _ HAS_STRING_LITERAL_TEMPLATES); [apply ext_known; exact H|apply local_free; assumption|assumption|vm_compute; reflexivity|vm_compute; reflexivity].
  - destruct (Pos.eqb_spec m BOOST_METAPARSE_STD) as [->|]; [|discriminate]. cbn [andb] in H.
    destruct (has_bit (a_known a) h_config) eqn:EK; [|discriminate].
    unfold value_of. rewrite M. rewrite (special_macro _ _ _ _ h_config); [| |reflexivity].
    2:{ apply local_free; [assumption|]. destruct mok_parts as (_ & U & _). apply (U BOOST_METAPARSE_STD h_config). reflexivity. }
    apply I in EK. apply memf_in in EK. rewrite EK. destruct std_known as (v & -> & S1 & S2).
    destruct (Z.eqb_spec z 2011) as [->|]; [congruence|]. destruct (Z.eqb_spec z 2014) as [->|]; [congruence|discriminate].
  - destruct (Pos.eqb_spec m BOOST_METAPARSE_LIMIT_STRING_SIZE) as [->|]; [|discriminate]. cbn [andb] in H.
    destruct (has_bit (a_known a) h_limit_string_size) eqn:EK; [|discriminate].
    unfold value_of. rewrite M. rewrite (special_macro _ _ _ _ h_limit_string_size); [| |reflexivity].
    2:{ apply local_free; [assumption|]. destruct mok_parts as (_ & U & _). apply (U BOOST_METAPARSE_LIMIT_STRING_SIZE h_limit_string_size). reflexivity. }
    apply I in EK. apply memf_in in EK. rewrite EK. destruct limit_known as (v & -> & S).
    destruct (Z.eqb_spec z 2048) as [->|]; [|discriminate]. injection H as <-. apply Z.ltb_ge. exact S.
  - destruct (decides k forb me a c) as [x|] eqn:E; [|discriminate]. cbn in H. injection H as <-. f_equal. eapply IHc; eauto.
Qed.

Lemma declaredb_ok : forall n l, declaredb n l = true -> declared n l.
Proof.
  intros n l H. unfold declaredb in H. apply existsb_exists in H. destruct H as (e & I & E).
  destruct e; try discriminate; apply Pos.eqb_eq in E; subst; [left|right]; exact I.
Qed.

Lemma assoc_filter : forall m x (L : list (macro * Z)),
  assoc x (filter (fun p => negb (Pos.eqb m (fst p))) L) = if Pos.eqb m x then None else assoc x L.
Proof.
  intros m x. induction L as [|[y v] L IH]; cbn; [destruct (Pos.eqb m x); reflexivity|].
  destruct (Pos.eqb_spec m y) as [->|N]; cbn.
  - rewrite IH. rewrite (Pos.eqb_sym x y). destruct (Pos.eqb y x); reflexivity.
  - rewrite IH. destruct (Pos.eqb_spec x y) as [->|]; [|reflexivity].
    destruct (Pos.eqb_spec m y); [contradiction|reflexivity].
Qed.

Lemma step_ok : forall x a a' d ms P Q, step k forb prov t me a x = Some a' ->
  ~ In me P -> (forall q, In q Q -> (me <= q)%nat) ->
  closed P -> inP (a_known a) P -> (forall m, ms m = expected P Q (a_local a) m) -> local_ok (a_local a) ->
  (a_depth a' <= d)%nat ->
  before (a_known a) (a_known a') /\ (a_depth a <= a_depth a')%nat /\ local_ok (a_local a')
  /\ exists own, a_own a' = a_own a ++ own
     /\ ran (one d x ms) P Q (a_local a') (a_known a') (a_own a) own me.
Proof.
  intros x a a' d ms P Q H NM HQ C I M O D.
  assert (BR : before (a_known a) (a_known a)) by (intros h X; exact X).
  destruct x; cbn [step] in H.
  - destruct (Nat.ltb_spec f me) as [LT|]; [|discriminate]. destruct (has_bit forb f) eqn:EF; [discriminate|].
    destruct (a_local a) eqn:EL; [|discriminate]. cbn [negb andb] in H.
    destruct (forallb (has_bit (a_known a)) (requires f)) eqn:ER; [|discriminate]. injection H as <-.
    cbn [a_known a_depth a_local a_own] in *. split.
    { intros h X. rewrite has_bit_lor, X. reflexivity. }
    split; [lia|]. split; [exact O|]. exists []. rewrite app_nil_r. split; [reflexivity|].
    apply include_ok; auto; try lia.
    intros h X. apply I. rewrite forallb_forall in ER. auto.
  - destruct (assoc m (a_local a)) eqn:EL; [discriminate|].
    destruct (memb m temps || match assoc m (owned k) with Some (Some (g, w)) => Nat.eqb g me && (v =? w) | _ => false end) eqn:EC; [|discriminate].
    injection H as <-. cbn [a_known a_depth a_local a_own] in *. split; [exact BR|]. split; [lia|].
    assert (N : ms m = None).
    { rewrite M. unfold expected. rewrite EL. destruct (memb m temps); [reflexivity|]. cbn [orb] in EC.
      destruct (assoc m (owned k)) as [[[g w]|]|]; try discriminate. apply andb_true_iff in EC. destruct EC as (E1 & _).
      apply Nat.eqb_eq in E1. subst. destruct (memf me P) eqn:X; [|reflexivity]. apply memf_in in X. contradiction. }
    split.
    { intros x w X. cbn in X. destruct (Pos.eqb_spec x m) as [->|]; [|apply O; exact X]. injection X as <-.
      destruct (memb m temps); [left; reflexivity|]. right. cbn [orb] in EC.
      destruct (assoc m (owned k)) as [[[g w]|]|]; try discriminate. apply andb_true_iff in EC. destruct EC as (E1 & E2).
      apply Nat.eqb_eq in E1. apply Z.eqb_eq in E2. subst. reflexivity. }
    exists []. rewrite app_nil_r. split; [reflexivity|]. cbn [one]. rewrite N.
    apply ran_nothing; [|assumption|assumption|discriminate|discriminate|cbn; lia].
    intros x. unfold define, expected. cbn [assoc]. destruct (Pos.eqb x m); [reflexivity|]. rewrite M. reflexivity.
  - destruct (memb m temps) eqn:ET; [|discriminate]. injection H as <-. cbn [a_known a_depth a_local a_own] in *.
    split; [exact BR|]. split; [lia|]. split.
    { intros x w X. rewrite assoc_filter in X. destruct (Pos.eqb m x); [discriminate|]. apply O. exact X. }
    exists []. rewrite app_nil_r. split; [reflexivity|]. cbn [one].
    apply ran_nothing; [|assumption|assumption|discriminate|discriminate|cbn; lia].
    intros x. unfold undef, expected. rewrite assoc_filter. rewrite (Pos.eqb_sym x m).
    destruct (Pos.eqb_spec m x) as [->|]; [rewrite ET; reflexivity|]. rewrite M. reflexivity.
  - discriminate.
  - destruct (knows k forb me a m) as [[|]|] eqn:EK; try discriminate. injection H as <-.
    split; [exact BR|]. split; [lia|]. split; [exact O|]. exists []. rewrite app_nil_r. split; [reflexivity|].
    cbn [one]. rewrite (knows_ok _ _ _ _ _ _ EK C I NM M O). apply ran_nothing; [assumption|assumption|assumption|discriminate|discriminate|cbn; lia].
  - assert (G : forall e0, (forall n, e0 <> Uses n) -> (forall f, e0 <> Reads f) -> Some (adds a e0) = Some a' ->
        before (a_known a) (a_known a') /\ (a_depth a <= a_depth a')%nat /\ local_ok (a_local a')
        /\ exists own, a_own a' = a_own a ++ own
           /\ ran (one d (Says e0) ms) P Q (a_local a') (a_known a') (a_own a) own me).
    { intros e0 NU NR X. injection X as <-. unfold adds. cbn [a_known a_depth a_local a_own] in *.
      split; [exact BR|]. split; [lia|]. split; [exact O|]. exists [e0]. split; [reflexivity|]. cbn [one].
      apply ran_nothing; [assumption|assumption|assumption| | |cbn; lia].
      - intros n X. injection X as X. eapply NU; eauto.
      - intros n X. injection X as X. eapply NR; eauto. }
    destruct e; try (apply G; [discriminate|discriminate|exact H]); [discriminate|].
    destruct (declaredb n (a_own a) || existsb (fun g => has_bit (a_known a) g && declaredb n (e_own (t g))) (prov n)) eqn:EC; [|discriminate].
    injection H as <-. unfold adds. cbn [a_known a_depth a_local a_own] in *.
    split; [exact BR|]. split; [lia|]. split; [exact O|]. exists [Uses n]. split; [reflexivity|]. cbn [one].
    exists ms, [Uses n], []. cbn [app]. split; [reflexivity|]. split; [exact M|]. split; [constructor|]. split; [intros g []|].
    split; [exact C|]. split; [exact I|]. split; [|split].
    + intros pre S OW l1 n0 l2 E. destruct l1 as [|z l1]; [|destruct l1; discriminate]. cbn in E. injection E as <- _.
      rewrite app_nil_r. apply orb_true_iff in EC. destruct EC as [EC|EC].
      * apply declaredb_ok in EC. eapply declared_incl; eauto.
      * apply existsb_exists in EC. destruct EC as (g & _ & X). apply andb_true_iff in X. destruct X as (X & Y).
        apply declaredb_ok in Y. eapply declared_incl; [exact Y|]. apply S. apply I. exact X.
    + reflexivity.
    + intros f [X|[]]. discriminate.
Qed.

Lemma follow_mono : forall c a a', follow k forb prov t me c a = Some a' ->
  (a_depth a <= a_depth a')%nat /\ before (a_known a) (a_known a').
Proof.
  assert (ST : forall x a a', step k forb prov t me a x = Some a' -> (a_depth a <= a_depth a')%nat /\ before (a_known a) (a_known a')).
    { intros x a a' H.
      assert (ID : forall l o, Some (mkfound (a_known a) l o (a_depth a)) = Some a' ->
         (a_depth a <= a_depth a')%nat /\ before (a_known a) (a_known a')).
      { intros l o X. injection X as <-. split; [cbn; lia|intros h Y; exact Y]. }
      destruct x; cbn [step] in H.
      - match goal with _ : (if ?c then _ else _) = _ |- _ => destruct c end; [|discriminate]. injection H as <-. cbn. split; [lia|].
        intros h X. rewrite has_bit_lor, X. reflexivity.
      - destruct (assoc m (a_local a)); [discriminate|]. match goal with _ : (if ?c then _ else _) = _ |- _ => destruct c end; [|discriminate]. eapply ID; exact H.
      - destruct (memb m temps); [|discriminate]. eapply ID; exact H.
      - discriminate.
      - destruct (knows k forb me a m) as [[|]|]; try discriminate. injection H as <-. split; [lia|intros h Y; exact Y].
      - destruct e; try discriminate; try (eapply ID; exact H).
        match goal with _ : (if ?c then _ else _) = _ |- _ => destruct c end; [|discriminate]. eapply ID; exact H. }
    induction c as [|x c IH|x y IHy n IHn c IH]; intros a a' H; cbn [follow] in H.
    - injection H as <-. split; [lia|intros h Y; exact Y].
    - destruct (step k forb prov t me a x) as [a1|] eqn:E; [|discriminate]. destruct (ST _ _ _ E), (IH _ _ H). split; [lia|].
      intros h Y; auto.
    - destruct (decides k forb me a x) as [b|]; [|discriminate].
      destruct (follow k forb prov t me (if b then y else n) a) as [a1|] eqn:E; [|discriminate].
      destruct (IH _ _ H). assert (X : (a_depth a <= a_depth a1)%nat /\ before (a_known a) (a_known a1)) by (destruct b; eauto).
      destruct X. split; [lia|]. intros h Y; auto.
Qed.

Lemma follow_ok : forall c a a' d ms P Q, follow k forb prov t me c a = Some a' ->
  ~ In me P -> (forall q, In q Q -> (me <= q)%nat) ->
  closed P -> inP (a_known a) P -> (forall m, ms m = expected P Q (a_local a) m) -> local_ok (a_local a) ->
  (a_depth a' <= d)%nat ->
  before (a_known a) (a_known a') /\ (a_depth a <= a_depth a')%nat /\ local_ok (a_local a')
  /\ exists own, a_own a' = a_own a ++ own
     /\ ran (preprocess headers d c ms) P Q (a_local a') (a_known a') (a_own a) own me.
Proof.
  induction c as [|x c IH|x y IHy n IHn c IH]; intros a a' d ms P Q H NM HQ C I M O D; cbn [follow] in H.
  - injection H as <-. split; [intros h Y; exact Y|]. split; [lia|]. split; [exact O|]. exists []. rewrite app_nil_r. split; [reflexivity|].
    rewrite preprocess_done. apply ran_nothing; [assumption|assumption|assumption|discriminate|discriminate|cbn; lia].
  - destruct (step k forb prov t me a x) as [a1|] eqn:E; [|discriminate]. destruct (follow_mono _ _ _ H) as (MD & MB).
    destruct (step_ok x a a1 d ms P Q E NM HQ C I M O) as (B1 & D1 & O1 & own1 & W1 & R1); [lia|].
    assert (RR : exists own2, a_own a' = a_own a1 ++ own2 /\ local_ok (a_local a')).
    { destruct R1 as (ms1 & o1 & new1 & Q1 & M1 & N1 & G1 & C1 & I1 & _).
      destruct (IH a1 a' d ms1 (new1 ++ P) Q H) as (_ & _ & O2 & own2 & W2 & _); auto.
      { intros X. apply in_app_iff in X. destruct X as [X|X]; [|auto]. apply G1 in X. lia. }
      exists own2. auto. }
    destruct RR as (own2 & W2 & O2).
    split; [intros h Y; auto|]. split; [lia|]. split; [exact O2|]. exists (own1 ++ own2).
    split; [rewrite W2, W1, app_assoc; reflexivity|]. rewrite preprocess_do.
    eapply ran_app; [exact R1| |exact MB].
    intros ms1 new M1 C1 I1 L1.
    destruct (IH a1 a' d ms1 (new ++ P) Q H) as (_ & _ & _ & own3 & W3 & R3); auto.
    { intros X. apply in_app_iff in X. destruct X as [X|X]; [|auto]. apply L1 in X. lia. }
    rewrite W2 in W3. apply app_inv_head in W3. subst own3. rewrite <- W1. exact R3.
  - destruct (decides k forb me a x) as [b|] eqn:EB; [|discriminate].
    destruct (follow k forb prov t me (if b then y else n) a) as [a1|] eqn:E; [|discriminate]. destruct (follow_mono _ _ _ H) as (MD & MB).
    assert (IHb : before (a_known a) (a_known a1) /\ (a_depth a <= a_depth a1)%nat /\ local_ok (a_local a1)
       /\ exists own, a_own a1 = a_own a ++ own
       /\ ran (preprocess headers d (if b then y else n) ms) P Q (a_local a1) (a_known a1) (a_own a) own me).
    { destruct b; [eapply IHy|eapply IHn]; eauto; lia. }
    destruct IHb as (B1 & D1 & O1 & own1 & W1 & R1).
    assert (RR : exists own2, a_own a' = a_own a1 ++ own2 /\ local_ok (a_local a')).
    { destruct R1 as (ms1 & o1 & new1 & Q1 & M1 & N1 & G1 & C1 & I1 & _).
      destruct (IH a1 a' d ms1 (new1 ++ P) Q H) as (_ & _ & O2 & own2 & W2 & _); auto.
      { intros X. apply in_app_iff in X. destruct X as [X|X]; [|auto]. apply G1 in X. lia. }
      exists own2. auto. }
    destruct RR as (own2 & W2 & O2).
    split; [intros h Y; auto|]. split; [lia|]. split; [exact O2|]. exists (own1 ++ own2).
    split; [rewrite W2, W1, app_assoc; reflexivity|]. rewrite preprocess_if, (decides_ok _ _ _ _ _ _ EB C I NM M O).
    eapply ran_app; [exact R1| |exact MB].
    intros ms1 new M1 C1 I1 L1.
    destruct (IH a1 a' d ms1 (new ++ P) Q H) as (_ & _ & _ & own3 & W3 & R3); auto.
    { intros X. apply in_app_iff in X. destruct X as [X|X]; [|auto]. apply L1 in X. lia. }
    rewrite W2 in W3. apply app_inv_head in W3. subst own3. rewrite <- W1. exact R3.
Qed.

(** Only includes *)
Lemma includes_mono : forall l a a', follow k forb prov t me (includes l) a = Some a' -> a_local a = [] ->
  (a_depth a <= a_depth a')%nat /\ before (a_known a) (a_known a') /\ a_local a' = [] /\ a_own a' = a_own a.
Proof.
  induction l as [|g l IH]; intros a a' H EL; cbn [includes fold_right follow] in H.
  - injection H as <-. split; [lia|]. split; [intros h Y; exact Y|]. split; [exact EL|reflexivity].
  - cbn [step] in H. match goal with _ : match (if ?c then _ else _) with _ => _ end = _ |- _ => destruct c end; [|discriminate].
    destruct (IH _ _ H eq_refl) as (X & Y & Z & W). cbn in X, Y, W. split; [lia|]. split; [|split; [exact Z|exact W]].
    intros h B. apply Y. rewrite has_bit_lor, B. reflexivity.
Qed.
Lemma includes_ok : forall l a a' d ms P Q, follow k forb prov t me (includes l) a = Some a' -> a_local a = [] ->
  (forall q, In q Q -> (me <= q)%nat) ->
  closed P -> inP (a_known a) P -> (forall m, ms m = expected P Q [] m) ->
  (a_depth a' <= d)%nat ->
  before (a_known a) (a_known a') /\ (a_depth a <= a_depth a')%nat /\ a_local a' = [] /\ a_own a' = a_own a
  /\ ran (preprocess headers d (includes l) ms) P Q [] (a_known a') (a_own a) [] me.
Proof.
  induction l as [|g l IH]; intros a a' d ms P Q H EL HQ C I M D; cbn [includes fold_right follow] in H.
  - injection H as <-. split; [intros h Y; exact Y|]. split; [lia|]. split; [exact EL|]. split; [reflexivity|].
    cbn [includes fold_right]. rewrite preprocess_done. apply ran_nothing; [assumption|assumption|assumption|discriminate|discriminate|cbn; lia].
  - cbn [step] in H. rewrite EL in H. cbn [andb] in H.
    destruct (Nat.ltb_spec g me) as [LT|]; [|discriminate]. destruct (has_bit forb g) eqn:EF; [discriminate|]. cbn [negb andb] in H.
    destruct (forallb (has_bit (a_known a)) (requires g)) eqn:ER; [|discriminate].
    set (a1 := mkfound (N.lor (a_known a) (e_all (t g))) [] (a_own a) (Nat.max (a_depth a) (S (e_depth (t g))))) in *.
    change (fold_right (fun h k0 => Include h ;; k0) Done l) with (includes l) in H.
    assert (DD : (a_depth a1 <= a_depth a')%nat /\ before (a_known a1) (a_known a') /\ a_local a' = [] /\ a_own a' = a_own a1).
    { apply (includes_mono l a1 a' H). reflexivity. }
    destruct DD as (D1 & B1 & L1 & W1). cbn in D1.
    split. { intros h X. apply B1. cbn. rewrite has_bit_lor, X. reflexivity. }
    split; [lia|]. split; [exact L1|]. split; [exact W1|].
    cbn [includes fold_right]. change (fold_right (fun h k0 => Include h ;; k0) Done l) with (includes l).
    rewrite preprocess_do. change (@nil event) with (@nil event ++ []).
    eapply (ran_app _ _ P Q [] [] (a_known a1)); [| |exact B1].
    + apply include_ok; auto; try lia. intros h X. apply I. rewrite forallb_forall in ER. auto.
    + intros ms1 new M1 C1 I1 LL. rewrite app_nil_r.
      destruct (IH a1 a' d ms1 (new ++ P) Q H) as (_ & _ & _ & _ & R); auto.
Qed.
End Body.

(** ** The special files *)

Lemma holds_agree : forall c (ms ms' : macros), (forall m, In m (asked c) -> ms m = ms' m) -> holds ms c = holds ms' c.
Proof.
  induction c; intros ms ms' H; cbn [asked holds] in *; unfold is_defined, value_of;
    try (rewrite (H m (or_introl eq_refl)); reflexivity).
  - rewrite (IHc ms ms'); auto.
  - rewrite (IHc1 ms ms'), (IHc2 ms ms'); auto; intros m I; apply H; apply in_app_iff; auto.
  - rewrite (IHc1 ms ms'), (IHc2 ms ms'); auto; intros m I; apply H; apply in_app_iff; auto.
Qed.
Lemma plain_run : forall c d M (ms ms' r : macros) o, plain c = true -> incl (mentioned c) M ->
  (forall m, In m M -> ms m = ms' m) ->
  preprocess headers 0 c ms = Some (r, o) ->
  exists r', preprocess headers d c ms' = Some (r', o) /\ (forall m, In m M -> r m = r' m)
    /\ (forall m, ~ In m (defines c) -> r' m = ms' m).
Proof.
  induction c as [|x c IH|x y IHy n IHn c IH]; intros d M ms ms' r o P I A H.
  - rewrite preprocess_done in H. injection H as <- <-. exists ms'. rewrite preprocess_done. auto.
  - destruct x; cbn [plain] in P; try discriminate. cbn [mentioned] in I. rewrite preprocess_do in H. cbn [one] in H.
    rewrite preprocess_do. cbn [one]. rewrite <- (A m (I m (or_introl eq_refl))).
    assert (I' : incl (mentioned c) M) by (intros z Z; apply I; right; exact Z).
    destruct (ms m) as [w|] eqn:E.
    + destruct (w =? v) eqn:EV; [|discriminate].
      destruct (preprocess headers 0 c ms) as [[r1 o1]|] eqn:E1; [|discriminate]. injection H as <- <-.
      destruct (IH d M ms ms' r1 o1 P I' A E1) as (r' & -> & X & Y). exists r'. split; [reflexivity|]. split; [exact X|].
      intros z Z. apply Y. intros W. apply Z. right. exact W.
    + destruct (preprocess headers 0 c (define ms m v)) as [[r1 o1]|] eqn:E1; [|discriminate]. injection H as <- <-.
      destruct (IH d M (define ms m v) (define ms' m v) r1 o1 P I') as (r' & -> & X & Y); [|exact E1|].
      { intros z Z. unfold define. rewrite (A z Z). reflexivity. }
      exists r'. split; [reflexivity|]. split; [exact X|].
      intros z Z. rewrite Y by (intros W; apply Z; right; exact W). unfold define.
      destruct (Pos.eqb_spec z m) as [->|]; [exfalso; apply Z; left; reflexivity|reflexivity].
  - cbn [plain] in P. apply andb_true_iff in P. destruct P as (P & P3). apply andb_true_iff in P. destruct P as (P1 & P2).
    cbn [mentioned] in I. rewrite preprocess_if in H. rewrite preprocess_if.
    rewrite <- (holds_agree x ms ms') by (intros m X; apply A; apply I; apply in_app_iff; left; exact X).
    destruct (preprocess headers 0 (if holds ms x then y else n) ms) as [[r1 o1]|] eqn:E1; [|discriminate].
    destruct (preprocess headers 0 c r1) as [[r2 o2]|] eqn:E2; [|discriminate]. injection H as <- <-.
    assert (B : exists r', preprocess headers d (if holds ms x then y else n) ms' = Some (r', o1)
       /\ (forall m, In m M -> r1 m = r' m) /\ (forall m, ~ In m (defines y ++ defines n) -> r' m = ms' m)).
    { destruct (holds ms x).
      - destruct (IHy d M ms ms' r1 o1 P1) as (r' & X & Y & Z); auto.
        { intros z W. apply I. rewrite !in_app_iff. auto. }
        exists r'. split; [exact X|]. split; [exact Y|]. intros m W. apply Z. intros V. apply W. apply in_app_iff. auto.
      - destruct (IHn d M ms ms' r1 o1 P2) as (r' & X & Y & Z); auto.
        { intros z W. apply I. rewrite !in_app_iff. auto. }
        exists r'. split; [exact X|]. split; [exact Y|]. intros m W. apply Z. intros V. apply W. apply in_app_iff. auto. }
    destruct B as (r' & -> & X & Y).
    destruct (IH d M r1 r' r2 o2 P3) as (r'' & -> & X2 & Y2); auto.
    { intros z W. apply I. rewrite !in_app_iff. auto. }
    exists r''. split; [reflexivity|]. split; [exact X2|]. intros m W. cbn [defines] in W. rewrite !in_app_iff in W.
    rewrite Y2 by tauto. apply Y. rewrite in_app_iff. tauto.
Qed.

Lemma index_nth : forall m l i f, index_of m l i = Some f -> exists j, f = (i + j)%nat /\ nth_error l j = Some (Some m).
Proof.
  induction l as [|[x|] l IH]; intros i f H; cbn in H; [discriminate| |].
  - destruct (Pos.eqb_spec m x) as [->|].
    + injection H as <-. exists 0%nat. split; [lia|reflexivity].
    + destruct (IH _ _ H) as (j & -> & E). exists (S j). split; [lia|exact E].
  - destruct (IH _ _ H) as (j & -> & E). exists (S j). split; [lia|exact E].
Qed.
Lemma index_guard : forall m f c, index_of m guards 0 = Some f -> nth_error headers f = Some c -> guard_of c = Some m.
Proof.
  intros m f c H E. apply index_nth in H. destruct H as (j & -> & N). cbn [plus] in E. unfold guards in N.
  rewrite nth_error_map, E in N. cbn in N. injection N as ->. reflexivity.
Qed.
Lemma guard_facts : forall f c m, nth_error headers f = Some c -> guard_of c = Some m ->
  index_of m guards 0 = Some f /\ untouchable k m = true /\ assoc m specials = None.
Proof.
  intros f c m E G. destruct mok_parts as ([A] & _). unfold guards_ok in A. rewrite forallb_forall in A.
  specialize (A _ (in_numbered _ _ E)). cbn [fst snd] in A. rewrite G in A.
  apply andb_true_iff in A. destruct A as (A & A3). apply andb_true_iff in A. destruct A as (A1 & A2).
  destruct (index_of m guards 0); [|discriminate]. apply Nat.eqb_eq in A1. subst. split; [reflexivity|]. split; [exact A2|].
  destruct (assoc m specials); [discriminate|reflexivity].
Qed.
Lemma expected_guard : forall P Q f c m, nth_error headers f = Some c -> guard_of c = Some m ->
  expected P Q [] m = if memf f P || memf f Q then Some 0 else None.
Proof.
  intros P Q f c m E G. destruct (guard_facts f c m E G) as (A & U & S). unfold untouchable in U. apply andb_true_iff in U.
  destruct U as (U & V). apply negb_true_iff in U. unfold expected. cbn [assoc]. rewrite U.
  destruct (assoc m (owned k)); [discriminate|]. rewrite S, A. reflexivity.
Qed.
Lemma memf_app : forall f a b, memf f (a ++ b) = memf f a || memf f b.
Proof. intros. unfold memf. apply existsb_app. Qed.
Lemma memf_cons : forall f g l, memf f (g :: l) = Nat.eqb f g || memf f l.
Proof. reflexivity. Qed.
Lemma not_memf : forall f l, ~ In f l -> memf f l = false.
Proof. intros f l H. destruct (memf f l) eqn:E; [|reflexivity]. apply memf_in in E. contradiction. Qed.
Lemma mentioned_defines : forall c, incl (defines c) (mentioned c).
Proof.
  induction c as [|x c IH|x y IHy n IHn c IH]; intros m H; cbn [defines mentioned] in *; [exact H| |].
  - destruct x; try (apply IH; exact H); try (right; apply IH; exact H).
    destruct H as [->|H]; [left; reflexivity|right; apply IH; exact H].
  - rewrite !in_app_iff in H. rewrite !in_app_iff. intuition.
Qed.

Lemma special_file_ok : forall f, memf f special = true -> file_ok f.
Proof.
  intros f SP d c ms P Q E A C R HQ M D. rewrite (entries_special f SP). cbn [e_all e_own e_depth].
  destruct mok_parts as (_ & US & SO & _ & OW). destruct (SO f c E SP) as [S].
  unfold special_ok in S. apply andb_true_iff in S. destruct S as (S & S5). apply andb_true_iff in S. destruct S as (S & S4).
  apply andb_true_iff in S. destruct S as (S & S3). apply andb_true_iff in S. destruct S as (S1 & S2).
  rewrite forallb_forall in S2, S3, S4.
  destruct (special_runs f c SP E) as (r & gm & RUN & G & RG).
  destruct (in_dec Nat.eq_dec f P) as [IP|NP].
  - assert (X : preprocess headers d c ms = Some (ms, [])).
    { destruct c as [|x c|x y n c]; try discriminate. destruct x; try discriminate. destruct x; try discriminate.
      destruct n; try discriminate. destruct c; try discriminate. cbn [guard_of] in G. injection G as ->.
      rewrite preprocess_if. cbn [holds]. unfold is_defined.
      rewrite M, (expected_guard P Q f _ gm E eq_refl). rewrite (proj2 (memf_in f P) IP). cbn [orb negb].
      rewrite !preprocess_done. reflexivity. }
    rewrite X. apply ran_nothing; [assumption|assumption| |discriminate|discriminate|cbn; lia].
    intros h H. rewrite has_bit_setbit, has_bit_0, orb_false_r in H. apply Nat.eqb_eq in H. subst. exact IP.
  - assert (NQ : ~ In f Q) by (intros X; apply HQ in X; lia).
    assert (AG : forall m, In m (mentioned c) -> ms0 m = ms m).
    { intros m X. specialize (S2 m X). apply andb_true_iff in S2. destruct S2 as (U & V). rewrite M.
      unfold untouchable in U. apply andb_true_iff in U. destruct U as (U & W). apply negb_true_iff in U.
      unfold expected. cbn [assoc]. rewrite U. destruct (assoc m (owned k)); [discriminate|].
      destruct (assoc m specials) as [g|].
      - apply Nat.eqb_eq in V. subst g. rewrite (not_memf f P NP). reflexivity.
      - destruct (index_of m guards 0) as [g|] eqn:EI; [|reflexivity]. apply Nat.eqb_eq in V. subst g.
        rewrite (not_memf f P NP), (not_memf f Q NQ). cbn [orb]. apply (guards_free m f). exact EI. }
    destruct (plain_run c d (mentioned c) ms0 ms r [] S1 (fun z Z => Z) AG RUN) as (r' & RUN' & AR & UN).
    rewrite RUN'. exists r', [], [f]. cbn [app]. split; [reflexivity|]. split.
    { intros m. destruct (in_dec Pos.eq_dec m (mentioned c)) as [I|NI].
      - rewrite <- (AR m I). specialize (S2 m I). apply andb_true_iff in S2. destruct S2 as (U & V).
        unfold untouchable in U. apply andb_true_iff in U. destruct U as (U & W). apply negb_true_iff in U.
        unfold expected. cbn [assoc]. rewrite U. destruct (assoc m (owned k)) eqn:EO; [discriminate|].
        destruct (assoc m specials) as [g|] eqn:ES.
        + apply Nat.eqb_eq in V. subst g. rewrite memf_cons, Nat.eqb_refl. cbn [orb]. unfold settled. rewrite E, RUN. reflexivity.
        + destruct (index_of m guards 0) as [g|] eqn:EI.
          * apply Nat.eqb_eq in V. subst g. rewrite memf_cons, Nat.eqb_refl. cbn [orb].
            pose proof (index_guard m f c EI E) as X. rewrite X in G. injection G as ->. exact RG.
          * rewrite (AR m I). assert (ND : ~ In m (defines c)).
            { intros X. specialize (S4 m X). rewrite ES, EI in S4. discriminate. }
            rewrite (UN m ND). symmetry. apply AG. exact I.
      - rewrite (UN m) by (intros X; apply NI; apply mentioned_defines; exact X). rewrite M.
        unfold expected. cbn [assoc]. destruct (memb m temps); [reflexivity|].
        destruct (assoc m (owned k)) as [[[g v]|]|] eqn:EO; [|reflexivity|].
        + rewrite memf_cons. destruct (Nat.eqb_spec g f) as [->|]; [|reflexivity]. rewrite (OW _ _ _ EO) in SP. discriminate.
        + destruct (assoc m specials) as [g|] eqn:ES.
          * rewrite memf_cons. destruct (Nat.eqb_spec g f) as [->|]; [|reflexivity].
            apply assoc_in in ES. specialize (S3 _ ES). cbn [fst snd] in S3. rewrite Nat.eqb_refl in S3. apply memb_in in S3. contradiction.
          * destruct (index_of m guards 0) as [g|] eqn:EI; [|reflexivity].
            rewrite memf_cons. destruct (Nat.eqb_spec g f) as [->|]; [|reflexivity].
            pose proof (index_guard m f c EI E) as X. exfalso. apply NI.
            destruct c as [|x c|x y n c]; try discriminate. destruct x; try discriminate. destruct x; try discriminate.
            cbn [guard_of] in X. injection X as ->. left. reflexivity. }
    split; [constructor; [intros []|constructor]|]. split.
    { intros g [<-|[]]. split; [exact NP|]. split; [lia|]. rewrite has_bit_setbit, Nat.eqb_refl. reflexivity. }
    assert (LH : (f < length headers)%nat) by (apply nth_error_Some; rewrite E; discriminate).
    split.
    { intros g [<-|X].
      - split; [exact A|]. split; [exact LH|]. rewrite (entries_special f SP). cbn [e_all]. intros h H.
        rewrite has_bit_setbit, has_bit_0, orb_false_r in H. apply Nat.eqb_eq in H. subst. left. reflexivity.
      - destruct (C g X) as (X1 & X2 & X3). split; [exact X1|]. split; [exact X2|]. intros h H. right. apply X3. exact H. }
    split.
    { intros h H. rewrite has_bit_setbit, has_bit_0, orb_false_r in H. apply Nat.eqb_eq in H. subst. left. reflexivity. }
    split.
    { intros pre _ _ l1 n l2 X. destruct l1; discriminate. }
    split.
    { unfold owns, contents. cbn. rewrite (entries_special f SP). reflexivity. }
    intros g [].
Qed.

(** ** The other files *)

Definition prepend (l : list file) (r : code) : code := fold_right (fun h c => Include h ;; c) r l.
Lemma front_prepend : forall c l r, front c = (l, r) -> c = prepend l r.
Proof.
  induction c as [|x c IH|x y IHy n IHn c IH]; intros l r H; cbn [front] in H; try (injection H as <- <-; reflexivity).
  destruct x; try (injection H as <- <-; reflexivity). destruct (front c) as [l' r'] eqn:E. injection H as <- <-.
  cbn [prepend fold_right]. f_equal. apply IH. reflexivity.
Qed.
Lemma preprocess_prepend : forall l r d ms, preprocess headers d (prepend l r) ms =
  match preprocess headers d (includes l) ms with
  | Some (ms1, o1) => match preprocess headers d r ms1 with Some (ms2, o2) => Some (ms2, o1 ++ o2) | None => None end
  | None => None
  end.
Proof.
  induction l as [|g l IH]; intros r d ms.
  - cbn [prepend includes fold_right]. rewrite preprocess_done. destruct (preprocess headers d r ms) as [[? ?]|]; reflexivity.
  - cbn [prepend includes fold_right]. fold (prepend l r). fold (includes l). rewrite !preprocess_do.
    destruct (one d (Include g) ms) as [[ms1 o1]|]; [|reflexivity]. rewrite IH.
    destruct (preprocess headers d (includes l) ms1) as [[ms2 o2]|]; [|reflexivity].
    destruct (preprocess headers d r ms2) as [[ms3 o3]|]; [|reflexivity]. rewrite app_assoc. reflexivity.
Qed.
Lemma ran_bound : forall res P Q L K o0 o b b', ran res P Q L K o0 o b -> (b <= b')%nat -> ran res P Q L K o0 o b'.
Proof.
  intros res P Q L K o0 o b b' (ms1 & o1 & new1 & R1 & M1 & N1 & G1 & C1 & I1 & U1 & E1 & F1) H.
  exists ms1, o1, new1. split; [exact R1|]. split; [exact M1|]. split; [exact N1|]. split.
  { intros g X. destruct (G1 g X) as (Y & Z & W). split; [exact Y|]. split; [lia|exact W]. }
  split; [exact C1|]. split; [exact I1|]. split; [exact U1|]. split; [exact E1|].
  intros g X. destruct (F1 g X). split; [auto|lia].
Qed.

Lemma close_file : forall f P Q L x, memf f special = false -> local_ok f L -> stays k f L = true ->
  expected P (f :: Q) L x = expected (f :: P) Q [] x.
Proof.
  intros f P Q L x NS O S. unfold stays in S. apply andb_true_iff in S. destruct S as (S1 & S2). rewrite forallb_forall in S1, S2.
  destruct mok_parts as (_ & US & _). unfold expected. cbn [assoc].
  destruct (assoc x L) as [v|] eqn:EL.
  - assert (T : memb x temps = false).
    { apply assoc_in in EL. apply S1 in EL. apply negb_true_iff in EL. exact EL. }
    rewrite T. destruct (O _ _ EL) as [X|X]; [congruence|]. rewrite X. rewrite memf_cons, Nat.eqb_refl. reflexivity.
  - destruct (memb x temps); [reflexivity|]. destruct (assoc x (owned k)) as [[[g v]|]|] eqn:EO; [|reflexivity|].
    + rewrite memf_cons. destruct (Nat.eqb_spec g f) as [->|]; [|reflexivity].
      apply assoc_in in EO. apply S2 in EO. cbn [fst snd] in EO. rewrite Nat.eqb_refl, EL in EO. discriminate.
    + destruct (assoc x specials) as [g|] eqn:ES.
      * rewrite memf_cons. destruct (Nat.eqb_spec g f) as [->|]; [|reflexivity]. destruct (US _ _ ES). congruence.
      * destruct (index_of x guards 0) as [g|]; [|reflexivity]. rewrite !memf_cons.
        destruct (Nat.eqb g f), (memf g P), (memf g Q); reflexivity.
Qed.

Lemma file_ok_step : forall f, (forall g, (g < f)%nat -> file_ok g) -> (f < length headers)%nat -> memf f special = false -> file_ok f.
Proof.
  intros f IH LH NS d c ms P Q E A C R HQ M D.
  pose proof (entries f c E A NS) as EN. unfold enter in EN.
  destruct (front c) as [l r] eqn:EF. apply front_prepend in EF. subst c.
  set (a0 := mkfound (bits (requires f)) [] [] 0) in *.
  destruct (follow k forb prov t f (includes l) a0) as [a|] eqn:EI; [|discriminate].
  destruct (includes_mono f ltac:(lia) l a0 a EI eq_refl) as (D0 & B0 & L0 & W0). cbn in W0.
  assert (I0 : inP (a_known a0) P).
  { intros h X. cbn in X. rewrite has_bits in X. apply memf_in in X. auto. }
  rewrite preprocess_prepend. change (@nil event) with (@nil event ++ []).
  assert (FIRST : (a_depth a <= d)%nat -> ran (preprocess headers d (includes l) ms) P Q [] (a_known a) [] [] (S f)).
  { intros DA. eapply ran_bound; [|apply Nat.le_succ_diag_r].
    destruct (includes_ok f IH ltac:(lia) l a0 a d ms P Q EI eq_refl) as (_ & _ & _ & _ & X); auto.
    intros q Y. apply HQ in Y. lia. }
  assert (CASES : r = Done /\ t f = mkentry (a_known a) [] (a_depth a)
     \/ exists m body b, r = If (Not (Defined m)) (Do (Define m 0) body) Done Done
        /\ follow k forb prov t f body a = Some b /\ stays k f (a_local b) = true
        /\ t f = mkentry (N.setbit (a_known b) (N.of_nat f)) (a_own b) (a_depth b)).
  { clear - EN. destruct r as [|x r|x y n r]; [left; injection EN as <-; auto|discriminate|].
    right. destruct x; try discriminate. destruct x; try discriminate. destruct y as [|x y|]; try discriminate.
    destruct x; try discriminate. destruct v; try discriminate. destruct n; try discriminate. destruct r; try discriminate.
    destruct (Pos.eqb_spec m m0) as [->|]; [|discriminate].
    destruct (follow k forb prov t f y a) as [b|] eqn:E; [|discriminate].
    destruct (stays k f (a_local b)) eqn:S; [|discriminate]. injection EN as <-.
    exists m0, y, b. auto. }
  clear EN. destruct CASES as [(-> & T)|(m & body & b & -> & FB & ST & T)]; rewrite T in *; cbn [e_all e_own e_depth] in *.
  - eapply ran_app; [apply FIRST; exact D| |intros h X; exact X].
    intros ms1 new M1 C1 I1 L1. rewrite preprocess_done. apply ran_nothing; [assumption|assumption|assumption|discriminate|discriminate|cbn; lia].
  - destruct (follow_mono f ltac:(lia) body a b FB) as (DB & BB).
    assert (G : guard_of (prepend l (If (Not (Defined m)) (Do (Define m 0) body) Done Done)) = Some m).
    { clear. induction l as [|g l IH]; [reflexivity|exact IH]. }
    eapply ran_app; [apply FIRST; lia| |].
    2:{ intros h X. rewrite has_bit_setbit, (BB h X). apply orb_true_r. }
    intros ms1 new M1 C1 I1 L1. cbn [app]. rewrite preprocess_if. cbn [holds]. unfold is_defined.
    rewrite M1, (expected_guard _ _ _ _ _ E G).
    assert (NQ : ~ In f Q) by (intros X; apply HQ in X; lia). rewrite (not_memf f Q NQ), orb_false_r.
    destruct (memf f (new ++ P)) eqn:EP; cbn [negb].
    + apply memf_in in EP. rewrite !preprocess_done. cbn [app].
      apply ran_nothing; [assumption|assumption| |discriminate|discriminate|cbn; lia].
      destruct (C1 f EP) as (_ & _ & X). rewrite T in X. exact X.
    + assert (NP : ~ In f (new ++ P)) by (intros X; apply memf_in in X; congruence).
      rewrite preprocess_do. cbn [one]. rewrite M1, (expected_guard _ _ _ _ _ E G), EP, (not_memf f Q NQ). cbn [orb].
      set (ms2 := define ms1 m 0).
      assert (M2 : forall x, ms2 x = expected (new ++ P) (f :: Q) (a_local a) x).
      { intros x. rewrite L0. unfold ms2, define. destruct (Pos.eqb_spec x m) as [->|NE].
        - rewrite (expected_guard _ _ _ _ _ E G). rewrite memf_cons, Nat.eqb_refl. cbn [orb]. rewrite orb_true_r. reflexivity.
        - rewrite M1. unfold expected. cbn [assoc]. destruct (memb x temps); [reflexivity|].
          destruct (assoc x (owned k)) as [[[g v]|]|]; [reflexivity|reflexivity|].
          destruct (assoc x specials); [reflexivity|]. destruct (index_of x guards 0) as [g|] eqn:EG; [|reflexivity].
          rewrite memf_cons. destruct (Nat.eqb_spec g f) as [->|]; [|reflexivity].
          rewrite (index_guard x f _ EG E) in G. injection G as ->. contradiction. }
      destruct (follow_ok f IH ltac:(lia) body a b d ms2 (new ++ P) (f :: Q) FB NP) as (_ & _ & OB & own & W & RB); auto.
      { intros q [<-|X]; [lia|]. apply HQ in X. lia. }
      { rewrite L0. intros x v X. discriminate. }
      rewrite W0 in W. cbn [app] in W. rewrite W0 in RB. subst own.
      destruct RB as (ms3 & o & new2 & R3 & M3 & N3 & G3 & C3 & I3 & U3 & E3 & F3). rewrite R3. rewrite preprocess_done.
      exists ms3, o, (f :: new2). rewrite app_nil_r. cbn [app]. split; [reflexivity|]. split.
      { intros x. rewrite M3. apply close_file; auto. }
      split.
      { constructor; [|exact N3]. intros X. apply G3 in X. lia. }
      split.
      { intros g [<-|X].
        - split; [exact NP|]. split; [lia|]. rewrite has_bit_setbit, Nat.eqb_refl. reflexivity.
        - destruct (G3 g X) as (Y & Z & V). split; [exact Y|]. split; [lia|]. rewrite has_bit_setbit, V. apply orb_true_r. }
      assert (IK : inP (N.setbit (a_known b) (N.of_nat f)) (f :: new2 ++ new ++ P)).
      { intros h X. rewrite has_bit_setbit in X. apply orb_true_iff in X. destruct X as [X|X].
        - apply Nat.eqb_eq in X. left. exact X.
        - right. apply I3. exact X. }
      split.
      { intros g [<-|X].
        - split; [exact A|]. split; [exact LH|]. rewrite T. exact IK.
        - destruct (C3 g X) as (Y & Z & V). split; [exact Y|]. split; [exact Z|]. intros h HH. right. apply V. exact HH. }
      split; [exact IK|]. split.
      { intros pre S O. apply U3; [exact S|exact O]. }
      split.
      { rewrite E3. unfold owns. cbn [flat_map]. rewrite T. reflexivity. }
      intros g X. destruct (F3 g X). split; [auto|lia].
Qed.

Lemma all_files_ok : forall f, (f < length headers)%nat -> file_ok f.
Proof.
  intros f. induction f as [f IH] using (well_founded_induction lt_wf). intros L.
  destruct (memf f special) eqn:S; [apply special_file_ok; exact S|].
  apply file_ok_step; auto. intros g LG. apply IH; [exact LG|lia].
Qed.

(** ** A list of headers *)

Definition includable (f : file) : Prop := (f < length headers)%nat /\ allowed f /\ requires f = [].
Lemma follow_list : forall hs a, Forall includable hs -> a_local a = [] ->
  (forall f, In f hs -> (e_depth (t f) <= 13)%nat) ->
  exists a', follow k forb prov t (length headers) (includes hs) a = Some a'
    /\ (a_depth a' <= Nat.max (a_depth a) 14)%nat
    /\ (forall h, has_bit (a_known a') h = has_bit (a_known a) h || existsb (fun g => has_bit (e_all (t g)) h) hs).
Proof.
  induction hs as [|g hs IH]; intros a F L D.
  - exists a. split; [reflexivity|]. split; [lia|]. intros h. cbn. rewrite orb_false_r. reflexivity.
  - inversion F as [|? ? (L1 & A1 & R1) F2]; subst. cbn [includes fold_right follow step].
    fold (includes hs).
    rewrite (proj2 (Nat.ltb_lt _ _) L1), A1, L, R1. cbn [negb andb forallb].
    set (a1 := mkfound (N.lor (a_known a) (e_all (t g))) [] (a_own a) (Nat.max (a_depth a) (S (e_depth (t g))))).
    destruct (IH a1 F2 eq_refl) as (a' & E & DD & K). { intros f X. apply D. right. exact X. }
    exists a'. split; [exact E|]. cbn in DD. pose proof (D g (or_introl eq_refl)). split; [lia|].
    intros h. rewrite K. cbn [a1 a_known existsb]. rewrite has_bit_lor, orb_assoc. reflexivity.
Qed.

Lemma list_ok : forall hs K d ms P, Forall includable hs -> (forall f, In f hs -> (e_depth (t f) <= 13)%nat) -> (14 <= d)%nat ->
  closed P -> inP K P -> (forall m, ms m = expected P [] [] m) ->
  exists K', (forall h, has_bit K' h = has_bit K h || existsb (fun g => has_bit (e_all (t g)) h) hs)
    /\ ran (preprocess headers d (includes hs) ms) P [] [] K' [] [] (length headers).
Proof.
  intros hs K d ms P F D LD C I M.
  destruct (follow_list hs (mkfound K [] [] 0) F eq_refl D) as (a' & E & DD & KK). cbn in DD.
  exists (a_known a'). split; [exact KK|].
  destruct (includes_ok (length headers) (fun g L => all_files_ok g L) (le_n _) hs _ a' d ms P [] E eq_refl) as (_ & _ & _ & _ & X); auto.
  - intros q [].
  - lia.
Qed.
End Sound.
