(** Proofs about BOOST_METAPARSE_STRING and the script that generates it. *)

From Coq Require Import ZArith List Bool Lia Sorted.
From Verif Require Import Base Strings Proofs_Strings.
Import ListNotations.
Open Scope Z_scope.

(** ** make_string *)

Lemma take_spec : forall n, 1 <= n ->
  1 <= take n <= n /\ existsb (Z.eqb (take n)) steps = true.
Proof.
  intros n Hn. unfold take.
  repeat match goal with
  | |- context [?a <=? ?b] => destruct (Z.leb_spec a b)
  end; try (split; [lia|reflexivity]). lia.
Qed.

Lemma take_0 : take 0 = 0.
Proof. reflexivity. Qed.

Lemma firstn_add : forall (A : Type) (n m : nat) (l : list A),
  firstn n l ++ firstn m (skipn n l) = firstn (n + m) l.
Proof.
  induction n as [|n IH]; intros m l; [reflexivity|].
  destruct l as [|x l]; cbn; [now rewrite firstn_nil|]. now rewrite IH.
Qed.

Lemma make_string_spec : forall fuel len cs, 0 <= len -> len < Z.of_nat fuel ->
  make_string fuel (take len) (len - take len) cs =
  if len <=? Z.of_nat (length cs) then Some (firstn (Z.to_nat len) cs) else None.
Proof.
  induction fuel as [|fuel IH]; intros len cs H0 Hf; [lia|].
  cbn [make_string].
  destruct (Z.eqb_spec len 0) as [->|Hlen].
  - change (Some (@nil char) = if 0 <=? Z.of_nat (length cs) then Some (@nil char) else None).
    destruct (Z.leb_spec 0 (Z.of_nat (length cs))); [reflexivity|lia].
  - pose proof (take_spec len ltac:(lia)) as [Ht Hs].
    destruct (Z.eqb_spec (take len) 0) as [E|_]; [lia|].
    rewrite Hs. cbn [andb].
    destruct (Z.leb_spec (take len) (Z.of_nat (length cs))).
    + rewrite IH by lia. rewrite skipn_length.
      destruct (Z.leb_spec (len - take len) (Z.of_nat (length cs - Z.to_nat (take len)))),
        (Z.leb_spec len (Z.of_nat (length cs))); try lia; [|reflexivity].
      unfold concat_11. rewrite firstn_add. do 2 f_equal. lia.
    + destruct (Z.leb_spec len (Z.of_nat (length cs))); [lia|reflexivity].
Qed.

(** ** The index macros *)

Lemma xrange_1_length : forall a b, length (xrange a b 1) = Z.to_nat (b - a).
Proof.
  intros. unfold xrange. rewrite map_length, seq_length.
  rewrite Z.div_1_r. f_equal. lia.
Qed.

Lemma xrange_1_app : forall a b c, a <= b <= c -> xrange a b 1 ++ xrange b c 1 = xrange a c 1.
Proof.
  intros a b c H. unfold xrange. rewrite !Z.div_1_r.
  replace (Z.to_nat (c - a + 1 - 1))
    with (Z.to_nat (b - a + 1 - 1) + Z.to_nat (c - b + 1 - 1))%nat by lia.
  rewrite seq_app, map_app. f_equal.
  rewrite Nat.add_0_l.
  assert (G : forall k s t, (Z.of_nat t = Z.of_nat s + (b - a))%Z ->
    map (fun i => b + Z.of_nat i * 1) (seq s k) = map (fun i => a + Z.of_nat i * 1) (seq t k)).
  { induction k as [|k IH]; intros s t E; [reflexivity|]. cbn [seq map]. f_equal; [lia|].
    apply IH. lia. }
  apply G. lia.
Qed.

Lemma index_strs_spec : forall limits prev,
  0 <= prev -> (forall l, In l limits -> prev < l) -> StronglySorted Z.lt limits ->
  (forall n idx, In (n, idx) (index_strs (xrange 0 prev 1) prev limits) -> idx = xrange 0 n 1) /\
  (forall n, In n limits -> exists idx, In (n, idx) (index_strs (xrange 0 prev 1) prev limits)).
Proof.
  induction limits as [|l limits IH]; intros prev Hp Hlt Hs; cbn [index_strs].
  - split; cbn; [tauto|tauto].
  - inversion Hs as [|x y Hs' Hall]; subst.
    assert (Hl : prev < l) by (apply Hlt; now left).
    rewrite xrange_1_app by lia.
    rewrite Forall_forall in Hall.
    destruct (IH l ltac:(lia) Hall Hs') as [A B].
    split.
    + intros n idx [E|E]; [now injection E as <- <-|now apply A].
    + intros n [<-|Hn]; [eexists; left; reflexivity|].
      destruct (B n Hn) as [idx Hi]. exists idx. now right.
Qed.

(** Limits as the script generates them. *)
Definition good_limits (limits : list Z) : Prop :=
  StronglySorted Z.lt limits /\ forall l, In l limits -> 0 < l.

Lemma index_str_spec : forall limits n, good_limits limits -> In n limits ->
  index_str limits n = Some (xrange 0 n 1).
Proof.
  intros limits n [Hs Hpos] Hn. unfold index_str.
  destruct (index_strs_spec limits 0 ltac:(lia) Hpos Hs) as [A B].
  change (xrange 0 0 1) with (@nil Z) in A, B.
  destruct (find (fun e => fst e =? n) (index_strs [] 0 limits)) as [[m idx]|] eqn:E.
  - apply find_some in E. destruct E as [Hi Hm]. cbn [fst snd] in *.
    apply Z.eqb_eq in Hm. subst m. f_equal. now apply A.
  - destruct (B n Hn) as [idx Hi]. exfalso.
    pose proof (find_none _ _ E _ Hi) as H. cbn [fst] in H.
    rewrite Z.eqb_refl in H. discriminate.
Qed.

Lemma fold_left_max_spec : forall l x,
  let m := fold_left Z.max l x in
  (In m (x :: l)) /\ forall y, In y (x :: l) -> y <= m.
Proof.
  induction l as [|a l IH]; intros x; cbn [fold_left].
  - split; [now left|]. intros y [->|[]]. lia.
  - destruct (IH (Z.max x a)) as [A B]. cbn zeta in A, B. split.
    + destruct A as [A|A]; [|now right; right].
      rewrite <- A. destruct (Z.max_spec x a) as [[_ ->]|[_ ->]]; [right; now left|now left].
    + intros y [->|[->|H]].
      * etransitivity; [apply Z.le_max_l|]. apply B. now left.
      * etransitivity; [apply Z.le_max_r|]. apply B. now left.
      * apply B. now right.
Qed.

Lemma fold_left_min_spec : forall l x,
  let m := fold_left Z.min l x in
  (In m (x :: l)) /\ forall y, In y (x :: l) -> m <= y.
Proof.
  induction l as [|a l IH]; intros x; cbn [fold_left].
  - split; [now left|]. intros y [->|[]]. lia.
  - destruct (IH (Z.min x a)) as [A B]. cbn zeta in A, B. split.
    + destruct A as [A|A]; [|now right; right].
      rewrite <- A. destruct (Z.min_spec x a) as [[_ ->]|[_ ->]]; [now left|right; now left].
    + intros y [->|[->|H]].
      * etransitivity; [apply B; now left|]. apply Z.le_min_l.
      * etransitivity; [apply B; now left|]. apply Z.le_min_r.
      * apply B. now right.
Qed.

Lemma py_max_spec : forall l m, py_max l = Some m <-> In m l /\ forall y, In y l -> y <= m.
Proof.
  intros [|x l] m; cbn [py_max].
  - split; [discriminate|intros [[] _]].
  - destruct (fold_left_max_spec l x) as [A B]. cbn zeta in A, B.
    split.
    + intro H. injection H as <-. auto.
    + intros [H1 H2]. f_equal. specialize (B m H1). specialize (H2 _ A). lia.
Qed.

Lemma py_min_spec : forall l m, py_min l = Some m <-> In m l /\ forall y, In y l -> m <= y.
Proof.
  intros [|x l] m; cbn [py_min].
  - split; [discriminate|intros [[] _]].
  - destruct (fold_left_min_spec l x) as [A B]. cbn zeta in A, B.
    split.
    + intro H. injection H as <-. auto.
    + intros [H1 H2]. f_equal. specialize (B m H1). specialize (H2 _ A). lia.
Qed.

Lemma index_macro_spec : forall limits limit max_limit,
  py_max limits = Some max_limit -> limit <= max_limit ->
  exists n, index_macro limits limit = Some n /\ In n limits /\ limit <= n.
Proof.
  intros limits limit m Hm Hle. apply py_max_spec in Hm. destruct Hm as [Hin _].
  unfold index_macro.
  assert (F : In m (filter (fun l => limit <=? l) limits)).
  { apply filter_In. split; [exact Hin|]. now apply Z.leb_le. }
  destruct (py_min (filter (fun l => limit <=? l) limits)) as [n|] eqn:E.
  - exists n. split; [reflexivity|]. apply py_min_spec in E. destruct E as [E _].
    apply filter_In in E. destruct E as [E1 E2]. apply Z.leb_le in E2. auto.
  - destruct (filter (fun l => limit <=? l) limits); [destruct F|discriminate].
Qed.

(** ** string_at *)

Lemma all_some_map : forall (A B : Type) (f : A -> option B) (g : A -> B) l,
  (forall x, In x l -> f x = Some (g x)) -> all_some (map f l) = Some (map g l).
Proof.
  intros A B f g. induction l as [|x l IH]; intros H; [reflexivity|].
  cbn [map all_some]. rewrite H by now left. rewrite IH; [reflexivity|].
  intros y Hy. apply H. now right.
Qed.

Lemma chars_of_literal : forall (lit : str) n, (length lit <= n)%nat ->
  map (fun i => if Z.of_nat (length lit) + 1 - 1 <=? i then 0 else nth (Z.to_nat i) lit 0)
    (xrange 0 (Z.of_nat n) 1) = lit ++ repeat 0 (n - length lit).
Proof.
  intros lit n Hn. unfold xrange. rewrite Z.div_1_r, map_map.
  replace (Z.to_nat (Z.of_nat n - 0 + 1 - 1)) with (length lit + (n - length lit))%nat by lia.
  rewrite seq_app, map_app. f_equal.
  - clear Hn. rewrite (map_ext_in _ (fun i => nth i lit 0)).
    + induction lit as [|c lit IH]; [reflexivity|].
      cbn [length seq map nth]. f_equal. rewrite <- seq_shift, map_map. exact IH.
    + intros i Hi. apply in_seq in Hi.
      destruct (Z.leb_spec (Z.of_nat (length lit) + 1 - 1) (0 + Z.of_nat i * 1)); [slia|].
      f_equal. lia.
  - rewrite (map_ext_in _ (fun i => 0)).
    + rewrite Nat.add_0_l. generalize (length lit) at 1. generalize (n - length lit)%nat.
      clear. induction n as [|n IH]; intro k; [reflexivity|]. cbn [seq map repeat]. f_equal. apply IH.
    + intros i Hi. apply in_seq in Hi.
      destruct (Z.leb_spec (Z.of_nat (length lit) + 1 - 1) (0 + Z.of_nat i * 1)); [reflexivity|slia].
Qed.

Lemma metaparse_string_spec : forall limits max_limit limit lit,
  good_limits limits -> py_max limits = Some max_limit ->
  metaparse_string limits limit lit =
  if (limit <=? max_limit) && (Z.of_nat (length lit) <=? limit)
  then Some lit else None.
Proof.
  intros limits m limit lit Hg Hm. unfold metaparse_string. rewrite Hm.
  destruct (Z.ltb_spec m limit), (Z.leb_spec limit m); try lia; [reflexivity|].
  destruct (index_macro_spec limits limit m Hm ltac:(lia)) as [n [E [Hin Hn]]].
  rewrite E, (index_str_spec limits n Hg Hin). cbn [andb].
  assert (Hpos : 0 < n) by (apply Hg; exact Hin).
  destruct (Z.leb_spec (Z.of_nat (length lit)) limit).
  - rewrite (all_some_map _ _ _
      (fun i => if Z.of_nat (length lit) + 1 - 1 <=? i then 0 else nth (Z.to_nat i) lit 0)).
    2: { intros i _. unfold string_at.
         destruct (Z.leb_spec (Z.of_nat (length lit) + 1) (limit + 1)); [reflexivity|lia]. }
    replace n with (Z.of_nat (Z.to_nat n)) by lia.
    rewrite chars_of_literal by lia.
    rewrite make_string_spec by lia. rewrite app_length.
    match goal with |- context [?a <=? ?b] => destruct (Z.leb_spec a b) end; [|slia].
    rewrite Nat2Z.id, firstn_app, firstn_all, Nat.sub_diag. cbn [firstn].
    now rewrite app_nil_r.
  - assert (L : length (xrange 0 n 1) = Z.to_nat (n - 0)) by apply xrange_1_length.
    destruct (xrange 0 n 1) as [|i idx]; [cbn in L; lia|].
    cbn [map all_some]. unfold string_at at 1.
    destruct (Z.leb_spec (Z.of_nat (length lit) + 1) (limit + 1)); [lia|reflexivity].
Qed.

(** ** length_limits *)

Lemma length_limits_In : forall max step l, 0 < step ->
  In l (length_limits max step) <-> exists i, 0 < i /\ l = i * step /\ l < max + step - 1.
Proof.
  intros max step l Hstep. unfold length_limits, xrange. rewrite in_map_iff.
  set (k := (max + step - 1 - step + step - 1) / step).
  assert (K : forall i, i + 1 <= k <-> (i + 1) * step < max + step - 1).
  { intro i. unfold k. split; intro H.
    - assert (step * (i + 1) <= max + step - 1 - step + step - 1); [|lia].
      etransitivity; [apply Z.mul_le_mono_nonneg_l; [lia|exact H]|].
      apply Z.mul_div_le. lia.
    - apply Z.div_le_lower_bound; lia. }
  split.
  - intros [i [<- Hi]]. apply in_seq in Hi. exists (Z.of_nat i + 1).
    split; [lia|]. split; [lia|]. specialize (K (Z.of_nat i)).
    assert (Z.of_nat i + 1 <= k) by lia. apply K in H. lia.
  - intros [i [Hi [-> Hlt]]]. exists (Z.to_nat (i - 1)). split; [|].
    + rewrite Z2Nat.id by lia. lia.
    + apply in_seq. specialize (K (i - 1)).
      replace (i - 1 + 1) with i in K by lia. apply K in Hlt. lia.
Qed.

Lemma length_limits_good : forall max step, 0 < step -> good_limits (length_limits max step).
Proof.
  intros max step Hstep. split.
  - unfold length_limits, xrange.
    generalize (Z.to_nat ((max + step - 1 - step + step - 1) / step)).
    generalize O. intros a n. revert a.
    induction n as [|n IH]; intro a; cbn [seq map]; constructor; [apply IH|].
    apply Forall_forall. intros x Hx. apply in_map_iff in Hx. destruct Hx as [i [<- Hi]].
    apply in_seq in Hi. nia.
  - intros l Hl. apply length_limits_In in Hl; [|exact Hstep].
    destruct Hl as [i [Hi [-> _]]]. nia.
Qed.

Lemma length_limits_max : forall max step, 0 < step -> 1 < max ->
  py_max (length_limits max step) = Some (step * ((max + step - 2) / step)).
Proof.
  intros max step Hstep Hmax. apply py_max_spec.
  assert (P : 1 <= (max + step - 2) / step) by (apply Z.div_le_lower_bound; lia).
  pose proof (Z.mul_div_le (max + step - 2) step Hstep) as Q.
  split.
  - apply length_limits_In; [exact Hstep|]. exists ((max + step - 2) / step). lia.
  - intros y Hy. apply length_limits_In in Hy; [|exact Hstep].
    destruct Hy as [i [Hi [-> Hlt]]].
    assert (i <= (max + step - 2) / step) by (apply Z.div_le_lower_bound; lia).
    rewrite Z.mul_comm. apply Z.mul_le_mono_nonneg_l; lia.
Qed.

Lemma length_limits_nil : forall max step, 0 < step -> max <= 1 -> length_limits max step = [].
Proof.
  intros max step Hstep Hmax.
  destruct (length_limits max step) as [|l ls] eqn:E; [reflexivity|].
  assert (H : In l (length_limits max step)) by (rewrite E; now left).
  apply length_limits_In in H; [|exact Hstep]. destruct H as [i [Hi [-> Hlt]]]. nia.
Qed.

Lemma limit_reached : forall max step, 0 < step -> 1 < max ->
  (max <= step * ((max + step - 2) / step) <-> (max - 1) mod step <> 0).
Proof.
  intros max step Hstep Hmax.
  replace (max + step - 2) with ((max - 1) - 1 + 1 * step) by lia.
  rewrite Z.div_add by lia.
  pose proof (Z.div_mod (max - 1) step ltac:(lia)) as D.
  pose proof (Z.mod_pos_bound (max - 1) step Hstep) as M.
  set (q := (max - 1) / step) in *. set (r := (max - 1) mod step) in *.
  destruct (Z.eq_dec r 0) as [E|E].
  - assert (F : (max - 1 - 1) / step = q - 1).
    { symmetry. apply Z.div_unique with (step - 1); [lia|]. nia. }
    rewrite F. split; [nia|lia].
  - assert (F : (max - 1 - 1) / step = q).
    { symmetry. apply Z.div_unique with (r - 1); [lia|]. lia. }
    rewrite F. split; [lia|]. intros _. nia.
Qed.
