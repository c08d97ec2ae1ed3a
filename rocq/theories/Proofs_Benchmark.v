(** Proofs about the benchmark tools. *)

From Coq Require Import ZArith List Bool Lia.
From Verif Require Import Base Messages Spec Benchmark SpecBenchmark.
Import ListNotations.
Open Scope Z_scope.

(** ** Characters *)

Ltac bools := repeat match goal with
  | H : _ && _ = true |- _ => apply andb_true_iff in H; destruct H
  | H : _ || _ = false |- _ => apply orb_false_iff in H; destruct H
  | H : (_ <=? _) = true |- _ => apply Z.leb_le in H
  | H : (_ =? _) = true |- _ => apply Z.eqb_eq in H
  | H : (_ =? _) = false |- _ => apply Z.eqb_neq in H
  end.

Lemma in_list_iff : forall c l, in_list c l = true <-> In c l.
Proof.
  intros c l. unfold in_list. rewrite existsb_exists. split.
  - intros (x & H & E). apply Z.eqb_eq in E. subst. exact H.
  - intros H. exists c. split; [exact H|apply Z.eqb_refl].
Qed.

(** The characters that are written as they are. *)
Definition plain (c : char) : Prop := c <> 34 /\ c <> 39 /\ c <> 92 /\ c <> 10.

Lemma format_cases : forall c : char,
  (format_character c = [c] /\ plain c)
  \/ (exists e, format_character c = [92; e] /\ escape e c)
  \/ format_character c = [92; 120; lower_hex (c / 16); lower_hex (c mod 16)].
Proof.
  intros c. unfold format_character.
  destruct (is_ascii_letter c || is_ascii_digit c
     || in_list c (literal "_.:; !?+-/=<>$()@~`|#[]{}&*^%")) eqn:A.
  - left. split; auto. unfold plain. apply orb_true_iff in A as [A|A].
    + unfold is_ascii_letter, is_ascii_digit in A. rewrite !orb_true_iff in A.
      destruct A as [[A|A]|A]; bools; lia.
    + apply in_list_iff in A. cbn in A.
      repeat (destruct A as [<-|A]; [lia|]). destruct A.
  - destruct (in_list c [34; 39; 92]) eqn:B.
    + right; left. exists c. split; auto. apply in_list_iff in B.
      destruct B as [<-|[<-|[<-|[]]]]; constructor.
    + destruct (c =? 10) eqn:C; [apply Z.eqb_eq in C; subst; right; left; eexists; split;
        [reflexivity|constructor]|].
      destruct (c =? 13) eqn:D; [apply Z.eqb_eq in D; subst; right; left; eexists; split;
        [reflexivity|constructor]|].
      destruct (c =? 9) eqn:E; [apply Z.eqb_eq in E; subst; right; left; eexists; split;
        [reflexivity|constructor]|].
      right; right; reflexivity.
Qed.

Lemma lower_hex_digit : forall d, 0 <= d <= 15 -> hex_digit (lower_hex d) d.
Proof.
  intros d H. unfold lower_hex. destruct (d <? 10) eqn:L.
  - apply Z.ltb_lt in L. apply hex_decimal. lia.
  - apply Z.ltb_ge in L. replace (87 + d) with (97 + (d - 10)) by lia. apply hex_lower. lia.
Qed.

Lemma two_digits : forall c, 0 <= c < 256 ->
  hex_number 0 [lower_hex (c / 16); lower_hex (c mod 16)] c.
Proof.
  intros c H. pose proof (Z.div_mod c 16 ltac:(lia)) as D.
  pose proof (Z.mod_pos_bound c 16 ltac:(lia)) as M.
  assert (Q : 0 <= c / 16 <= 15).
  { split; [apply Z.div_pos; lia|]. assert (c / 16 < 16) by (apply Z.div_lt_upper_bound; lia). lia. }
  eapply hex_more; [apply lower_hex_digit; lia|].
  eapply hex_more; [apply lower_hex_digit; lia|].
  replace (16 * (16 * 0 + c / 16) + c mod 16) with c by lia. constructor.
Qed.

Lemma format_simple : forall c : char, starts [92; 120] (format_character c) = false ->
  simple_body (format_character c) [c].
Proof.
  intros c H. destruct (format_cases c) as [(E & P)|[(e & E & P)|E]]; rewrite E in *.
  - destruct P as (? & ? & ? & ?). apply simple_plain; auto. constructor.
  - apply simple_escape; auto. constructor.
  - discriminate H.
Qed.

Lemma simple_app : forall w v cs ds, simple_body w cs -> simple_body v ds ->
  simple_body (w ++ v) (cs ++ ds).
Proof. induction 1; intros; cbn [app]; try constructor; auto. Qed.

Lemma simple_is_body : forall w cs, simple_body w cs -> string_body w cs.
Proof. induction 1; constructor; auto. Qed.

(** ** Choosing characters *)

Lemma total_cons : forall c n m, total ((c, n) :: m) = n + total m.
Proof. reflexivity. Qed.

Lemma total_count_total : forall m, total_count m = total m.
Proof.
  induction m as [|(c, n) m IH]; [reflexivity|]. rewrite total_cons, <- IH. reflexivity.
Qed.

Lemma counts_tail : forall c n m, counts ((c, n) :: m) ->
  0 <= n /\ counts m /\ forall k, ~ In (c, k) m.
Proof.
  intros c n m (ND & P). cbn in ND. inversion ND; subst. split; [apply (P c); left; auto|].
  split; [split; auto; intros; eapply P; right; eauto|].
  intros k H. apply H1. apply in_map_iff. exists (c, k). auto.
Qed.

Lemma total_nonneg : forall m, counts m -> 0 <= total m.
Proof.
  induction m as [|(c, n) m IH]; intros H; [cbn; lia|].
  apply counts_tail in H as (A & B & _). rewrite total_cons. specialize (IH B). lia.
Qed.

Lemma nth_char_in : forall m i, counts m -> 0 <= i < total m ->
  exists c n, nth_char m i = Some c /\ In (c, n) m /\ 0 < n.
Proof.
  induction m as [|(c, n) m IH]; intros i H B; [cbn in B; lia|].
  apply counts_tail in H as (A & C & _). rewrite total_cons in B. cbn [nth_char].
  destruct (i <? n) eqn:L.
  - apply Z.ltb_lt in L. exists c, n. repeat split; [left; auto|lia].
  - apply Z.ltb_ge in L. destruct (IH (i - n) C) as (d & k & E & I & P); [lia|].
    exists d, k. repeat split; auto. right; auto.
Qed.

Lemma numbers_below_add : forall a b, 0 <= a -> 0 <= b ->
  numbers_below (a + b) = numbers_below a ++ map (Z.add a) (numbers_below b).
Proof.
  intros a b A B. unfold numbers_below. rewrite Z2Nat.inj_add by lia.
  rewrite seq_app, map_app. f_equal. cbn [plus].
  rewrite map_map.
  assert (X : forall k n, map Z.of_nat (seq (k + n) (Z.to_nat b))
                = map (fun x => Z.of_nat k + Z.of_nat x) (seq n (Z.to_nat b))).
  { intros k. induction (Z.to_nat b) as [|q IH]; intros n; cbn [seq map]; [reflexivity|].
    f_equal; [lia|]. rewrite <- IH. f_equal. f_equal. lia. }
  replace (Z.to_nat a) with (Z.to_nat a + 0)%nat by lia. rewrite X.
  apply map_ext. intros x. lia.
Qed.

Lemma numbers_below_in : forall n i, In i (numbers_below n) <-> 0 <= i < n.
Proof.
  intros n i. unfold numbers_below. rewrite in_map_iff. split.
  - intros (k & <- & H). apply in_seq in H. lia.
  - intros H. exists (Z.to_nat i). split; [lia|]. apply in_seq. lia.
Qed.

Lemma numbers_below_length : forall n, length (numbers_below n) = Z.to_nat n.
Proof. intros n. unfold numbers_below. rewrite map_length, seq_length. reflexivity. Qed.

Definition chosen (m : char_map) (c : char) (i : Z) : bool :=
  match nth_char m i with Some d => d =? c | None => false end.

Lemma filter_all : forall A (f : A -> bool) l, (forall x, In x l -> f x = true) ->
  filter f l = l.
Proof.
  induction l as [|x l IH]; intros H; cbn; auto.
  rewrite (H x) by (left; auto). f_equal. apply IH. intros; apply H; right; auto.
Qed.
Lemma filter_none : forall A (f : A -> bool) l, (forall x, In x l -> f x = false) ->
  filter f l = [].
Proof.
  induction l as [|x l IH]; intros H; cbn; auto.
  rewrite (H x) by (left; auto). apply IH. intros; apply H; right; auto.
Qed.
Lemma filter_map_len : forall A B (g : A -> B) (f : B -> bool) l,
  length (filter f (map g l)) = length (filter (fun x => f (g x)) l).
Proof.
  induction l as [|x l IH]; cbn; auto. destruct (f (g x)); cbn; rewrite IH; reflexivity.
Qed.

Lemma nth_char_key : forall m i c, nth_char m i = Some c -> exists n, In (c, n) m.
Proof.
  induction m as [|(d, k) m IH]; intros i c H; [discriminate|]. cbn [nth_char] in H.
  destruct (i <? k).
  - injection H as ->. exists k. left; auto.
  - destruct (IH _ _ H) as (n & I). exists n. right; auto.
Qed.

Lemma chosen_count : forall m c n, counts m -> In (c, n) m ->
  length (filter (chosen m c) (numbers_below (total m))) = Z.to_nat n.
Proof.
  induction m as [|(d, k) m IH]; intros c n H I; [destruct I|].
  pose proof H as H0. apply counts_tail in H as (A & C & U).
  pose proof (total_nonneg m C) as T.
  rewrite total_cons, numbers_below_add, filter_app, app_length, filter_map_len by lia.
  assert (X : forall i, In i (numbers_below k) -> nth_char ((d, k) :: m) i = Some d).
  { intros i Hi. apply numbers_below_in in Hi. cbn [nth_char].
    replace (i <? k) with true by (symmetry; apply Z.ltb_lt; lia). reflexivity. }
  assert (Y : forall i, In i (numbers_below (total m)) ->
    nth_char ((d, k) :: m) (k + i) = nth_char m i).
  { intros i Hi. apply numbers_below_in in Hi. cbn [nth_char].
    replace (k + i <? k) with false by (symmetry; apply Z.ltb_ge; lia).
    f_equal. lia. }
  destruct I as [I|I].
  - injection I as -> ->. rewrite filter_all, numbers_below_length.
    + rewrite filter_none; [cbn; lia|]. intros i Hi. unfold chosen. rewrite (Y i Hi).
      destruct (nth_char m i) as [d|] eqn:E; auto. apply Z.eqb_neq. intros ->.
      destruct (nth_char_key _ _ _ E) as (q & Q). exact (U q Q).
    + intros i Hi. unfold chosen. rewrite (X i Hi). apply Z.eqb_refl.
  - rewrite filter_none; cbn [length plus].
    + rewrite <- (IH c n C I). f_equal. apply filter_ext_in. intros i Hi.
      unfold chosen. rewrite (Y i Hi). reflexivity.
    + intros i Hi. unfold chosen. rewrite (X i Hi). apply Z.eqb_neq. intros ->.
      exact (U n I).
Qed.

(** ** Random strings *)

Lemma counts_filter : forall f m, counts m -> counts (filter f m).
Proof.
  intros f m (N & P). split.
  - clear P. induction m as [|kv m IH]; cbn; [constructor|]. cbn in N. inversion N; subst.
    destruct (f kv); cbn; auto. constructor; auto. intros H. apply H1.
    apply in_map_iff in H as (x & E & Hx). apply filter_In in Hx as (Hx & _).
    apply in_map_iff. exists x. auto.
  - intros c n H. apply filter_In in H as (H & _). eauto.
Qed.

Lemma random_chars_ok : forall m rnd, counts m ->
  Forall (fun i => 0 <= i < total_count (plain_characters m)) rnd ->
  exists l cs, random_chars m rnd = Some l /\ simple_body (concat l) cs
    /\ length cs = length rnd /\ Forall (fun c => exists n, In (c, n) m /\ 0 < n) cs.
Proof.
  intros m rnd C F. induction F as [|i rnd H F IH].
  - exists [], []. repeat split; constructor.
  - destruct IH as (l & cs & E & B & L & K). rewrite total_count_total in H.
    destruct (nth_char_in _ i (counts_filter _ _ C) H) as (c & n & Q & I & P).
    cbn [random_chars]. unfold plain_characters. rewrite Q, E.
    apply filter_In in I as (I & N). cbn [fst] in N. apply negb_true_iff in N.
    exists (format_character c :: l), (c :: cs). split; [reflexivity|]. split.
    + cbn [concat]. change (c :: cs) with ([c] ++ cs). apply simple_app; auto.
      apply format_simple. exact N.
    + split; [cbn; congruence|]. constructor; eauto.
Qed.

(** ** Converting *)

Lemma starts_app : forall p s, starts p (p ++ s) = true.
Proof. induction p as [|c p IH]; intros s; cbn; auto. rewrite Z.eqb_refl. apply IH. Qed.

Lemma starts_inv : forall p s, starts p s = true -> exists s', s = p ++ s'.
Proof.
  induction p as [|c p IH]; intros s H; [exists s; auto|].
  destruct s as [|d s]; [discriminate|]. cbn in H. apply andb_true_iff in H as (E & H).
  apply Z.eqb_eq in E. subst. destruct (IH _ H) as (s' & ->). exists s'. reflexivity.
Qed.

(** The first letter of the macro does not occur in the rest of it. *)
Lemma prefix_head : exists w, bmp_prefix = 66 :: w /\ ~ In 66 w.
Proof. eexists. split; [reflexivity|]. cbn. intuition discriminate. Qed.

(** The macro can not begin in a text without strings and end in what follows. *)
Lemma no_early : forall before s, no_string before ->
  find_prefix bmp_prefix (before ++ bmp_prefix ++ s) = Some (before, s).
Proof.
  intros before s. destruct prefix_head as (w & E & N).
  induction before as [|c before IH]; intros H.
  - cbn [app]. assert (X : find_prefix bmp_prefix (bmp_prefix ++ s)
      = Some ([], skipn (length bmp_prefix) (bmp_prefix ++ s))).
    { pose proof (starts_app bmp_prefix s) as Q.
      destruct (bmp_prefix ++ s); cbn [find_prefix]; rewrite Q; reflexivity. }
    rewrite X, skipn_app, skipn_all, Nat.sub_diag. reflexivity.
  - cbn [app find_prefix].
    destruct (starts bmp_prefix (c :: before ++ bmp_prefix ++ s)) eqn:S.
    + exfalso. apply starts_inv in S as (s' & S).
      destruct (Nat.le_gt_cases (length bmp_prefix) (length (c :: before))) as [L|L].
      * apply H. exists [], (skipn (length bmp_prefix) (c :: before)). cbn [app].
        assert (X : firstn (length bmp_prefix) ((c :: before) ++ bmp_prefix ++ s) = bmp_prefix).
        { change ((c :: before) ++ bmp_prefix ++ s) with (c :: before ++ bmp_prefix ++ s).
          rewrite S, firstn_app, Nat.sub_diag, firstn_all, firstn_O, app_nil_r. reflexivity. }
        rewrite firstn_app in X.
        replace (length bmp_prefix - length (c :: before))%nat with 0%nat in X by lia.
        rewrite firstn_O, app_nil_r in X.
        change (text "BOOST_METAPARSE_STRING(""") with bmp_prefix.
        rewrite <- X at 1. rewrite firstn_skipn. reflexivity.
      * (* the letter B of the next macro would be inside this one *)
        assert (X : nth_error (c :: before ++ bmp_prefix ++ s) (length (c :: before)) = Some 66).
        { change (c :: before ++ bmp_prefix ++ s) with ((c :: before) ++ bmp_prefix ++ s).
          rewrite nth_error_app2, Nat.sub_diag by lia. rewrite E. reflexivity. }
        rewrite S in X. rewrite nth_error_app1 in X by lia.
        rewrite E in X. cbn [length nth_error] in X. apply N.
        eapply nth_error_In; eauto.
    + rewrite IH; auto. intros (a & b & Q). apply H. exists (c :: a), b. rewrite Q. reflexivity.
Qed.

Lemma find_none : forall s, no_string s -> find_prefix bmp_prefix s = None.
Proof.
  induction s as [|c s IH]; intros H; cbn [find_prefix].
  - destruct prefix_head as (w & E & _). rewrite E. reflexivity.
  - destruct (starts bmp_prefix (c :: s)) eqn:S.
    + exfalso. apply starts_inv in S as (s' & S). apply H. exists [], s'. exact S.
    + rewrite IH; auto. intros (a & b & Q). apply H. exists (c :: a), b. rewrite Q. reflexivity.
Qed.

Lemma scan_simple : forall b cs, simple_body b cs -> forall comma rest, exists args,
  scan_literal false comma (b ++ 34 :: 41 :: rest) = (args, rest)
  /\ (cs = [] -> args = [])
  /\ (cs <> [] -> exists v, args = comma ++ v /\ arguments v cs).
Proof.
  induction 1 as [|c w cs A B C D H IH|e c w cs E H IH]; intros comma rest.
  - exists []. split; [reflexivity|]. split; [auto|congruence].
  - destruct (IH [44] rest) as (args & S & Z0 & Z1).
    cbn [app scan_literal].
    rewrite (proj2 (Z.eqb_neq c 34) A), (proj2 (Z.eqb_neq c 92) C), S.
    eexists. split; [reflexivity|]. split; [discriminate|]. intros _. eexists.
    split; [reflexivity|]. destruct cs as [|d cs].
    + rewrite (Z0 eq_refl). apply args_one. constructor; auto.
    + destruct (Z1 ltac:(discriminate)) as (v & -> & V).
      change (39 :: c :: 39 :: [44] ++ v) with ([39; c; 39] ++ 44 :: v).
      apply args_more; auto. constructor; auto.
  - destruct (IH [44] rest) as (args & S & Z0 & Z1).
    cbn [app scan_literal].
    change (92 =? 34) with false. change (92 =? 92) with true. cbv iota. rewrite S.
    eexists. split; [reflexivity|]. split; [discriminate|]. intros _. eexists.
    split; [reflexivity|]. destruct cs as [|d cs].
    + rewrite (Z0 eq_refl). apply args_one. constructor; auto.
    + destruct (Z1 ltac:(discriminate)) as (v & -> & V).
      change (39 :: 92 :: e :: 39 :: [44] ++ v) with ([39; 92; e; 39] ++ 44 :: v).
      apply args_more; auto. constructor; auto.
Qed.

Lemma convert_source : forall l tail base, source simple_macro_string l tail base ->
  forall n, (length l < n)%nat ->
  exists out, convert_loop n base = Some out /\ source template_string l tail out.
Proof.
  induction 1 as [tail N|before w cs l tail s N (b & -> & B) H IH]; intros n L;
    destruct n as [|n]; cbn [length] in L; try lia; cbn [convert_loop].
  - rewrite find_none by auto. eexists. split; [reflexivity|]. constructor. auto.
  - change (text "BOOST_METAPARSE_STRING(""") with bmp_prefix.
    rewrite <- !app_assoc. rewrite no_early by auto.
    destruct (scan_simple b cs B [] s) as (args & S & Z0 & Z1).
    change (34 :: 41 :: s) with (text """)" ++ s) in S. rewrite S.
    destruct (IH n) as (out & -> & O); [lia|].
    eexists. split; [reflexivity|].
    rewrite (app_assoc _ args), (app_assoc _ [62]), <- (app_assoc (literal _)).
    apply source_string; auto. exists args. split; [reflexivity|].
    destruct cs as [|c cs].
    + rewrite (Z0 eq_refl). constructor.
    + destruct (Z1 ltac:(discriminate)) as (v & -> & V). exact V.
Qed.

Lemma source_length : forall l tail base, source simple_macro_string l tail base ->
  (length l <= length base)%nat.
Proof.
  induction 1 as [tail N|before w cs l tail s N (b & -> & B) H IH]; cbn [length]; [lia|].
  rewrite !app_length. change (length (text "BOOST_METAPARSE_STRING(""")) with 24%nat. lia.
Qed.

(** ** The loop ends *)

Lemma find_prefix_shorter : forall p s a b, p <> [] -> find_prefix p s = Some (a, b) ->
  (length b < length s)%nat.
Proof.
  intros p s. induction s as [|c s IH]; intros a b N H.
  - destruct p; [congruence|discriminate].
  - cbn [find_prefix] in H. destruct (starts p (c :: s)) eqn:S.
    + injection H as <- <-. rewrite skipn_length. destruct p; [congruence|]. cbn [length]. lia.
    + destruct (find_prefix p s) as [(x, y)|]; [|discriminate]. injection H as <- <-.
      cbn [length]. specialize (IH _ _ N eq_refl). lia.
Qed.

Lemma scan_shorter : forall s wb comma r b, scan_literal wb comma s = (r, b) ->
  (length b <= length s)%nat.
Proof.
  induction s as [|c s IH]; intros wb comma r b H; cbn [scan_literal] in H.
  - injection H as <- <-. lia.
  - destruct wb; [|destruct (c =? 34); [|destruct (c =? 92)]].
    + destruct (scan_literal false [44] s) as (x, y) eqn:E. injection H as <- <-.
      cbn [length]. specialize (IH _ _ _ _ E). lia.
    + injection H as <- <-. destruct s; cbn [skipn length]; lia.
    + cbn [length]. specialize (IH _ _ _ _ H). lia.
    + destruct (scan_literal false [44] s) as (x, y) eqn:E. injection H as <- <-.
      cbn [length]. specialize (IH _ _ _ _ E). lia.
Qed.

Lemma convert_loop_ends : forall n base, (length base < n)%nat -> convert_loop n base <> None.
Proof.
  induction n as [|n IH]; intros base L; [lia|]. cbn [convert_loop].
  destruct (find_prefix bmp_prefix base) as [(a, b)|] eqn:F; [|discriminate].
  apply find_prefix_shorter in F; [|discriminate].
  destruct (scan_literal false [] b) as (r, nb) eqn:S. apply scan_shorter in S.
  assert (X : convert_loop n nb <> None) by (apply IH; lia).
  destruct (convert_loop n nb); [discriminate|congruence].
Qed.

(** ** Statistics *)

Lemma bump_keys : forall c m d, In d (map fst (bump c m)) <-> d = c \/ In d (map fst m).
Proof.
  intros c m d. induction m as [|(e, n) m IH]; cbn; [intuition|].
  destruct (e =? c) eqn:E; cbn.
  - apply Z.eqb_eq in E. subst. intuition.
  - rewrite IH. intuition.
Qed.

Lemma bump_nodup : forall c m, NoDup (map fst m) -> NoDup (map fst (bump c m)).
Proof.
  intros c m. induction m as [|(e, n) m IH]; cbn; intros N.
  - repeat constructor. intros [].
  - inversion N; subst. destruct (e =? c) eqn:E; cbn.
    + constructor; auto.
    + constructor; auto. intros H. apply bump_keys in H as [->|H]; auto.
      rewrite Z.eqb_refl in E. discriminate.
Qed.

Lemma entry_bump : forall c m d n, NoDup (map fst m) -> entry m d n ->
  entry (bump c m) d (if d =? c then n + 1 else n).
Proof.
  intros c m. induction m as [|(e, k) m IH]; intros d n N H.
  - destruct H as [[]|(-> & _)]. cbn. destruct (d =? c) eqn:E.
    + apply Z.eqb_eq in E. subst. left. left. reflexivity.
    + right. split; auto. intros k [Q|[]]. injection Q as -> _.
      rewrite Z.eqb_refl in E. discriminate.
  - cbn in N. inversion N; subst. cbn [bump].
    assert (KN : forall q, ~ In (e, q) m).
    { intros q Q. apply H2. apply in_map_iff. exists (e, q). auto. }
    destruct (e =? c) eqn:E.
    + apply Z.eqb_eq in E. subst e. destruct H as [[Q|Q]|(-> & Q)].
      * injection Q as <- <-. rewrite Z.eqb_refl. left. left. reflexivity.
      * destruct (d =? c) eqn:F; [apply Z.eqb_eq in F; subst; destruct (KN _ Q)|].
        left. right. exact Q.
      * destruct (d =? c) eqn:F; [apply Z.eqb_eq in F; subst; destruct (Q k); left; auto|].
        right. split; auto. intros q [X|X].
        -- injection X as -> _. rewrite Z.eqb_refl in F. discriminate.
        -- apply (Q q). right. exact X.
    + destruct H as [[Q|Q]|(-> & Q)].
      * injection Q as -> ->. rewrite E. left. left. reflexivity.
      * destruct (IH d n H3 (or_introl Q)) as [X|(X & Y)]; [left; right; exact X|].
        right. split; auto. intros q [Z0|Z0]; [|exact (Y q Z0)].
        injection Z0 as -> ->. exact (KN _ Q).
      * destruct (IH d 0 H3) as [X|(X & Y)].
        -- right. split; auto. intros q X. apply (Q q). right. exact X.
        -- left. right. exact X.
        -- right. split; auto. intros q [Z0|Z0]; [|exact (Y q Z0)].
           apply (Q q). left. exact Z0.
Qed.

Lemma entry_fold : forall s m d n, NoDup (map fst m) -> entry m d n ->
  NoDup (map fst (fold_left (fun o c => bump c o) s m))
  /\ entry (fold_left (fun o c => bump c o) s m) d (n + Z.of_nat (occurrences d s)).
Proof.
  induction s as [|c s IH]; intros m d n N H; cbn [fold_left].
  - split; auto. unfold occurrences. cbn. replace (n + 0) with n by lia. exact H.
  - destruct (IH (bump c m) d (if d =? c then n + 1 else n)) as (A & B).
    + apply bump_nodup. exact N.
    + apply entry_bump; auto.
    + split; auto. unfold occurrences in *. cbn [count_occ].
      destruct (Z.eq_dec c d) as [->|Q].
      * rewrite Z.eqb_refl in B. replace (n + Z.of_nat (S (count_occ Z.eq_dec s d)))
          with (n + 1 + Z.of_nat (count_occ Z.eq_dec s d)) by lia. exact B.
      * replace (d =? c) with false in B by (symmetry; apply Z.eqb_neq; congruence). exact B.
Qed.

Lemma entry_count : forall p m d n, NoDup (map fst m) -> entry m d n ->
  NoDup (map fst (count_characters p m))
  /\ entry (count_characters p m) d (n + Z.of_nat (occurrences d (contents p))).
Proof.
  fix IH 1. intros p m d n N H. destruct p as [s|l|].
  - apply entry_fold; auto.
  - cbn [count_characters contents]. revert m n N H.
    induction l as [|q l IHl]; intros m n N H; cbn [fold_left flat_map].
    + split; auto. unfold occurrences. cbn. replace (n + 0) with n by lia. exact H.
    + destruct (IH q m d n N H) as (A & B).
      destruct (IHl _ _ A B) as (C & D). split; auto.
      unfold occurrences in *. rewrite count_occ_app. 
      rewrite Nat2Z.inj_add, Z.add_assoc.
      exact D.
  - cbn. split; auto. unfold occurrences. cbn. replace (n + 0) with n by lia. exact H.
Qed.

(** ** Durations *)

Lemma seconds_cons : forall n u l, seconds ((n, u) :: l) = n * u + seconds l.
Proof. reflexivity. Qed.

Lemma time_parts_nonneg : forall units k ticks, 0 < k -> 0 <= ticks ->
  Forall (fun u => 0 < u) units -> 0 <= seconds (time_parts units k ticks).
Proof.
  induction units as [|u us IH]; intros k ticks K T F; cbn [time_parts]; [cbn; lia|].
  inversion F; subst. assert (U : 0 < u * k) by (apply Z.mul_pos_pos; lia).
  destruct (ticks >? u * k); [|auto]. rewrite seconds_cons.
  assert (0 <= seconds (time_parts us k (ticks mod (u * k)))).
  { apply IH; auto. apply Z.mod_pos_bound. exact U. }
  assert (0 <= ticks / (u * k)) by (apply Z.div_pos; lia).
  assert (0 <= ticks / (u * k) * u) by (apply Z.mul_nonneg_nonneg; lia). lia.
Qed.

Lemma time_parts_sum : forall units k ticks, 0 < k -> 0 <= ticks ->
  Forall (fun u => 0 < u) units ->
  0 <= ticks - k * seconds (time_parts units k ticks)
  /\ (forall u, In u units -> ticks - k * seconds (time_parts units k ticks) <= u * k).
Proof.
  induction units as [|u us IH]; intros k ticks K T F; cbn [time_parts].
  - cbn. split; [lia|intros u []].
  - inversion F; subst. assert (U : 0 < u * k) by (apply Z.mul_pos_pos; lia).
    destruct (ticks >? u * k) eqn:G.
    + pose proof (Z.mod_pos_bound ticks (u * k) U) as M.
      pose proof (Z.div_mod ticks (u * k) ltac:(lia)) as D.
      destruct (IH k (ticks mod (u * k)) K ltac:(lia) H2) as (A & B).
      assert (N : 0 <= seconds (time_parts us k (ticks mod (u * k))))
        by (apply time_parts_nonneg; auto; lia).
      rewrite seconds_cons.
      set (q := ticks / (u * k)) in *. set (r := ticks mod (u * k)) in *.
      set (x := seconds (time_parts us k r)) in *.
      assert (E : ticks - k * (q * u + x) = r - k * x) by (rewrite D; ring).
      rewrite E. split; auto. intros v [<-|V]; auto.
      assert (0 <= k * x) by (apply Z.mul_nonneg_nonneg; lia). lia.
    + assert (L : ticks <= u * k) by (rewrite Z.gtb_ltb in G; apply Z.ltb_ge in G; lia).
      destruct (IH k ticks K T H2) as (A & B). split; auto.
      assert (N : 0 <= seconds (time_parts us k ticks)) by (apply time_parts_nonneg; auto).
      intros v [<-|V]; auto.
      assert (0 <= k * seconds (time_parts us k ticks)) by (apply Z.mul_nonneg_nonneg; lia).
      lia.
Qed.

(** Every printed number but the first is at most the quotient of two neighbouring
    units. *)
Lemma time_parts_ranges : forall units k ticks bound, 0 < k -> 0 <= ticks ->
  Forall (fun u => 0 < u) units -> ticks <= bound * k ->
  forall n u, In (n, u) (time_parts units k ticks) -> 1 <= n /\ n * u <= bound.
Proof.
  induction units as [|u us IH]; intros k ticks bound K T F B n v I; cbn [time_parts] in I.
  - destruct I.
  - inversion F; subst. assert (U : 0 < u * k) by (apply Z.mul_pos_pos; lia).
    destruct (ticks >? u * k) eqn:G; [|exact (IH k ticks bound K T H2 B n v I)].
    apply Z.gtb_lt in G. pose proof (Z.mod_pos_bound ticks (u * k) U) as M.
    pose proof (Z.mod_le ticks (u * k) T U).
    destruct I as [I|I]; [|exact (IH k _ bound K (proj1 M) H2 ltac:(lia) n v I)].
    injection I as <- <-. split.
    + apply Z.div_le_lower_bound; lia.
    + pose proof (Z.mul_div_le ticks (u * k) U) as D.
      apply (Zmult_le_reg_r _ _ k); [lia|].
      replace (ticks / (u * k) * u * k) with (u * k * (ticks / (u * k))) by ring. lia.
Qed.

Lemma time_parts_units : forall units k ticks n u, In (n, u) (time_parts units k ticks) ->
  In u units.
Proof.
  induction units as [|v us IH]; intros k ticks n u I; cbn [time_parts] in I; [destruct I|].
  destruct (ticks >? v * k); [destruct I as [I|I]|]; [injection I as <- <-; left; auto| |];
    right; eauto.
Qed.

Lemma time_parts_proper : forall units k ticks bound, 0 < k -> 0 <= ticks ->
  Forall (fun u => 0 < u) units -> ticks <= bound * k ->
  (forall a u b, units = a ++ u :: b ->
     Forall (fun v => v < u) b
     /\ forall n, n * u <= last a bound -> 
       u = 604800 \/ (u = 86400 /\ n <= 7) \/ (u = 3600 /\ n <= 24)
          \/ (u = 60 /\ n <= 60) \/ (u = 1 /\ n <= 60)) ->
  proper (time_parts units k ticks).
Proof.
  induction units as [|u us IH]; intros k ticks bound K T F B H; cbn [time_parts];
    [exact Logic.I|].
  inversion F; subst. assert (U : 0 < u * k) by (apply Z.mul_pos_pos; lia).
  assert (H' : forall a v b, us = a ++ v :: b ->
     Forall (fun x => x < v) b
     /\ forall n, n * v <= last a u -> 
       v = 604800 \/ (v = 86400 /\ n <= 7) \/ (v = 3600 /\ n <= 24)
          \/ (v = 60 /\ n <= 60) \/ (v = 1 /\ n <= 60)).
  { intros a v b ->. destruct (H (u :: a) v b eq_refl) as (X & Y). split; auto.
    intros n Hn. apply Y. destruct a as [|x a]; [exact Hn|].
    change (last (u :: x :: a) bound) with (last (x :: a) bound).
    assert (Q : forall (l : list Z) y d e, last (y :: l) d = last (y :: l) e).
    { induction l as [|z l IHl]; intros; auto. exact (IHl z d e). }
    rewrite (Q _ _ bound u). exact Hn. }
  destruct (ticks >? u * k) eqn:G.
  - pose proof (Z.mod_pos_bound ticks (u * k) U) as M.
    destruct (time_parts_ranges (u :: us) k ticks bound K T F B (ticks / (u * k)) u) as (N1 & N2).
    { cbn [time_parts]. rewrite G. left. reflexivity. }
    destruct (H [] u us eq_refl) as (X & Y).
    cbn [proper]. split; [exact N1|]. split; [exact (Y _ N2)|]. split.
    + apply Forall_forall. intros (n, v) I. apply time_parts_units in I.
      exact (proj1 (Forall_forall _ _) X v I).
    + apply (IH k _ u); auto; lia.
  - rewrite Z.gtb_ltb in G. apply Z.ltb_ge in G. apply (IH k _ u); auto.
Qed.

(** The greatest number of weeks does not matter. *)
Lemma format_parts_proper : forall k ticks, 0 < k -> 0 <= ticks ->
  proper (time_parts [week; day; hour; minute; 1] k ticks).
Proof.
  intros k ticks K T. apply (time_parts_proper _ k ticks ticks); auto.
  - repeat (constructor; [reflexivity|]). constructor.
  - pose proof (Z.mul_le_mono_nonneg_l 1 k ticks T ltac:(lia)). lia.
  - unfold week, day, hour, minute. intros a u b E.
    do 5 (destruct a as [|? a];
      [injection E as <- <-; split;
        [repeat (constructor; [reflexivity|]); constructor|cbn [last]; intros; lia]|
       injection E as <- E]).
    destruct a; discriminate.
Qed.

Lemma unit_name_word : forall n u, 1 <= n -> In u [week; day; hour; minute; 1] ->
  unit_word n (unit_name u ++ (if n >? 1 then [115] else [])) u.
Proof.
  intros n u N I. destruct (n >? 1) eqn:G.
  - apply Z.gtb_lt in G. apply unit_many; [exact G|].
    repeat (destruct I as [<-|I]; [cbn; tauto|]). destruct I.
  - rewrite Z.gtb_ltb in G. apply Z.ltb_ge in G. apply unit_one; [lia|].
    repeat (destruct I as [<-|I]; [cbn; tauto|]). destruct I.
Qed.
