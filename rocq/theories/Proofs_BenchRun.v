(** Proofs about generating and plotting the benchmarks (C80, C81). *)

From Coq Require Import ZArith List Bool Lia Permutation.
From Verif Require Import Base Messages Benchmark Generate Spec SpecBenchmark SpecGenerate
  Proofs_Pos Proofs_Benchmark Properties_Messages Proofs_Generate Proofs_Snippets BenchmarkRun SpecBenchRun.
Import ListNotations.
Open Scope Z_scope.

(** ** Lines *)

Lemma splitlines_text : forall n s cur, (length s <= n)%nat -> in_one_line cur ->
  text_lines (cur ++ s) (splitlines_from cur s).
Proof.
  induction n as [|n IH]; intros s cur L C.
  - destruct s; [|simpl in L; lia]. rewrite app_nil_r. cbn [splitlines_from]. destruct cur; [constructor|].
    apply lines_last; [exact C | discriminate].
  - destruct s as [|c s].
    + rewrite app_nil_r. cbn [splitlines_from]. destruct cur; [constructor|]. apply lines_last; [exact C | discriminate].
    + cbn [splitlines_from]. simpl in L. assert (E : in_one_line []) by (split; intros []).
      destruct (c =? 10) eqn:E1; [apply Z.eqb_eq in E1; subst c; apply lines_lf; auto; apply (IH s []); auto; lia|].
      destruct (c =? 13) eqn:E2.
      * apply Z.eqb_eq in E2. subst c. destruct s as [|d s]; [apply lines_cr; [auto | exact Logic.I | constructor]|].
        simpl in L. destruct (d =? 10) eqn:E3.
        -- apply Z.eqb_eq in E3. subst d. apply lines_crlf; auto. apply (IH s []); auto. lia.
        -- apply Z.eqb_neq in E3. apply lines_cr; auto. apply (IH (d :: s) []); auto. simpl. lia.
      * apply Z.eqb_neq in E1, E2. replace (cur ++ c :: s) with ((cur ++ [c]) ++ s) by (rewrite <- app_assoc; reflexivity).
        apply IH; [lia|]. destruct C as (C1 & C2). split; intros I; apply in_app_or in I as [I|[I|[]]]; auto.
Qed.

Lemma splitlines_one : forall l cur c s, in_one_line l -> c = 10 \/ c = 13 ->
  splitlines_from cur (l ++ c :: s) = splitlines_from (cur ++ l) (c :: s).
Proof.
  induction l as [|d l IH]; intros cur c s (N1 & N2) C; [rewrite app_nil_r; reflexivity|].
  cbn [app]. rewrite <- (IH (cur ++ [d]) c s) || idtac.
  cbn [splitlines_from]. destruct (d =? 10) eqn:E1; [exfalso; apply Z.eqb_eq in E1; apply N1; left; auto|].
  destruct (d =? 13) eqn:E2; [exfalso; apply Z.eqb_eq in E2; apply N2; left; auto|].
  rewrite IH; auto; [rewrite <- app_assoc; reflexivity|]. split; intros I; [apply N1 | apply N2]; right; auto.
Qed.

Lemma splitlines_end : forall l cur, in_one_line l -> splitlines_from cur l = match cur ++ l with [] => [] | x => [x] end.
Proof.
  induction l as [|d l IH]; intros cur (N1 & N2); [rewrite app_nil_r; destruct cur; reflexivity|].
  cbn [splitlines_from]. destruct (d =? 10) eqn:E1; [exfalso; apply Z.eqb_eq in E1; apply N1; left; auto|].
  destruct (d =? 13) eqn:E2; [exfalso; apply Z.eqb_eq in E2; apply N2; left; auto|].
  rewrite IH; [rewrite <- app_assoc; reflexivity|]. split; intros I; [apply N1 | apply N2]; right; auto.
Qed.

Lemma text_splitlines : forall s ls, text_lines s ls <-> splitlines s = ls.
Proof.
  intros s ls. split.
  - unfold splitlines. induction 1 as [|l O N|l s ls O T IH|l s ls O T IH|l s ls O N T IH].
    + reflexivity.
    + rewrite splitlines_end by exact O. destruct l; [congruence|reflexivity].
    + rewrite splitlines_one by auto. cbn [app splitlines_from]. rewrite IH. reflexivity.
    + rewrite splitlines_one by auto. cbn [app splitlines_from]. rewrite IH. reflexivity.
    + rewrite splitlines_one by auto. cbn [app splitlines_from]. destruct s as [|d s]; [rewrite <- IH; reflexivity|].
      cbn in N. destruct (d =? 10) eqn:E; [apply Z.eqb_eq in E; contradiction|]. rewrite <- IH. reflexivity.
  - intros <-. apply (splitlines_text (length s) s []); [lia | split; intros []].
Qed.

(** ** Lines of comments *)

Lemma expect_app : forall p s, expect p (p ++ s) = Some s.
Proof.
  intros p s. unfold expect. rewrite starts_app. f_equal. rewrite skipn_app, skipn_all2, Nat.sub_diag by lia. reflexivity.
Qed.
Lemma expect_inv : forall p s r, expect p s = Some r -> s = p ++ r.
Proof.
  intros p s r E. unfold expect in E. destruct (starts p s) eqn:S; [|discriminate].
  apply starts_inv in S as (s' & ->). injection E as <-. f_equal.
  rewrite skipn_app, skipn_all2, Nat.sub_diag by lia. reflexivity.
Qed.

Lemma blank_iff : forall c, tab_or_space c = true <-> blank_char c.
Proof. intros c. unfold tab_or_space, blank_char. rewrite orb_true_iff, !Z.eqb_eq. tauto. Qed.

Lemma spaces0_app : forall w r, blanks w -> not_starting_with blank_char r -> spaces0 (w ++ r) = r.
Proof.
  intros w r B N. unfold spaces0. induction B as [|c w C B IH]; cbn [app drop_while].
  - destruct r as [|c r]; [reflexivity|]. cbn in N. cbn [drop_while]. destruct (tab_or_space c) eqn:E; [|reflexivity].
    apply blank_iff in E. contradiction.
  - apply blank_iff in C. rewrite C. exact IH.
Qed.
Lemma spaces0_inv : forall s, exists w, s = w ++ spaces0 s /\ blanks w /\ not_starting_with blank_char (spaces0 s).
Proof.
  induction s as [|c s IH]; [exists []; splits; try reflexivity; constructor|]. unfold spaces0. cbn [drop_while].
  destruct (tab_or_space c) eqn:E.
  - destruct IH as (w & E' & B & N). exists (c :: w). cbn [app]. split; [f_equal; exact E' |]. split; [|exact N].
    constructor; [apply blank_iff; exact E | exact B].
  - exists []. split; [reflexivity|]. split; [constructor|]. cbn. rewrite <- blank_iff. congruence.
Qed.
Lemma spaces1_app : forall w r, w <> [] -> blanks w -> not_starting_with blank_char r -> spaces1 (w ++ r) = Some r.
Proof.
  intros w r N B R. rewrite <- (spaces0_app w r B R) at 2. destruct B as [|c w C B]; [congruence|].
  cbn [app spaces1]. apply blank_iff in C. rewrite C. reflexivity.
Qed.
Lemma spaces1_inv : forall s r, spaces1 s = Some r -> exists w, s = w ++ r /\ w <> [] /\ blanks w /\ not_starting_with blank_char r.
Proof.
  intros s r E. unfold spaces1 in E. destruct s as [|c s]; [discriminate|]. destruct (tab_or_space c) eqn:T; [|discriminate].
  injection E as <-. destruct (spaces0_inv (c :: s)) as (w & E' & B & N). exists w. splits; auto.
  intros ->. cbn [app] in E'. rewrite <- E' in N. cbn in N. apply blank_iff in T. contradiction.
Qed.

Lemma digit_iff : forall c, is_ascii_digit c = true <-> 48 <= c <= 57.
Proof. intros c. unfold is_ascii_digit. rewrite andb_true_iff, !Z.leb_le. tauto. Qed.

Lemma int_decimal : forall d, d <> [] -> int_of d = Some (decimal d).
Proof.
  intros d N. unfold int_of. rewrite fold_decimal. destruct d; [congruence|]. reflexivity.
Qed.

Lemma number_app : forall d r, number_text d -> not_starting_with (fun c => 48 <= c <= 57) r ->
  number_group (d ++ r) = Some (decimal d, r).
Proof.
  intros d r (N & F) R. unfold number_group.
  assert (F' : Forall (fun c => is_ascii_digit c = true) d) by (eapply Forall_impl; [|exact F]; intros; apply digit_iff; auto).
  rewrite take_digits; auto.
  - rewrite int_decimal by exact N. do 2 f_equal. clear - F' R.
    induction F' as [|c d C F IH]; cbn [app drop_while]; [|rewrite C; exact IH].
    destruct r as [|c r]; [reflexivity|]. cbn in R. cbn [drop_while].
    destruct (is_ascii_digit c) eqn:E; [apply digit_iff in E; contradiction | reflexivity].
  - destruct r as [|c r]; [exact Logic.I|]. cbn in R. destruct (is_ascii_digit c) eqn:E; [apply digit_iff in E; contradiction | reflexivity].
Qed.
Lemma number_inv : forall s a r, number_group s = Some (a, r) -> exists d, s = d ++ r /\ number_text d /\ a = decimal d.
Proof.
  intros s a r E. unfold number_group in E. destruct (int_of (take_while is_ascii_digit s)) as [n|] eqn:I; [|discriminate].
  injection E as -> <-. exists (take_while is_ascii_digit s).
  assert (T : take_while is_ascii_digit s <> []) by (intros T; rewrite T in I; discriminate).
  rewrite int_decimal in I by exact T. injection I as <-. splits; auto.
  - clear. induction s as [|c s IH]; [reflexivity|]. cbn [take_while drop_while]. destruct (is_ascii_digit c); [|reflexivity].
    cbn [app]. f_equal. exact IH.
  - split; [exact T|]. clear. induction s as [|c s IH]; [constructor|]. cbn [take_while].
    destruct (is_ascii_digit c) eqn:E; constructor; auto.
    apply digit_iff. exact E.
Qed.

Ltac not_blank := let Q := fresh "Q" in cbn; unfold blank_char; intros Q; slia.

Lemma comment_app : forall w1 w2 r, blanks w1 -> blanks w2 -> not_starting_with blank_char r ->
  in_comment (w1 ++ text "//" ++ w2 ++ r) = Some r.
Proof.
  intros w1 w2 r B1 B2 N. unfold in_comment. rewrite spaces0_app; [|auto|not_blank].
  change (literal "//") with (text "//"). rewrite expect_app. cbn [bind]. rewrite spaces0_app; auto.
Qed.
Lemma comment_inv : forall l r, in_comment l = Some r -> exists w1 w2, l = w1 ++ text "//" ++ w2 ++ r
  /\ blanks w1 /\ blanks w2 /\ not_starting_with blank_char r.
Proof.
  intros l r E. unfold in_comment in E. destruct (spaces0_inv l) as (w1 & E1 & B1 & _).
  destruct (expect (literal "//") (spaces0 l)) as [x|] eqn:X; [|discriminate]. cbn [bind] in E. injection E as <-.
  apply expect_inv in X. destruct (spaces0_inv x) as (w2 & E2 & B2 & N2). exists w1, w2. splits; auto.
  rewrite E1, X. change (literal "//") with (text "//"). rewrite E2 at 1. reflexivity.
Qed.

Lemma match_range_iff : forall l r, match_range l = Some r <-> range_line l r.
Proof.
  intros l r. split.
  - unfold match_range. intros E.
    destruct (in_comment l) as [l1|] eqn:E1; [|discriminate]. cbn [bind] in E.
    destruct (expect (literal "n") l1) as [l2|] eqn:E2; [|discriminate]. cbn [bind] in E.
    destruct (spaces1 l2) as [l3|] eqn:E3; [|discriminate]. cbn [bind] in E.
    destruct (expect (literal "in") l3) as [l4|] eqn:E4; [|discriminate]. cbn [bind] in E.
    destruct (expect (literal "[") (spaces0 l4)) as [l5|] eqn:E5; [|discriminate]. cbn [bind] in E.
    destruct (number_group l5) as [(a & l6)|] eqn:E6; [|discriminate]. cbn [bind] in E.
    destruct (expect (literal "..") l6) as [l7|] eqn:E7; [|discriminate]. cbn [bind] in E.
    destruct (number_group l7) as [(b & l8)|] eqn:E8; [|discriminate]. cbn [bind] in E.
    destruct (expect (literal "),") l8) as [l9|] eqn:E9; [|discriminate]. cbn [bind] in E.
    destruct (spaces1 l9) as [l10|] eqn:E10; [|discriminate]. cbn [bind] in E.
    destruct (expect (literal "step") l10) as [l11|] eqn:E11; [|discriminate]. cbn [bind] in E.
    destruct (spaces1 l11) as [l12|] eqn:E12; [|discriminate]. cbn [bind] in E.
    destruct (number_group l12) as [(s & l13)|] eqn:E13; [|discriminate]. cbn [bind] in E.
    destruct (spaces0 l13) eqn:E14; [|discriminate]. injection E as <-.
    apply comment_inv in E1 as (w1 & w2 & -> & B1 & B2 & _). apply expect_inv in E2, E4, E5, E7, E9, E11.
    apply spaces1_inv in E3 as (w3 & F3 & N3 & B3 & _), E10 as (w5 & F5 & N5 & B5 & _), E12 as (w6 & F6 & N6 & B6 & _).
    apply number_inv in E6 as (d1 & G1 & D1 & ->), E8 as (d2 & G2 & D2 & ->), E13 as (d3 & G3 & D3 & ->).
    destruct (spaces0_inv l4) as (w4 & F4 & B4 & _). destruct (spaces0_inv l13) as (w7 & F7 & B7 & _).
    rewrite E14, app_nil_r in F7.
    exists w1, w2, w3, w4, w5, w6, w7, d1, d2, d3. split.
    + rewrite E2, F3, E4, F4, E5, G1, E7, G2, E9, F5, E11, F6, G3, F7. reflexivity.
    + splits; auto; repeat constructor; assumption || apply D1 || apply D2 || apply D3.
  - intros (w1 & w2 & w3 & w4 & w5 & w6 & w7 & d1 & d2 & d3 & -> & B & N3 & N5 & N6 & D & ->).
    repeat match goal with H : Forall _ (_ :: _) |- _ => apply Forall_cons_iff in H as (? & H) end.
    assert (X : forall d r, number_text d -> not_starting_with blank_char (d ++ r)).
    { intros d r (Nd & F). destruct F as [|c d C F]; [exfalso; apply Nd; reflexivity|]. not_blank. }
    unfold match_range. rewrite comment_app; auto; [|not_blank]. cbn [bind].
    change (literal "n") with (text "n"). rewrite expect_app. cbn [bind].
    rewrite spaces1_app; auto; [|not_blank]. cbn [bind].
    change (literal "in") with (text "in"). rewrite expect_app. cbn [bind].
    rewrite spaces0_app; auto; [|not_blank].
    change (literal "[") with (text "["). rewrite expect_app. cbn [bind].
    rewrite number_app; auto; [|cbn; slia]. cbn [bind].
    change (literal "..") with (text ".."). rewrite expect_app. cbn [bind].
    rewrite number_app; auto; [|cbn; slia]. cbn [bind].
    change (literal "),") with (text "),"). rewrite expect_app. cbn [bind].
    rewrite spaces1_app; auto; [|not_blank]. cbn [bind].
    change (literal "step") with (text "step"). rewrite expect_app. cbn [bind].
    rewrite spaces1_app; auto. cbn [bind].
    rewrite number_app; auto.
    + cbn [bind]. rewrite <- (app_nil_r w7), spaces0_app; auto; exact Logic.I.
    + match goal with H : blanks w7 |- _ => destruct H as [|c w C H] end; [exact Logic.I|].
      cbn. destruct C; subst; slia.
Qed.

Lemma match_property_iff : forall (name l v : str), not_starting_with blank_char (name ++ [58]) ->
  (match_property name l = Some v <-> property_line name l v).
Proof.
  intros name l v NB. split.
  - unfold match_property. intros E.
    destruct (in_comment l) as [l1|] eqn:E1; [|discriminate]. cbn [bind] in E.
    destruct (expect (name ++ literal ":") l1) as [l2|] eqn:E2; [|discriminate]. cbn [bind] in E. injection E as <-.
    apply comment_inv in E1 as (w1 & w2 & -> & B1 & B2 & _). apply expect_inv in E2. subst l1.
    destruct (spaces0_inv l2) as (w3 & F3 & B3 & N3). exists w1, w2, w3. splits; auto.
    rewrite F3 at 1. change (literal ":") with (text ":"). rewrite <- !app_assoc. reflexivity.
  - intros (w1 & w2 & w3 & -> & B & N).
    repeat match goal with H : Forall _ (_ :: _) |- _ => apply Forall_cons_iff in H as (? & H) end.
    unfold match_property. rewrite comment_app; auto.
    + cbn [bind]. replace (name ++ text ":" ++ w3 ++ v) with ((name ++ text ":") ++ w3 ++ v) by (rewrite <- app_assoc; reflexivity).
      change (literal ":") with (text ":"). rewrite expect_app. cbn [bind]. rewrite spaces0_app; auto.
    + destruct name; [not_blank|exact NB].
Qed.

Lemma first_match_iff : forall (A : Type) (f : str -> option A) (P : str -> A -> Prop),
  (forall l v, f l = Some v <-> P l v) -> forall ls v, first_match f ls = Some v <-> first_says P ls v.
Proof.
  intros A f P H ls v. split.
  - induction ls as [|l ls IH]; [discriminate|]. cbn [first_match]. destruct (f l) as [a|] eqn:E.
    + intros X. injection X as ->. exists [], l, ls. split; [reflexivity|]. split; [apply H; exact E | constructor].
    + intros X. destruct (IH X) as (l1 & k & l2 & -> & Pk & F). exists (l :: l1), k, l2. splits; auto.
      constructor; auto. intros u Pu. apply H in Pu. congruence.
  - intros (l1 & k & l2 & -> & Pk & F). induction F as [|l l1 N F IH]; cbn [app first_match].
    + apply H in Pk. rewrite Pk. reflexivity.
    + destruct (f l) as [a|] eqn:E; [apply H in E; exfalso; exact (N _ E) | exact IH].
Qed.

(** ** Numbers *)

Lemma stepping_unique : forall b s a ns, stepping b s a ns -> forall ns', stepping b s a ns' -> ns = ns'.
Proof.
  intros b s a ns S. induction S as [a L|a ns L S IH]; intros ns' S'; inversion S'; subst; try lia; try reflexivity.
  f_equal. apply IH. assumption.
Qed.

Lemma stepping_range : forall s, 0 < s -> forall k a b, Z.to_nat ((b - a + s - 1) / s) = k ->
  stepping b s a (map (fun i => a + s * Z.of_nat i) (seq 0 k)).
Proof.
  intros s P. induction k as [|k IH]; intros a b E.
  - constructor. destruct (Z_le_gt_dec b a) as [|G]; [assumption|].
    assert (1 <= (b - a + s - 1) / s) by (apply Z.div_le_lower_bound; lia). lia.
  - cbn [seq map]. replace (a + s * Z.of_nat 0) with a by lia. constructor.
    + destruct (Z_lt_le_dec a b) as [|G]; [assumption|].
      assert ((b - a + s - 1) / s < 1) by (apply Z.div_lt_upper_bound; lia). lia.
    + rewrite <- seq_shift, map_map. erewrite map_ext; [apply (IH (a + s))|].
      * replace (b - (a + s) + s - 1) with ((b - a + s - 1) + (-1) * s) by lia. rewrite Z.div_add by lia. lia.
      * intros i. cbn beta. lia.
Qed.

Lemma range_iff : forall a b s ns, 0 <= s -> (py_range a b s = Some ns <-> 0 < s /\ stepping b s a ns).
Proof.
  intros a b s ns N. unfold py_range. destruct (s =? 0) eqn:E.
  - apply Z.eqb_eq in E. split; [discriminate|]. intros (P & _). lia.
  - apply Z.eqb_neq in E. assert (P : 0 < s) by lia. split.
    + intros X. injection X as <-. split; [exact P|]. apply stepping_range; auto.
    + intros (_ & S). f_equal. eapply stepping_unique; [|exact S]. apply stepping_range; auto.
Qed.

Lemma stepping_above : forall b s a ns, 0 < s -> stepping b s a ns -> Forall (fun n => a <= n) ns.
Proof.
  intros b s a ns P S. induction S as [a L|a ns L S IH]; constructor; [lia|].
  eapply Forall_impl; [|exact IH]. cbn. intros; lia.
Qed.

Inductive ascending : list Z -> Prop :=
| asc_nil : ascending []
| asc_cons x l : Forall (fun y => x < y) l -> ascending l -> ascending (x :: l).

Lemma stepping_ascending : forall b s a ns, 0 < s -> stepping b s a ns -> ascending ns.
Proof.
  intros b s a ns P S. induction S as [a L|a ns L S IH]; constructor; auto.
  apply stepping_above in S; auto. eapply Forall_impl; [|exact S]. cbn. intros; lia.
Qed.

Lemma ascending_nodup : forall l, ascending l -> NoDup l.
Proof.
  intros l A. induction A as [|x l F A IH]; constructor; auto. intros I. rewrite Forall_forall in F. specialize (F _ I). lia.
Qed.

(** ** Ways *)

Definition mode_of (w : way) : mode := match w with Macro => Bmp | Manual => Man end.

Lemma mode_named_iff : forall p w, mode_named p = Some (mode_of w) <-> p = way_name w.
Proof.
  intros p w. unfold mode_named. change (literal "BOOST_METAPARSE_STRING") with (way_name Macro).
  change (literal "manual") with (way_name Manual). split.
  - destruct (str_eqb p (way_name Macro)) eqn:E1; [apply str_eqb_eq in E1; destruct w; [intros _; exact E1 | discriminate]|].
    destruct (str_eqb p (way_name Manual)) eqn:E2; [apply str_eqb_eq in E2; destruct w; [discriminate | intros _; exact E2]|]. discriminate.
  - intros ->. destruct w; reflexivity.
Qed.

Lemma mode_of_onto : forall m, exists w, m = mode_of w.
Proof. intros []; [exists Macro | exists Manual]; reflexivity. Qed.

Lemma split_parts : forall d s, split d s <> [] /\ Forall (fun p => ~ In d p) (split d s) /\ s = separated [d] (split d s).
Proof.
  intros d. induction s as [|c s (N & F & E)]; cbn [split]; [splits; repeat constructor; auto; discriminate|].
  destruct (c =? d) eqn:X.
  - apply Z.eqb_eq in X. subst c. splits; [discriminate | constructor; auto|]. rewrite E at 1.
    destruct (split d s); [congruence|]. reflexivity.
  - apply Z.eqb_neq in X. destruct (split d s) as [|p ps]; [congruence|]. apply Forall_cons_iff in F as (F1 & F2).
    splits; [discriminate| |].
    + constructor; auto. intros [I|I]; [congruence | contradiction].
    + rewrite E. destruct ps; reflexivity.
Qed.

Lemma modes_iff : forall v ws, try_map (fun s => mode_named (strip s)) (split 44 v) = Some (map mode_of ws) <-> names_ways v ws.
Proof.
  assert (X : forall ps ws, try_map (fun s => mode_named (strip s)) ps = Some (map mode_of ws)
    <-> Forall2 (fun p w => trim p = way_name w) ps ws).
  { induction ps as [|p ps IH]; intros ws; cbn [try_map].
    - split; intros H; [destruct ws; [constructor | discriminate] | inversion H; reflexivity].
    - split.
      + intros H. destruct (mode_named (strip p)) as [m|] eqn:M; [|discriminate].
        destruct (try_map _ ps) as [r|] eqn:T; [|discriminate]. destruct ws as [|w ws]; [discriminate|].
        injection H as -> ->. constructor; [rewrite <- strip_trim; apply mode_named_iff; exact M|]. apply IH. reflexivity.
      + intros H. inversion H as [|p' w ps' ws' P H' E1 E2]; subst. rewrite <- strip_trim in P.
        apply mode_named_iff in P. rewrite P. apply IH in H'. rewrite H'. reflexivity. }
  intros v ws. rewrite X. split.
  - intros F. destruct (split_parts 44 v) as (N & C & E). exists (split 44 v). splits; auto.
  - intros (ps & -> & N & C & F). rewrite split_separated; auto.
Qed.

Lemma decimal_nonneg : forall d, Forall (fun c => 48 <= c <= 57) d -> 0 <= decimal d.
Proof.
  intros d F. unfold decimal. assert (G : forall v, 0 <= v -> 0 <= decimal_acc v d); [|apply G; lia].
  induction F as [|c d C F IH]; intros v V; [exact V|]. cbn [decimal_acc]. apply IH. slia.
Qed.

Lemma range_line_nonneg : forall l a b s, range_line l (a, b, s) -> 0 <= a /\ 0 <= b /\ 0 <= s.
Proof.
  intros l a b s (w1 & w2 & w3 & w4 & w5 & w6 & w7 & d1 & d2 & d3 & _ & _ & _ & _ & _ & D & E). injection E as -> -> ->.
  repeat match goal with H : Forall _ (_ :: _) |- _ => apply Forall_cons_iff in H as ((? & ?) & H) end.
  splits; apply decimal_nonneg; assumption.
Qed.

Lemma reading : forall t h, says (t_content t) h <->
  t_range t = Some (h_numbers h) /\ t_modes t = Some (map mode_of (h_ways h))
  /\ t_property t (text "x_axis_label") = Some (h_label h) /\ t_property t (text "desc") = Some (h_desc h).
Proof.
  intros t h. unfold says, t_range, t_modes, t_property.
  assert (P : forall name ls v, not_starting_with blank_char (name ++ [58]) ->
    (first_match (match_property name) ls = Some v <-> first_says (property_line name) ls v)).
  { intros name ls v N. apply first_match_iff. intros l u. apply match_property_iff. exact N. }
  change (literal "modes") with (text "modes").
  pose proof (first_match_iff _ match_range range_line match_range_iff) as R. split.
  - intros (ls & T & (a & b & s & F & S & St) & (v & M & W) & L & D). apply text_splitlines in T. rewrite T. splits.
    + apply R in F. rewrite F. cbn [bind]. apply range_iff; [lia | auto].
    + apply P in M; [|not_blank]. rewrite M. cbn [bind]. apply modes_iff. exact W.
    + apply P; [not_blank | exact L].
    + apply P; [not_blank | exact D].
  - intros (Rg & M & L & D). exists (splitlines (t_content t)). splits.
    + apply text_splitlines. reflexivity.
    + destruct (first_match match_range _) as [((a & b) & s)|] eqn:F; [|discriminate]. cbn [bind] in Rg.
      apply R in F. exists a, b, s. split; [exact F|]. apply range_iff; [|exact Rg].
      destruct F as (l1 & l & l2 & _ & F & _). apply range_line_nonneg in F. lia.
    + destruct (first_match _ _) as [v|] eqn:F in M; [|discriminate]. cbn [bind] in M. exists v.
      split; [apply P; [not_blank | exact F] | apply modes_iff; exact M].
    + apply P in L; [exact L | not_blank].
    + apply P in D; [exact D | not_blank].
Qed.

(** ** Dictionaries *)

Lemma set_fresh : forall (V : Type) k (v : V) d, ~ In k (map fst d) -> dict_set k v d = d ++ [(k, v)].
Proof.
  intros V k v. induction d as [|(n & x) d IH]; intros N; [reflexivity|]. cbn [dict_set app].
  destruct (str_eqb n k) eqn:E; [exfalso; apply str_eqb_eq in E; apply N; left; exact E|].
  rewrite IH; [reflexivity|]. intros I. apply N. right. exact I.
Qed.

Lemma get_in : forall (V : Type) k (v : V) d, NoDup (map fst d) -> (dict_get k d = Some v <-> In (k, v) d).
Proof.
  intros V k v. induction d as [|(n & x) d IH]; intros N; [split; [discriminate | intros []]|]. cbn [dict_get].
  cbn [map fst] in N. inversion N as [|n' d' N1 N2]; subst. destruct (str_eqb n k) eqn:E.
  - apply str_eqb_eq in E. subst n. split; [intros X; injection X as ->; left; reflexivity|].
    intros [X|X]; [injection X as ->; reflexivity|]. exfalso. apply N1. apply in_map_iff. exists (k, v). auto.
  - rewrite IH by exact N2. split; [intros X; right; exact X|]. intros [X|X]; [|exact X].
    injection X as -> ->. rewrite str_eqb_refl in E. discriminate.
Qed.

Lemma get_none : forall (V : Type) k (d : dict V), ~ In k (map fst d) -> dict_get k d = None.
Proof.
  intros V k. induction d as [|(n & x) d IH]; intros N; [reflexivity|]. cbn [dict_get].
  destruct (str_eqb n k) eqn:E; [exfalso; apply str_eqb_eq in E; apply N; left; exact E|].
  apply IH. intros I. apply N. right. exact I.
Qed.

Lemma perm_nodup : forall (V : Type) (d d' : dict V), Permutation d d' -> NoDup (map fst d) -> NoDup (map fst d').
Proof. intros V d d' P N. eapply Permutation_NoDup; [apply Permutation_map; exact P | exact N]. Qed.

Lemma get_perm : forall (V : Type) (d d' : dict V) k v, Permutation d d' -> NoDup (map fst d) ->
  dict_get k d = Some v -> dict_get k d' = Some v.
Proof.
  intros V d d' k v P N E. apply get_in in E; auto. apply get_in; [eapply perm_nodup; eauto|].
  eapply Permutation_in; eauto.
Qed.

Lemma fold_fresh : forall (A V : Type) (key : A -> str) (val : A -> V) l d, NoDup (map fst d ++ map key l) ->
  fold_left (fun d x => dict_set (key x) (val x) d) l d = d ++ map (fun x => (key x, val x)) l.
Proof.
  intros A V key val. induction l as [|x l IH]; intros d N; [rewrite app_nil_r; reflexivity|].
  cbn [fold_left map]. cbn [map] in N. rewrite set_fresh.
  - rewrite IH; [rewrite <- app_assoc; reflexivity|]. rewrite map_app, <- app_assoc. exact N.
  - intros I. apply NoDup_remove_2 in N. apply N. apply in_or_app. left. exact I.
Qed.

Lemma nodup_flat : forall (A B : Type) (f : A -> list B) l, NoDup l -> (forall a, In a l -> NoDup (f a)) ->
  (forall a a' b, In a l -> In a' l -> In b (f a) -> In b (f a') -> a = a') -> NoDup (flat_map f l).
Proof.
  intros A B f l N. induction N as [|a l X N IH]; intros F D; [constructor|]. cbn [flat_map].
  assert (G : forall l1 l2 : list B, NoDup l1 -> NoDup l2 -> (forall b, In b l1 -> In b l2 -> False) -> NoDup (l1 ++ l2)).
  { induction l1 as [|b l1 IH1]; intros l2 N1 N2 I; [exact N2|]. inversion N1; subst. cbn [app]. constructor.
    - intros J. apply in_app_or in J as [J|J]; [contradiction|]. apply (I b); [left; reflexivity | exact J].
    - apply IH1; auto. intros b' J1 J2. apply (I b'); [right; exact J1 | exact J2]. }
  apply G.
  - apply F. left. reflexivity.
  - apply IH; [intros a' I; apply F; right; exact I|]. intros a1 a2 b I1 I2. apply D; right; assumption.
  - intros b I1 I2. apply in_flat_map in I2 as (a' & I2 & I3). apply X.
    rewrite (D a a' b); [exact I2 | left; reflexivity | right; exact I2 | exact I1 | exact I3].
Qed.

(** ** Names of files *)

Lemma last_separator : forall (c : char) (a a' b b' : str), a ++ c :: b = a' ++ c :: b' -> ~ In c b -> ~ In c b' -> a = a' /\ b = b'.
Proof.
  intros c. induction a as [|x a IH]; intros [|x' a'] b b' E N N'; cbn [app] in E.
  - injection E as E. auto.
  - injection E as _ E. exfalso. apply N. rewrite E. apply in_or_app. right. left. reflexivity.
  - injection E as _ E. exfalso. apply N'. rewrite <- E. apply in_or_app. right. left. reflexivity.
  - injection E as -> E. destruct (IH _ _ _ E N N') as (-> & ->). auto.
Qed.

Lemma same_tail : forall (a a' b b' : str), length b = length b' -> a ++ b = a' ++ b' -> a = a' /\ b = b'.
Proof.
  intros a a' b b' L E. assert (La : length a = length a').
  { apply (f_equal (@length _)) in E. rewrite !app_length in E. slia. }
  clear L. revert a' La E. induction a as [|x a IH]; intros [|x' a'] La E; try discriminate La; [auto|].
  cbn [app] in E. injection E as -> E. injection La as La. destruct (IH _ La E) as (-> & ->). auto.
Qed.

Lemma number_without : forall c n, ~ number_char c -> ~ In c (print_number n).
Proof. intros c n N I. pose proof (print_int_chars n) as F. rewrite Forall_forall in F. apply N, F, I. Qed.

Ltac no_number := unfold number_char, digit_char; slia.

Lemma source_file_inj : forall name n id name' n' id', length id = length id' ->
  source_file name n id = source_file name' n' id' -> name = name' /\ n = n' /\ id = id'.
Proof.
  intros name n id name' n' id' L E. unfold source_file in E.
  assert (E' : (name ++ text "_" ++ print_number n) ++ (text "_" ++ id ++ text ".cpp")
    = (name' ++ text "_" ++ print_number n') ++ (text "_" ++ id' ++ text ".cpp")) by (rewrite <- !app_assoc; exact E).
  apply same_tail in E' as (E1 & E2); [|rewrite !app_length; slia].
  apply (last_separator 95) in E1 as (-> & E1); [|apply number_without; no_number..].
  apply print_int_inj in E1. apply app_inv_head in E2. apply app_inv_tail in E2. auto.
Qed.

Lemma occurs_split : forall (p a b : str) c, ~ In c p -> p <> [] -> (occurs p (a ++ c :: b) <-> occurs p a \/ occurs p b).
Proof.
  intros p a b c N P. split.
  - intros (x & y & E). revert x y E. induction a as [|d a IH]; intros x y E.
    + right. destruct x as [|e x].
      * destruct p as [|e p]; [exfalso; apply P; reflexivity|]. cbn [app] in E. injection E as -> _.
        exfalso. apply N. left. reflexivity.
      * cbn [app] in E. injection E as _ E. exists x, y. exact E.
    + destruct x as [|e x].
      * left. cbn [app] in E. clear IH P. exists []. revert a d y E.
        assert (G : forall a y, a ++ c :: b = p ++ y -> exists z, a = p ++ z).
        { induction p as [|q p IH]; intros a y E; [exists a; reflexivity|].
          destruct a as [|d a]; cbn [app] in E; injection E as -> E; [exfalso; apply N; left; reflexivity|].
          destruct (IH (fun I => N (or_intror I)) a y E) as (z & ->). exists z. reflexivity. }
        intros a d y E. exact (G (d :: a) y E).
      * cbn [app] in E. injection E as -> E. destruct (IH _ _ E) as [(u & v & O)|O]; [|right; exact O].
        left. exists (e :: u), v. cbn [app]. f_equal. exact O.
  - intros [(x & y & ->)|(x & y & ->)].
    + exists x, (y ++ c :: b). rewrite <- !app_assoc. reflexivity.
    + exists (a ++ c :: x), y. rewrite <- app_assoc. reflexivity.
Qed.

Lemma occurs_in : forall p s (c : char), In c p -> occurs p s -> In c s.
Proof. intros p s c I (a & b & ->). apply in_or_app. right. apply in_or_app. left. exact I. Qed.

Definition mark (p : str) : Prop := p = text "bmp" \/ p = text "slt".

Lemma source_file_occurs : forall p name n id, mark p -> (occurs p (source_file name n id) <-> occurs p name \/ occurs p (id ++ text ".cpp")).
Proof.
  intros p name n id M.
  assert (U : ~ In 95 p) by (destruct M as [-> | ->]; cbn; slia).
  assert (P : p <> []) by (destruct M as [-> | ->]; discriminate).
  unfold source_file. change (text "_") with [95]. cbn [app]. rewrite !occurs_split by auto. split; [|tauto].
  intros [H|[H|H]]; auto. exfalso.
  assert (C : exists c, In c p /\ ~ number_char c).
  { destruct M as [-> | ->]; [exists 98 | exists 115]; (split; [left; reflexivity | no_number]). }
  destruct C as (c & I & N). apply (number_without c n N). eapply occurs_in; eauto.
Qed.

Lemma replace_plain : forall (old new a b : str) (c : char), ~ In c old -> old <> [] -> ~ occurs old a ->
  replace_all old new (a ++ c :: b) = a ++ c :: replace_all old new b.
Proof.
  intros old new a b c N P. unfold replace_all.
  assert (S : forall a : str, ~ occurs old a -> starts old (a ++ c :: b) = false).
  { intros x X. destruct (starts old (x ++ c :: b)) eqn:E; [|reflexivity]. apply starts_inv in E as (y & E). exfalso. apply X.
    clear X P. exists []. revert x E. induction old as [|q old IH]; intros x E; [exists x; reflexivity|].
    destruct x as [|d x]; cbn [app] in E; injection E as -> E; [exfalso; apply N; left; reflexivity|].
    destruct (IH (fun I => N (or_intror I)) x E) as (z & E'). exists z. cbn [app] in E'. subst x. reflexivity. }
  induction a as [|d a IH]; intros X.
  - cbn [app replace_from]. pose proof (S [] X) as E. cbn [app] in E. rewrite E. reflexivity.
  - cbn [app replace_from]. pose proof (S (d :: a) X) as E. cbn [app] in E. rewrite E. f_equal. apply IH.
    intros (u & v & ->). apply X. exists (d :: u), v. reflexivity.
Qed.

Lemma replace_source : forall name n, ~ occurs (text "bmp") name ->
  replace_all bmp slt (source_file name n (text "bmp")) = source_file name n (text "slt").
Proof.
  intros name n P. change bmp with (text "bmp"). change slt with (text "slt"). unfold source_file.
  change (text "_") with [95]. cbn [app].
  assert (U : ~ In 95 (text "bmp")) by (cbn; slia).
  rewrite replace_plain; [|exact U | discriminate | exact P].
  rewrite replace_plain; [reflexivity | exact U | discriminate|].
  intros O. apply (number_without 98 n); [no_number|]. eapply occurs_in; [|exact O]. left. reflexivity.
Qed.

(** ** What is generated *)

Definition converted (m : mode) (base : str) : str := match convert_from m base with Some c => c | None => [] end.
Lemma converts : forall m base, convert_from m base = Some (converted m base).
Proof.
  intros m base. unfold converted. destruct m; [reflexivity|]. cbn [convert_from].
  pose proof (convert_loop_ends (S (length base)) base ltac:(lia)) as H.
  destruct (convert_loop (S (length base)) base); congruence.
Qed.

Lemma identifier_of : forall w, identifier (mode_of w) = way_id w.
Proof. intros []; reflexivity. Qed.
Lemma description_of : forall w, description (mode_of w) = way_description w.
Proof. intros []; reflexivity. Qed.
Lemma out_filename_of : forall t n w, out_filename t n (mode_of w) = source_file (t_name t) n (way_id w).
Proof. intros t n []; reflexivity. Qed.
Lemma way_id_length : forall w, length (way_id w) = 3%nat.
Proof. intros []; reflexivity. Qed.
Lemma way_id_inj : forall w w', way_id w = way_id w' -> w = w'.
Proof. intros [] []; discriminate || reflexivity. Qed.

Definition round_files (inst : str -> Z -> str) (name : str) (ws : list way) (n : Z) : dict entry :=
  map (fun w => (source_file name n (way_id w), Source (converted (mode_of w) (inst name n)))) ws.

Lemma write_modes_of : forall inst t n ws out, NoDup (map fst (out ++ round_files inst (t_name t) ws n)) ->
  write_modes t n (inst (t_name t) n) (map mode_of ws) out = Some (out ++ round_files inst (t_name t) ws n).
Proof.
  intros inst t n. induction ws as [|w ws IH]; intros out N; [cbn; rewrite app_nil_r; reflexivity|].
  cbn [map write_modes]. rewrite converts. cbn [bind]. rewrite out_filename_of.
  change (round_files inst (t_name t) (w :: ws) n) with
    ((source_file (t_name t) n (way_id w), Source (converted (mode_of w) (inst (t_name t) n))) :: round_files inst (t_name t) ws n) in *.
  rewrite set_fresh.
  - rewrite IH; rewrite <- app_assoc; [reflexivity | exact N].
  - rewrite map_app in N. cbn [map fst] in N. apply NoDup_remove_2 in N. intros I. apply N. apply in_or_app. left. exact I.
Qed.

Lemma nodup_app_l : forall (A : Type) (a b : list A), NoDup (a ++ b) -> NoDup a.
Proof.
  induction a as [|x a IH]; intros b N; [constructor|]. cbn [app] in N. inversion N; subst. constructor; [|eapply IH; eauto].
  intros I. apply H1. apply in_or_app. left. exact I.
Qed.

Lemma write_sources_of : forall inst t ws ns out, NoDup (map fst (out ++ flat_map (round_files inst (t_name t) ws) ns)) ->
  write_sources inst t (map mode_of ws) ns out = Some (out ++ flat_map (round_files inst (t_name t) ws) ns).
Proof.
  intros inst t ws. induction ns as [|n ns IH]; intros out N; [cbn; rewrite app_nil_r; reflexivity|].
  cbn [write_sources flat_map] in *. rewrite app_assoc in N. rewrite write_modes_of.
  - cbn [bind]. rewrite IH by exact N. rewrite <- app_assoc. reflexivity.
  - rewrite map_app in N. eapply nodup_app_l. exact N.
Qed.

Definition inner (name : str) (ws : list way) (n : Z) : dict str :=
  map (fun w => (way_id w, source_file name n (way_id w))) ws.

Definition the_config (t : template) (h : heading) : bench_config :=
  {| c_files := map (fun n => (print_number n, inner (t_name t) (h_ways h) n)) (h_numbers h);
     c_name := t_name t; c_label := h_label h; c_desc := h_desc h;
     c_modes := map (fun w => (way_id w, way_description w)) (h_ways h) |}.

Lemma nodup_map_inj : forall (A B : Type) (f : A -> B) l, (forall x y, f x = f y -> x = y) -> NoDup l -> NoDup (map f l).
Proof.
  intros A B f l I N. induction N as [|x l X N IH]; constructor; auto. intros J. apply in_map_iff in J as (y & E & J).
  apply I in E. subst y. contradiction.
Qed.

Lemma config_is : forall t h, NoDup (h_ways h) -> NoDup (h_numbers h) ->
  config_of t (map mode_of (h_ways h)) (h_numbers h) (h_label h) (h_desc h) = the_config t h.
Proof.
  intros t h W N. unfold config_of, the_config.
  assert (Wi : NoDup (map way_id (h_ways h))) by (apply nodup_map_inj; [exact way_id_inj | exact W]).
  assert (F : forall (V : Type) (g : mode -> V),
    fold_left (fun e m => dict_set (identifier m) (g m) e) (map mode_of (h_ways h)) [] = map (fun w => (way_id w, g (mode_of w))) (h_ways h)).
  { intros V g. rewrite fold_fresh.
    - cbn [app]. rewrite map_map. apply map_ext. intros w. rewrite identifier_of. reflexivity.
    - cbn [map app]. rewrite map_map. erewrite map_ext; [exact Wi|]. intros w. apply identifier_of. }
  f_equal.
  - rewrite fold_fresh with (key := print_number) (val := fun n => fold_left (fun e m => dict_set (identifier m) (out_filename t n m) e) (map mode_of (h_ways h)) []).
    + cbn [app]. apply map_ext. intros n. f_equal. rewrite F. unfold inner. apply map_ext. intros w. rewrite out_filename_of. reflexivity.
    + cbn [map app]. apply nodup_map_inj; [|exact N]. intros x y E. apply print_int_inj in E. exact E.
  - rewrite F. apply map_ext. intros w. rewrite description_of. reflexivity.
Qed.

Definition json_name (name : str) : str := name ++ text ".json".

Definition template_files (inst : str -> Z -> str) (th : template * heading) : dict entry :=
  flat_map (round_files inst (t_name (fst th)) (h_ways (snd th))) (h_numbers (snd th))
  ++ [(json_name (t_name (fst th)), Config (the_config (fst th) (snd th)))].

Definition well_headed (th : template * heading) : Prop :=
  says (t_content (fst th)) (snd th) /\ NoDup (h_ways (snd th)).

Lemma says_numbers : forall content h, says content h -> ascending (h_numbers h) /\ Forall (fun n => 0 <= n) (h_numbers h).
Proof.
  intros content h (ls & _ & (a & b & s & F & P & S) & _). split; [eapply stepping_ascending; eauto|].
  destruct F as (l1 & l & l2 & _ & F & _). apply range_line_nonneg in F. apply stepping_above in S; auto.
  eapply Forall_impl; [|exact S]. cbn. intros; lia.
Qed.

Lemma generate_template_of : forall inst th out, well_headed th -> NoDup (map fst (out ++ template_files inst th)) ->
  generate_template inst (fst th) out = Some (out ++ template_files inst th).
Proof.
  intros inst (t & h) out (S & W) N. cbn [fst snd] in *. destruct (says_numbers _ _ S) as (A & _).
  apply reading in S as (R & M & L & D). unfold generate_template. rewrite M. cbn [bind]. rewrite R. cbn [bind].
  unfold template_files in *. cbn [fst snd] in *. rewrite app_assoc in N.
  rewrite write_sources_of by (rewrite map_app in N; eapply nodup_app_l; exact N). cbn [bind].
  change (literal "x_axis_label") with (text "x_axis_label"). rewrite L. cbn [bind].
  change (literal "desc") with (text "desc"). rewrite D. cbn [bind].
  rewrite config_is; [|exact W | apply ascending_nodup; exact A].
  change (t_name t ++ literal ".json") with (json_name (t_name t)). rewrite set_fresh; [rewrite <- app_assoc; reflexivity|].
  rewrite map_app in N. cbn [map fst] in N. apply NoDup_remove_2 in N. rewrite app_nil_r in N. exact N.
Qed.

Lemma generate_main_of : forall inst ths out, Forall well_headed ths -> NoDup (map fst (out ++ flat_map (template_files inst) ths)) ->
  generate_main inst (map fst ths) out = Some (out ++ flat_map (template_files inst) ths).
Proof.
  intros inst. induction ths as [|th ths IH]; intros out F N; [cbn; rewrite app_nil_r; reflexivity|].
  apply Forall_cons_iff in F as (F1 & F2). cbn [map generate_main flat_map] in *. rewrite app_assoc in N.
  rewrite generate_template_of; [|exact F1 | rewrite map_app in N; eapply nodup_app_l; exact N].
  cbn [bind]. rewrite IH by assumption. rewrite <- app_assoc. reflexivity.
Qed.

Definition t_sources (th : template * heading) : list str := source_files (t_name (fst th)) (snd th).

Lemma template_keys : forall inst th, map fst (template_files inst th) = t_sources th ++ [json_name (t_name (fst th))].
Proof.
  intros inst (t & h). unfold template_files, t_sources, source_files. cbn [fst snd]. rewrite map_app. f_equal.
  induction (h_numbers h) as [|n ns IH]; [reflexivity|]. cbn [flat_map]. rewrite map_app, IH. f_equal.
  unfold round_files. rewrite map_map. reflexivity.
Qed.

Lemma all_keys : forall inst ths, map fst (flat_map (template_files inst) ths)
  = flat_map (fun th => t_sources th ++ [json_name (t_name (fst th))]) ths.
Proof.
  intros inst. induction ths as [|th ths IH]; [reflexivity|]. cbn [flat_map]. rewrite map_app, IH, template_keys. reflexivity.
Qed.

Lemma in_sources : forall name h f, In f (source_files name h) <->
  exists n w, In n (h_numbers h) /\ In w (h_ways h) /\ f = source_file name n (way_id w).
Proof.
  intros name h f. unfold source_files. rewrite in_flat_map. split.
  - intros (n & I & J). apply in_map_iff in J as (w & <- & J). exists n, w. auto.
  - intros (n & w & I & J & ->). exists n. split; [exact I|]. apply in_map_iff. exists w. auto.
Qed.

Lemma source_not_json : forall name n id name', source_file name n id <> json_name name'.
Proof.
  intros name n id name' E. apply (f_equal (@rev _)) in E. unfold source_file, json_name in E.
  rewrite !rev_app_distr in E. discriminate E.
Qed.

Lemma nodup_sources : forall name h, NoDup (h_numbers h) -> NoDup (h_ways h) -> NoDup (source_files name h).
Proof.
  intros name h N W. unfold source_files. apply nodup_flat; [exact N| |].
  - intros n _. apply nodup_map_inj; [|exact W]. intros w w' E.
    apply source_file_inj in E as (_ & _ & E); [apply way_id_inj; exact E | rewrite !way_id_length; reflexivity].
  - intros n n' f _ _ I J. apply in_map_iff in I as (w & <- & _), J as (w' & E & _).
    apply source_file_inj in E as (_ & E & _); [auto | rewrite !way_id_length; reflexivity].
Qed.

Definition names (ths : list (template * heading)) : list str := map (fun th => t_name (fst th)) ths.

Lemma names_inj : forall ths th th', NoDup (names ths) -> In th ths -> In th' ths -> t_name (fst th) = t_name (fst th') -> th = th'.
Proof.
  intros ths th th' N. induction ths as [|x ths IH]; [intros []|]. cbn [names map] in N. inversion N as [|y l X N' E0]; subst.
  assert (Y : forall z, In z ths -> t_name (fst z) <> t_name (fst x)).
  { intros z I E. apply X. rewrite <- E. apply in_map_iff. exists z. auto. }
  intros [<-|I] [<-|J] E; auto; exfalso; [apply (Y th') | apply (Y th)]; auto.
Qed.

Lemma names_nodup : forall ths, NoDup (names ths) -> NoDup ths.
Proof. intros ths N. unfold names in N. apply NoDup_map_inv in N. exact N. Qed.

Lemma well_nodup : forall th, well_headed th -> NoDup (h_numbers (snd th)).
Proof. intros th (S & _). apply says_numbers in S as (A & _). apply ascending_nodup. exact A. Qed.

Lemma keys_nodup : forall ths, NoDup (names ths) -> Forall well_headed ths ->
  NoDup (flat_map (fun th => t_sources th ++ [json_name (t_name (fst th))]) ths).
Proof.
  intros ths N F. rewrite Forall_forall in F. apply nodup_flat.
  - apply names_nodup. exact N.
  - intros th I. apply F in I. apply (Permutation_NoDup (l := json_name (t_name (fst th)) :: t_sources th)); [apply Permutation_cons_append|].
    constructor.
    + intros J. apply in_sources in J as (n & w & _ & _ & E). symmetry in E. apply source_not_json in E. exact E.
    + apply nodup_sources; [apply well_nodup; exact I | apply I].
  - intros th th' f I J K L. apply (names_inj ths); auto.
    apply in_app_or in K as [K|[K|[]]]; apply in_app_or in L as [L|[L|[]]].
    + apply in_sources in K as (n & w & _ & _ & ->), L as (n' & w' & _ & _ & E).
      apply source_file_inj in E as (E & _); [exact E | rewrite !way_id_length; reflexivity].
    + apply in_sources in K as (n & w & _ & _ & ->). symmetry in L. apply source_not_json in L. contradiction.
    + apply in_sources in L as (n & w & _ & _ & ->). symmetry in K. apply source_not_json in K. contradiction.
    + subst f. apply app_inv_tail in L. auto.
Qed.

Lemma generated : forall inst ths, NoDup (names ths) -> Forall well_headed ths ->
  generate_main inst (map fst ths) [] = Some (flat_map (template_files inst) ths)
  /\ NoDup (map fst (flat_map (template_files inst) ths)).
Proof.
  intros inst ths N F. assert (K : NoDup (map fst (flat_map (template_files inst) ths))).
  { rewrite all_keys. apply keys_nodup; auto. }
  split; [|exact K]. apply (generate_main_of inst ths []); auto.
Qed.

Lemma ends_app : forall p s, ends p (s ++ p) = true.
Proof. intros p s. unfold ends. rewrite rev_app_distr. apply starts_app. Qed.

Lemma ends_source : forall name n id, ends (text ".cpp") (source_file name n id) = true
  /\ ends (text ".json") (source_file name n id) = false.
Proof.
  intros name n id. split; unfold ends, source_file; rewrite !rev_app_distr; reflexivity.
Qed.
Lemma ends_json : forall name, ends (text ".cpp") (json_name name) = false /\ ends (text ".json") (json_name name) = true.
Proof. intros name. split; unfold ends, json_name; rewrite rev_app_distr; reflexivity. Qed.

Lemma filter_all : forall (A : Type) (f : A -> bool) l, (forall x, In x l -> f x = true) -> filter f l = l.
Proof.
  induction l as [|x l IH]; intros H; [reflexivity|]. cbn [filter]. rewrite (H x) by (left; reflexivity). f_equal.
  apply IH. intros y I. apply H. right. exact I.
Qed.
Lemma filter_none : forall (A : Type) (f : A -> bool) l, (forall x, In x l -> f x = false) -> filter f l = [].
Proof.
  induction l as [|x l IH]; intros H; [reflexivity|]. cbn [filter]. rewrite (H x) by (left; reflexivity).
  apply IH. intros y I. apply H. right. exact I.
Qed.

Lemma cpp_files_of : forall inst ths, cpp_files (flat_map (template_files inst) ths) = flat_map t_sources ths.
Proof.
  intros inst ths. unfold cpp_files. change (literal ".cpp") with (text ".cpp"). rewrite all_keys.
  induction ths as [|th ths IH]; [reflexivity|]. cbn [flat_map]. rewrite !filter_app, IH. f_equal.
  rewrite filter_all; [cbn [filter]; rewrite (proj1 (ends_json _)); apply app_nil_r|].
  intros f I. apply in_sources in I as (n & w & _ & _ & ->). apply ends_source.
Qed.

Lemma configs_of : forall inst ths, configs_in (flat_map (template_files inst) ths) = Some (map (fun th => the_config (fst th) (snd th)) ths).
Proof.
  intros inst ths. unfold configs_in. change (literal ".json") with (text ".json").
  assert (E : filter (fun e : str * entry => ends (text ".json") (fst e)) (flat_map (template_files inst) ths)
    = map (fun th => (json_name (t_name (fst th)), Config (the_config (fst th) (snd th)))) ths).
  { induction ths as [|th ths IH]; [reflexivity|]. cbn [flat_map map]. rewrite filter_app, IH. unfold template_files.
    rewrite filter_app. cbn [filter fst]. rewrite (proj2 (ends_json _)). rewrite filter_none; [reflexivity|].
    intros e I. apply in_flat_map in I as (n & _ & I). apply in_map_iff in I as (w & <- & _). apply ends_source. }
  rewrite E. clear E. induction ths as [|th ths IH]; [reflexivity|]. cbn [map try_map snd]. rewrite IH. reflexivity.
Qed.

(** ** Measuring *)

Definition measured_with (m m' : str -> Z) (f : str) : dict Z :=
  (f, m f) :: if contains bmp f then [(replace_all bmp slt f, m' f)] else [].

Lemma rounds_with : forall run m m' cnt, (forall f, run f false = Some (m f)) -> (forall f, run f true = Some (m' f)) ->
  forall files b, b_has_string_templates b = true -> NoDup (map fst (b_result b ++ flat_map (measured_with m m') files)) ->
  exists b', bench_rounds run cnt files b = Some b' /\ b_result b' = b_result b ++ flat_map (measured_with m m') files
    /\ b_file_count b' = b_file_count b
    /\ exists ps, b_printed b' = b_printed b ++ ps /\ length ps = length files
       /\ Forall (fun p => fst p <= Z.of_nat (length (b_result b')) /\ snd p = b_file_count b) ps
       /\ (files <> [] -> last ps (0, 0) = (Z.of_nat (length (b_result b')), b_file_count b)).
Proof.
  intros run m m' cnt R R'. induction files as [|f files IH]; intros b H N.
  - exists b. splits; [reflexivity | cbn; rewrite app_nil_r; reflexivity | reflexivity|]. exists [].
    splits; [rewrite app_nil_r; reflexivity | reflexivity | constructor|]. intros X. congruence.
  - cbn [bench_rounds flat_map] in *. rewrite app_assoc in N.
    set (b1 := {| b_result := b_result b ++ measured_with m m' f; b_has_string_templates := true; b_file_count := b_file_count b;
      b_printed := b_printed b ++ [(Z.of_nat (length (b_result b ++ measured_with m m' f)), b_file_count b)] |}).
    assert (E : bench_round run cnt b f = Some b1).
    { unfold bench_round. rewrite R. cbn [bind]. rewrite H, R'.
      assert (N1 : NoDup (map fst (b_result b ++ measured_with m m' f))) by (rewrite map_app in N; eapply nodup_app_l; exact N).
      unfold b1, measured_with in *. destruct (contains bmp f); cbn [andb].
      - assert (S1 : dict_set f (m f) (b_result b) = b_result b ++ [(f, m f)]).
        { apply set_fresh. rewrite map_app in N1. apply NoDup_remove_2 in N1. intros I. apply N1. apply in_or_app. left. exact I. }
        assert (S2 : dict_set (replace_all bmp slt f) (m' f) (dict_set f (m f) (b_result b)) = b_result b ++ [(f, m f); (replace_all bmp slt f, m' f)]).
        { rewrite S1, set_fresh; [rewrite <- app_assoc; reflexivity|].
          replace (b_result b ++ [(f, m f); (replace_all bmp slt f, m' f)]) with ((b_result b ++ [(f, m f)]) ++ [(replace_all bmp slt f, m' f)]) in N1
            by (rewrite <- app_assoc; reflexivity).
          rewrite map_app in N1. apply NoDup_remove_2 in N1. rewrite app_nil_r in N1. exact N1. }
        rewrite S2. reflexivity.
      - rewrite set_fresh; [reflexivity|]. rewrite map_app in N1. apply NoDup_remove_2 in N1. rewrite app_nil_r in N1. exact N1. }
    rewrite E. cbn [bind]. destruct (IH b1 eq_refl N) as (b' & E' & Rs & C & ps & P & L & F & La).
    exists b'. splits; [exact E' | rewrite Rs; cbn [b_result b1]; rewrite <- app_assoc; reflexivity | exact C|].
    exists ((Z.of_nat (length (b_result b ++ measured_with m m' f)), b_file_count b) :: ps). splits.
    + rewrite P. cbn [b_printed b1]. rewrite <- app_assoc. reflexivity.
    + cbn [length]. rewrite L. reflexivity.
    + constructor; [|exact F]. split; [|reflexivity]. cbn [fst]. rewrite Rs. cbn [b_result b1]. rewrite (app_length _ (flat_map _ _)). lia.
    + intros _. destruct ps as [|p ps].
      * destruct files; [|discriminate L]. cbn [flat_map] in Rs. rewrite app_nil_r in Rs. rewrite Rs. reflexivity.
      * destruct files as [|g files]; [discriminate L|]. change (last ((Z.of_nat (length (b_result b ++ measured_with m m' f)), b_file_count b) :: p :: ps) (0, 0)) with (last (p :: ps) (0, 0)).
        rewrite La by discriminate. reflexivity.
Qed.

Lemma rounds_without : forall run m, (forall f, run f false = Some (m f)) -> (forall f, run f true = None) ->
  forall files b cnt total, NoDup (map fst (b_result b) ++ files) ->
  b_file_count b = (if b_has_string_templates b then total + cnt else total) -> 0 <= cnt ->
  Z.of_nat (length (b_result b)) + Z.of_nat (length files) <= total ->
  exists b', bench_rounds run cnt files b = Some b' /\ b_result b' = b_result b ++ map (fun f => (f, m f)) files
    /\ b_has_string_templates b' = b_has_string_templates b && negb (existsb (contains bmp) files)
    /\ b_file_count b' = (if b_has_string_templates b' then total + cnt else total)
    /\ exists ps, b_printed b' = b_printed b ++ ps /\ length ps = length files
       /\ Forall (fun p => fst p <= snd p) ps
       /\ (files <> [] -> last ps (0, 0) = (Z.of_nat (length (b_result b')), b_file_count b')).
Proof.
  intros run m R R'. induction files as [|f files IH]; intros b cnt total N C P T.
  - exists b. splits; [reflexivity | cbn; rewrite app_nil_r; reflexivity | cbn; rewrite andb_true_r; reflexivity | exact C|].
    exists []. splits; [rewrite app_nil_r; reflexivity | reflexivity | constructor|]. intros X. congruence.
  - cbn [bench_rounds].
    set (h := b_has_string_templates b && negb (contains bmp f)). set (c := if h then total + cnt else total).
    set (b1 := {| b_result := b_result b ++ [(f, m f)]; b_has_string_templates := h; b_file_count := c;
      b_printed := b_printed b ++ [(Z.of_nat (length (b_result b ++ [(f, m f)])), c)] |}).
    assert (Lf : Z.of_nat (length (b_result b ++ [(f, m f)])) = Z.of_nat (length (b_result b)) + 1) by (rewrite app_length; cbn; lia).
    assert (E : bench_round run cnt b f = Some b1).
    { unfold bench_round. rewrite R. cbn [bind]. rewrite R'. rewrite set_fresh by (apply NoDup_remove_2 in N; intros I; apply N; apply in_or_app; left; exact I).
      unfold b1, c, h. rewrite C. destruct (contains bmp f), (b_has_string_templates b); cbn [andb negb]; try reflexivity.
      replace (total + cnt - cnt) with total by lia. reflexivity. }
    rewrite E. cbn [bind length] in *. destruct (IH b1 cnt total) as (b' & E' & Rs & H & Cn & ps & Pr & L & F & La); auto.
    + cbn [b_result b1]. rewrite map_app, <- app_assoc. exact N.
    + cbn [b_result b1]. slia.
    + exists b'. splits; [exact E' | rewrite Rs; cbn [b_result b1 map]; rewrite <- app_assoc; reflexivity | | exact Cn|].
      { rewrite H. cbn [b_has_string_templates b1 existsb]. unfold h. rewrite negb_orb, andb_assoc. reflexivity. }
      exists ((Z.of_nat (length (b_result b ++ [(f, m f)])), c) :: ps). splits.
      * rewrite Pr. cbn [b_printed b1]. rewrite <- app_assoc. reflexivity.
      * cbn [length]. rewrite L. reflexivity.
      * constructor; [|exact F]. cbn [fst snd]. unfold c. destruct h; slia.
      * intros _. destruct ps as [|p ps].
        -- destruct files; [|discriminate L]. cbn [map] in Rs. rewrite app_nil_r in Rs. rewrite Rs. cbn [last]. f_equal. cbn [b_result b1].
           cbn [existsb negb] in H. rewrite andb_true_r in H. rewrite Cn, H. reflexivity.
        -- destruct files as [|g files]; [discriminate L|]. change (last ((Z.of_nat (length (b_result b ++ [(f, m f)])), c) :: p :: ps) (0, 0)) with (last (p :: ps) (0, 0)).
           rewrite La by discriminate. reflexivity.
Qed.

(** ** Files and modes *)

Lemma contains_false : forall p s, contains p s = false <-> ~ occurs p s.
Proof. intros p s. rewrite <- contains_iff. destruct (contains p s); split; congruence. Qed.

Definition is_macro (w : way) : bool := match w with Macro => true | Manual => false end.

Lemma contains_bmp : forall name n w, plain_name name -> contains bmp (source_file name n (way_id w)) = is_macro w.
Proof.
  intros name n w (P & _). change bmp with (text "bmp"). destruct w; cbn [is_macro].
  - apply contains_iff. apply source_file_occurs; [left; reflexivity|]. right. exists [], (text ".cpp"). reflexivity.
  - apply contains_false. intros O. apply source_file_occurs in O as [O|O]; [contradiction | | left; reflexivity].
    apply contains_iff in O. discriminate O.
Qed.
Lemma contains_slt : forall name n w, plain_name name -> contains slt (source_file name n (way_id w)) = false.
Proof.
  intros name n w (_ & P). change slt with (text "slt"). apply contains_false. intros O.
  apply source_file_occurs in O as [O|O]; [contradiction | | right; reflexivity].
  apply contains_iff in O. destruct w; discriminate O.
Qed.
Lemma contains_slt_slt : forall name n, contains slt (source_file name n (text "slt")) = true.
Proof.
  intros name n. change slt with (text "slt"). apply contains_iff. apply source_file_occurs; [right; reflexivity|].
  right. exists [], (text ".cpp"). reflexivity.
Qed.

Definition headed (th : template * heading) : Prop := well_headed th /\ plain_name (t_name (fst th)).

Lemma in_all : forall ths f, In f (flat_map t_sources ths) <->
  exists th n w, In th ths /\ In n (h_numbers (snd th)) /\ In w (h_ways (snd th)) /\ f = source_file (t_name (fst th)) n (way_id w).
Proof.
  intros ths f. rewrite in_flat_map. split.
  - intros (th & I & J). apply in_sources in J as (n & w & J & K & ->). exists th, n, w. auto.
  - intros (th & n & w & I & J & K & ->). exists th. split; [exact I|]. apply in_sources. exists n, w. auto.
Qed.

Lemma all_nodup : forall ths, NoDup (names ths) -> Forall well_headed ths -> NoDup (flat_map t_sources ths).
Proof.
  intros ths N F. rewrite Forall_forall in F. apply nodup_flat; [apply names_nodup; exact N| |].
  - intros th I. apply F in I. apply nodup_sources; [apply well_nodup; exact I | apply I].
  - intros th th' f I J K L. apply (names_inj ths); auto.
    apply in_sources in K as (n & w & _ & _ & ->), L as (n' & w' & _ & _ & E).
    apply source_file_inj in E as (E & _); [exact E | rewrite !way_id_length; reflexivity].
Qed.

Lemma measured_nodup : forall m m' ths files, NoDup (names ths) -> Forall headed ths ->
  Permutation (flat_map t_sources ths) files -> NoDup (map fst (flat_map (measured_with m m') files)).
Proof.
  intros m m' ths files N F P.
  assert (W : Forall well_headed ths) by (eapply Forall_impl; [|exact F]; intros th H; apply H).
  pose proof (Permutation_NoDup P (all_nodup _ N W)) as NF.
  replace (map fst (flat_map (measured_with m m') files)) with (flat_map (fun f => map fst (measured_with m m' f)) files)
    by (clear; induction files as [|f files IH]; [reflexivity|]; cbn [flat_map]; rewrite map_app, IH; reflexivity).
  rewrite Forall_forall in F.
  assert (S : forall f, In f files -> exists name n w, f = source_file name n (way_id w)
    /\ map fst (measured_with m m' f) = f :: if is_macro w then [source_file name n (text "slt")] else []).
  { intros f I. apply Permutation_sym in P. apply (Permutation_in _ P) in I. apply in_all in I as (th & n & w & I & _ & _ & ->).
    apply F in I as (_ & I). exists (t_name (fst th)), n, w. split; [reflexivity|]. unfold measured_with.
    rewrite contains_bmp by exact I. destruct w; [|reflexivity]. cbn [is_macro map fst]. rewrite replace_source; [reflexivity|apply I]. }
  apply nodup_flat; [exact NF| |].
  - intros f I. apply S in I as (name & n & w & -> & ->). destruct w; [|repeat constructor; intros []].
    constructor; [|repeat constructor; intros []]. intros [E|[]].
    apply source_file_inj in E as (_ & _ & E); [discriminate E | reflexivity].
  - intros f f' k I J K L. apply S in I as (name & n & w & -> & E), J as (name' & n' & w' & -> & E').
    rewrite E in K. rewrite E' in L. clear - K L. destruct w, w'; cbn in K, L;
    repeat match goal with H : _ \/ _ |- _ => destruct H | H : False |- _ => destruct H end; subst;
    match goal with
    | H : source_file _ _ _ = source_file _ _ _ |- _ => apply source_file_inj in H as (-> & -> & E); [|reflexivity]; first [discriminate E | reflexivity]
    | _ => reflexivity
    end.
Qed.

(** ** Plotting *)

Lemma insert_spec : forall x l, ascending l -> ~ In x l -> ascending (insert_int x l) /\ Permutation (x :: l) (insert_int x l).
Proof.
  intros x l A. induction A as [|y l F A IH]; intros N; cbn [insert_int].
  - split; [repeat constructor | reflexivity].
  - destruct (x <? y) eqn:E.
    + apply Z.ltb_lt in E. split; [|reflexivity]. constructor; [|constructor; auto]. constructor; [exact E|].
      eapply Forall_impl; [|exact F]. cbn. intros; lia.
    + apply Z.ltb_ge in E. assert (y <> x) by (intros ->; apply N; left; reflexivity).
      destruct IH as (A' & P); [intros I; apply N; right; exact I|]. split.
      * constructor; [|exact A']. eapply Permutation_Forall; [exact P|]. constructor; [lia | exact F].
      * rewrite perm_swap. apply perm_skip. exact P.
Qed.

Lemma sorted_spec : forall l, NoDup l -> ascending (sorted l) /\ Permutation l (sorted l).
Proof.
  intros l N. unfold sorted.
  assert (G : forall l acc, ascending acc -> NoDup (acc ++ l) ->
    ascending (fold_left (fun acc x => insert_int x acc) l acc) /\ Permutation (acc ++ l) (fold_left (fun acc x => insert_int x acc) l acc)).
  { clear. induction l as [|x l IH]; intros acc A N; [rewrite app_nil_r; split; [exact A | reflexivity]|]. cbn [fold_left].
    pose proof (NoDup_remove_2 _ _ _ N) as X.
    destruct (insert_spec x acc A) as (A' & P); [intros I; apply X; apply in_or_app; left; exact I|].
    assert (Q : Permutation (acc ++ x :: l) (insert_int x acc ++ l)).
    { rewrite <- Permutation_middle. change (x :: acc ++ l) with ((x :: acc) ++ l). apply Permutation_app_tail. exact P. }
    destruct (IH (insert_int x acc) A') as (A2 & P2); [eapply Permutation_NoDup; [exact Q | exact N]|].
    split; [exact A2|]. etransitivity; [exact Q | exact P2]. }
  apply (G l []); [constructor | exact N].
Qed.

Lemma ascending_unique : forall l, ascending l -> forall l', ascending l' -> Permutation l l' -> l = l'.
Proof.
  intros l A. induction A as [|x l F A IH]; intros l' A' P; [apply Permutation_nil in P; auto|].
  destruct A' as [|x' l' F' A']; [apply Permutation_sym, Permutation_nil in P; discriminate P|].
  assert (x = x').
  { rewrite Forall_forall in F, F'. pose proof (Permutation_in x P (or_introl eq_refl)) as I.
    pose proof (Permutation_in x' (Permutation_sym P) (or_introl eq_refl)) as J. destruct I as [I|I]; [auto|]. destruct J as [J|J]; [auto|].
    specialize (F _ J). specialize (F' _ I). lia. }
  subst x'. f_equal. apply IH; auto. eapply Permutation_cons_inv. exact P.
Qed.

Lemma try_map_all : forall (A B : Type) (f : A -> option B) (g : A -> B) l, (forall x, In x l -> f x = Some (g x)) ->
  try_map f l = Some (map g l).
Proof.
  induction l as [|x l IH]; intros H; [reflexivity|]. cbn [try_map map]. rewrite (H x) by (left; reflexivity).
  rewrite IH; [reflexivity|]. intros y I. apply H. right. exact I.
Qed.

(** Two configurations with the same contents: json keeps no order. *)
Definition same_config (c c' : bench_config) : Prop :=
  same_files (c_files c) (c_files c') /\ Permutation (c_modes c) (c_modes c')
  /\ c_name c = c_name c' /\ c_label c = c_label c' /\ c_desc c = c_desc c'.

Section Plot.
Variable g : Z -> dict str.
Variable ns : list Z.
Hypothesis A : ascending ns.
Hypothesis P : Forall (fun n => 0 <= n) ns.
Hypothesis G : forall n, In n ns -> NoDup (map fst (g n)).
Variable fs : dict (dict str).
Hypothesis S : same_files (map (fun n => (print_number n, g n)) ns) fs.

Lemma same_keys : Permutation (map print_number ns) (map fst fs).
Proof using S.
  destruct S as (gs & Q & F). apply (Permutation_map fst) in Q. rewrite map_map in Q. cbn [fst] in Q.
  rewrite Q. clear - F. induction F as [|(a & x) (b & y) gs fs (E & _) F IH]; [reflexivity|]. cbn [fst] in E. subst b. apply perm_skip. exact IH.
Qed.

Lemma same_nodup : NoDup (map fst fs).
Proof using S A.
  eapply Permutation_NoDup; [exact same_keys|]. apply nodup_map_inj; [|apply ascending_nodup; exact A].
  intros x y E. apply print_int_inj in E. exact E.
Qed.

Lemma same_get : forall n, In n ns -> exists f, dict_get (print_number n) fs = Some f /\ Permutation (g n) f.
Proof using S A.
  intros n I. pose proof same_nodup as N. destruct S as (gs & Q & F).
  assert (J : In (print_number n, g n) gs).
  { eapply Permutation_in; [exact Q|]. apply in_map_iff. exists n. auto. }
  assert (X : exists f, In (print_number n, f) fs /\ Permutation (g n) f).
  { clear - F J. induction F as [|a (k & f) gs fs (E & R) F IH]; [destruct J|]. destruct J as [->|J].
    - cbn [fst snd] in *. subst k. exists f. split; [left; reflexivity | exact R].
    - destruct (IH J) as (f' & I & R'). exists f'. split; [right; exact I | exact R']. }
  destruct X as (f & X & R). exists f. split; [apply get_in; [exact N | exact X] | exact R].
Qed.

Lemma plot_points : forall (modes : dict str) (results : dict Z) (val : Z -> str -> Z),
  (forall n k, In n ns -> In k (map fst modes) -> exists file, dict_get k (g n) = Some file /\ dict_get file results = Some (val n k)) ->
  bind (try_map (fun k => int_of (fst k)) fs) (fun ks =>
  try_map (fun m =>
    bind (try_map (fun x =>
            bind (dict_get (print_int x) fs) (fun f =>
            bind (dict_get (fst m) f) (fun file =>
            bind (dict_get file results) (fun v => Some (x, v))))) (sorted ks)) (fun pts =>
    Some (snd m, pts))) modes)
  = Some (map (fun m => (snd m, map (fun n => (n, val n (fst m))) ns)) modes).
Proof using A P G S.
  intros modes results val V. destruct (Permutation_map_inv _ _ (Permutation_sym same_keys)) as (ks & E & Q).
  assert (T : try_map (fun k : str * dict str => int_of (fst k)) fs = Some ks).
  { assert (Pk : Forall (fun n => 0 <= n) ks) by (eapply Permutation_Forall; [exact Q | exact P]).
    clear - E Pk. revert ks E Pk. induction fs as [|(k & f) l IH]; intros [|n ks] E Pk; try discriminate E; [reflexivity|].
    cbn [map fst] in E. injection E as -> E. apply Forall_cons_iff in Pk as (Pn & Pk). cbn [try_map fst].
    rewrite int_print by exact Pn. rewrite (IH ks E Pk). reflexivity. }
  rewrite T. cbn [bind].
  assert (So : sorted ks = ns).
  { destruct (sorted_spec ks) as (As & Ps); [eapply Permutation_NoDup; [exact Q | apply ascending_nodup; exact A]|].
    symmetry. apply ascending_unique; auto. etransitivity; [exact Q | exact Ps]. }
  rewrite So. apply try_map_all. intros (k & d) I. cbn [fst snd].
  rewrite try_map_all with (g := fun n => (n, val n k)); [reflexivity|].
  intros n J. destruct (same_get n J) as (f & F & R). change (print_int n) with (print_number n). rewrite F. cbn [bind].
  destruct (V n k J) as (file & K & M); [apply in_map_iff; exists (k, d); auto|].
  rewrite (get_perm _ _ _ _ _ R (G n J) K). cbn [bind]. rewrite M. reflexivity.
Qed.
End Plot.

Lemma inner_nodup : forall name ws n, NoDup ws -> NoDup (map fst (inner name ws n)).
Proof.
  intros name ws n N. unfold inner. rewrite map_map. cbn [fst]. apply nodup_map_inj; [exact way_id_inj | exact N].
Qed.
Lemma inner_get : forall name ws n w, NoDup ws -> In w ws -> dict_get (way_id w) (inner name ws n) = Some (source_file name n (way_id w)).
Proof.
  intros name ws n w N I. apply get_in; [apply inner_nodup; exact N|]. apply in_map_iff. exists w. auto.
Qed.

Definition value_of (m m' : str -> Z) (name : str) (n : Z) (k : str) : Z :=
  if str_eqb k slt then m' (source_file name n (text "bmp")) else m (source_file name n k).

Lemma value_way : forall m m' name n w, value_of m m' name n (way_id w) = m (source_file name n (way_id w)).
Proof. intros m m' name n []; reflexivity. Qed.

Lemma plotted_plain : forall m t h c results, well_headed (t, h) -> same_config (the_config t h) c ->
  add_slt c results = Some c ->
  (forall n w, In n (h_numbers h) -> In w (h_ways h) ->
     dict_get (source_file (t_name t) n (way_id w)) results = Some (m (source_file (t_name t) n (way_id w)))) ->
  exists curves, plotted c results = Some curves /\ Permutation (map (way_curve m (t_name t) h) (h_ways h)) curves.
Proof.
  intros m t h c results (Sa & W) (Sf & Sm & _) Ad V. cbn [fst snd the_config c_files c_modes] in *.
  destruct (says_numbers _ _ Sa) as (A & P). unfold plotted. rewrite Ad. cbn [bind].
  rewrite (plot_points _ _ A P (fun n _ => inner_nodup _ _ n W) _ Sf (c_modes c) results (fun n k => m (source_file (t_name t) n k))).
  - eexists. split; [reflexivity|]. apply (Permutation_map (fun md => (snd md, map (fun n => (n, m (source_file (t_name t) n (fst md)))) (h_numbers h)))) in Sm.
    etransitivity; [|exact Sm]. rewrite map_map. reflexivity.
  - intros n k I J. apply (Permutation_in _ (Permutation_sym (Permutation_map fst Sm))) in J. rewrite map_map in J. cbn [fst] in J.
    apply in_map_iff in J as (w & <- & J). exists (source_file (t_name t) n (way_id w)). split; [apply inner_get; auto | apply V; auto].
Qed.

Lemma plotted_literal : forall m m' t h c results, headed (t, h) -> same_config (the_config t h) c ->
  h_numbers h <> [] -> In Macro (h_ways h) ->
  existsb (fun r : str * Z => contains slt (fst r)) results = true ->
  (forall n w, In n (h_numbers h) -> In w (h_ways h) ->
     dict_get (source_file (t_name t) n (way_id w)) results = Some (m (source_file (t_name t) n (way_id w)))) ->
  (forall n, In n (h_numbers h) ->
     dict_get (source_file (t_name t) n (text "slt")) results = Some (m' (source_file (t_name t) n (text "bmp")))) ->
  exists curves, plotted c results = Some curves
    /\ Permutation (map (way_curve m (t_name t) h) (h_ways h) ++ [curve_of m' (t_name t) h (text "bmp") literal_legend]) curves.
Proof.
  intros m m' t h c results ((Sa & W) & Pn) (Sf & Sm & _) Ne Ma Ex V V'. cbn [fst snd the_config c_files c_modes] in *.
  destruct (says_numbers _ _ Sa) as (A & P). unfold plotted, add_slt. rewrite Ex.
  set (name := t_name t) in *. set (ws := h_ways h) in *.
  set (inner' := fun n => inner name ws n ++ [(text "slt", source_file name n (text "slt"))]).
  assert (G' : forall n, NoDup (map fst (inner' n))).
  { intros n. unfold inner'. rewrite map_app. cbn [map fst]. eapply Permutation_NoDup; [apply Permutation_cons_append|].
    constructor; [|apply inner_nodup; exact W]. unfold inner. rewrite map_map. cbn [fst]. intros I.
    apply in_map_iff in I as (w & E & _). destruct w; discriminate E. }
  assert (X : forall f n, Permutation (inner name ws n) f -> dict_get bmp f = Some (source_file name n (text "bmp"))
    /\ dict_set slt (replace_all bmp slt (source_file name n (text "bmp"))) f = f ++ [(text "slt", source_file name n (text "slt"))]).
  { intros f n R. split.
    - eapply get_perm; [exact R | apply inner_nodup; exact W|]. apply (inner_get name ws n Macro); assumption.
    - rewrite replace_source by apply Pn. apply set_fresh. intros I.
      apply (Permutation_in _ (Permutation_sym (Permutation_map fst R))) in I. unfold inner in I. rewrite map_map in I. cbn [fst] in I.
      apply in_map_iff in I as (w & E & _). destruct w; discriminate E. }
  assert (Y : exists fs', try_map (fun nf : str * dict str => bind (dict_get bmp (snd nf)) (fun b =>
                    Some (fst nf, dict_set slt (replace_all bmp slt b) (snd nf)))) (c_files c) = Some fs'
              /\ same_files (map (fun n => (print_number n, inner' n)) (h_numbers h)) fs').
  { destruct Sf as (gs & Q & F). apply Permutation_sym in Q. apply Permutation_map_inv in Q as (ks & -> & Q).
    assert (Z : exists fs', try_map (fun nf : str * dict str => bind (dict_get bmp (snd nf)) (fun b =>
                    Some (fst nf, dict_set slt (replace_all bmp slt b) (snd nf)))) (c_files c) = Some fs'
      /\ Forall2 (fun a b => fst a = fst b /\ Permutation (snd a) (snd b)) (map (fun n => (print_number n, inner' n)) ks) fs').
    { clear - F X. revert F. generalize (c_files c). induction ks as [|n ks IH]; intros fs F; inversion F as [|a b l1 l2 (E & R) F' E1 E2]; subst.
      - exists []. split; [reflexivity | constructor].
      - destruct (IH _ F') as (fs' & T & F2). destruct b as (k & f). cbn [fst snd] in *. subst k.
        destruct (X f n R) as (X1 & X2). exists ((print_number n, f ++ [(text "slt", source_file name n (text "slt"))]) :: fs'). split.
        + cbn [try_map fst snd]. rewrite X1. cbn [bind]. rewrite X2, T. reflexivity.
        + cbn [map]. constructor; [|exact F2]. split; [reflexivity|]. cbn [snd]. apply Permutation_app_tail. exact R. }
    destruct Z as (fs' & T & F2). exists fs'. split; [exact T|]. exists (map (fun n => (print_number n, inner' n)) ks).
    split; [apply Permutation_map; exact Q | exact F2]. }
  destruct Y as (fs' & T & S').
  assert (H0 : exists k0 f0 rest, c_files c = (k0, f0) :: rest /\ dict_get bmp f0 <> None).
  { destruct Sf as (gs & Q & F). apply Permutation_sym, Permutation_map_inv in Q as (ks & -> & Q).
    destruct ks as [|n ks]; [apply Permutation_sym, Permutation_nil in Q; contradiction|].
    inversion F as [|a (k & f) l1 l2 (E & R) F' E1 E2]; subst. exists k, f, l2. split; [reflexivity|].
    cbn [snd] in R. rewrite (proj1 (X f n R)). discriminate. }
  destruct H0 as (k0 & f0 & rest & E0 & D0). rewrite E0 in *. destruct (dict_get bmp f0); [|contradiction]. rewrite T. cbn [bind c_files c_modes].
  assert (Sl : ~ In slt (map fst (c_modes c))).
  { intros I. apply (Permutation_in _ (Permutation_sym (Permutation_map fst Sm))) in I. rewrite map_map in I. cbn [fst] in I.
    apply in_map_iff in I as (w & E & _). destruct w; discriminate E. }
  rewrite set_fresh by exact Sl.
  rewrite (plot_points _ _ A P (fun n _ => G' n) _ S' _ results (value_of m m' name)).
  - eexists. split; [reflexivity|]. rewrite map_app. apply Permutation_app; [|reflexivity].
    apply (Permutation_map (fun md => (snd md, map (fun n => (n, value_of m m' name n (fst md))) (h_numbers h)))) in Sm.
    etransitivity; [|exact Sm]. rewrite map_map. cbn [fst snd]. erewrite map_ext; [reflexivity|].
    intros w. unfold way_curve, curve_of. cbn beta. f_equal. apply map_ext. intros n. rewrite value_way. reflexivity.
  - intros n k I J. rewrite map_app in J. apply in_app_or in J as [J|[<-|[]]].
    + apply (Permutation_in _ (Permutation_sym (Permutation_map fst Sm))) in J. rewrite map_map in J. cbn [fst] in J.
      apply in_map_iff in J as (w & <- & J). exists (source_file name n (way_id w)). split.
      * apply get_in; [apply G'|]. unfold inner'. apply in_or_app. left. apply in_map_iff. exists w. auto.
      * rewrite value_way. apply V; auto.
    + exists (source_file name n (text "slt")). split; [|apply V'; exact I].
      apply get_in; [apply G'|]. unfold inner'. apply in_or_app. right. left. reflexivity.
Qed.

(** ** Everything together *)

Lemma mode_of_inj : forall ws ws', map mode_of ws = map mode_of ws' -> ws = ws'.
Proof.
  induction ws as [|w ws IH]; intros [|w' ws'] E; try discriminate E; [reflexivity|]. cbn [map] in E. injection E as E1 E2.
  f_equal; [destruct w, w'; try discriminate E1; reflexivity | apply IH; exact E2].
Qed.
Lemma modes_onto : forall ms, exists ws, ms = map mode_of ws.
Proof.
  induction ms as [|m ms (ws & ->)]; [exists []; reflexivity|]. destruct (mode_of_onto m) as (w & ->). exists (w :: ws). reflexivity.
Qed.

Lemma says_unique : forall content h h', says content h -> says content h' -> h = h'.
Proof.
  intros content h h' S S'. pose (t := {| t_name := []; t_content := content |}).
  apply (reading t) in S as (R & M & L & D), S' as (R' & M' & L' & D').
  rewrite R in R'. rewrite M in M'. rewrite L in L'. rewrite D in D'. injection R' as R'. injection M' as M'. injection L' as L'. injection D' as D'.
  apply mode_of_inj in M'. destruct h, h'. cbn in *. subst. reflexivity.
Qed.

Lemma write_modes_ends : forall t n base ms out, exists out', write_modes t n base ms out = Some out'.
Proof.
  intros t n base. induction ms as [|m ms IH]; intros out; [exists out; reflexivity|]. cbn [write_modes]. rewrite converts. apply IH.
Qed.
Lemma write_sources_ends : forall inst t ms ns out, exists out', write_sources inst t ms ns out = Some out'.
Proof.
  intros inst t ms. induction ns as [|n ns IH]; intros out; [exists out; reflexivity|]. cbn [write_sources].
  destruct (write_modes_ends t n (inst (t_name t) n) ms out) as (out' & ->). apply IH.
Qed.

Lemma generates_iff : forall inst t out, (exists out', generate_template inst t out = Some out') <-> exists h, says (t_content t) h.
Proof.
  intros inst t out. unfold generate_template. split.
  - intros (out' & E). destruct (t_modes t) as [ms|] eqn:M; [|discriminate E]. destruct (modes_onto ms) as (ws & ->).
    destruct (t_range t) as [ns|] eqn:R; [|discriminate E]. cbn [bind] in E.
    destruct (write_sources_ends inst t (map mode_of ws) ns out) as (o & W). rewrite W in E. cbn [bind] in E.
    destruct (t_property t (literal "x_axis_label")) as [l|] eqn:L; [|discriminate E]. cbn [bind] in E.
    destruct (t_property t (literal "desc")) as [d|] eqn:D; [|discriminate E].
    exists {| h_numbers := ns; h_ways := ws; h_label := l; h_desc := d |}. apply reading. cbn [h_numbers h_ways h_label h_desc]. auto.
  - intros (h & S). apply reading in S as (R & M & L & D). rewrite M, R. cbn [bind].
    destruct (write_sources_ends inst t (map mode_of (h_ways h)) (h_numbers h) out) as (o & W). rewrite W. cbn [bind].
    change (literal "x_axis_label") with (text "x_axis_label"). rewrite L. cbn [bind].
    change (literal "desc") with (text "desc"). rewrite D. cbn [bind]. eexists. reflexivity.
Qed.

Lemma measured_length : forall m m' files,
  length (flat_map (measured_with m m') files) = (length files + length (filter (contains bmp) files))%nat.
Proof.
  induction files as [|f files IH]; [reflexivity|]. cbn [flat_map]. rewrite app_length, IH. unfold measured_with.
  cbn [filter length]. destruct (contains bmp f); cbn [length]; lia.
Qed.

Definition finished (files : list str) (b : bench) : Prop :=
  progress (length files) (Z.of_nat (length (b_result b))) (b_printed b).

Lemma benchmark_with : forall run m m' ths files, (forall f, run f false = Some (m f)) -> (forall f, run f true = Some (m' f)) ->
  NoDup (names ths) -> Forall headed ths -> Permutation (flat_map t_sources ths) files ->
  exists b, benchmark run files = Some b /\ b_result b = flat_map (measured_with m m') files
    /\ NoDup (map fst (b_result b)) /\ finished files b.
Proof.
  intros run m m' ths files R R' N F P. pose proof (measured_nodup m m' ths files N F P) as ND. unfold benchmark.
  destruct (rounds_with run m m' (Z.of_nat (length (filter (contains bmp) files))) R R' files
    {| b_result := []; b_has_string_templates := true;
       b_file_count := Z.of_nat (length files) + Z.of_nat (length (filter (contains bmp) files)); b_printed := [] |} eq_refl ND)
    as (b & E & Rs & C & ps & Pr & L & Fa & La).
  cbn [b_result b_file_count b_printed app] in *. exists b. splits; [exact E | exact Rs | rewrite Rs; exact ND|].
  assert (Le : Z.of_nat (length (b_result b)) = Z.of_nat (length files) + Z.of_nat (length (filter (contains bmp) files)))
    by (rewrite Rs, measured_length; lia).
  rewrite <- Le in *. rewrite <- Pr in *. split; [exact L|]. split.
  - eapply Forall_impl; [|exact Fa]. intros p (X1 & X2). rewrite X2. exact X1.
  - intros Ne. apply La. intros ->. apply Ne. reflexivity.
Qed.

Lemma benchmark_without : forall run m files, (forall f, run f false = Some (m f)) -> (forall f, run f true = None) ->
  NoDup files ->
  exists b, benchmark run files = Some b /\ b_result b = map (fun f => (f, m f)) files /\ finished files b.
Proof.
  intros run m files R R' N. unfold benchmark.
  destruct (rounds_without run m R R' files
    {| b_result := []; b_has_string_templates := true;
       b_file_count := Z.of_nat (length files) + Z.of_nat (length (filter (contains bmp) files)); b_printed := [] |}
    (Z.of_nat (length (filter (contains bmp) files))) (Z.of_nat (length files)) N eq_refl ltac:(lia) ltac:(cbn; lia))
    as (b & E & Rs & H & C & ps & Pr & L & Fa & La).
  cbn [b_result b_file_count b_printed b_has_string_templates app andb] in *. exists b. splits; [exact E | exact Rs|].
  rewrite <- Pr in *. split; [exact L|]. split; [exact Fa|]. intros Ne. rewrite La by (intros ->; apply Ne; reflexivity).
  f_equal. rewrite C, H. rewrite Rs, map_length. destruct (existsb (contains bmp) files) eqn:X; cbn [negb]; [reflexivity|].
  rewrite filter_none; [cbn; lia|]. intros f I. destruct (contains bmp f) eqn:Y; [|reflexivity].
  assert (existsb (contains bmp) files = true) by (apply existsb_exists; exists f; auto). congruence.
Qed.

Lemma plot_with : forall run m m' ths files, (forall f, run f false = Some (m f)) -> (forall f, run f true = Some (m' f)) ->
  NoDup (names ths) -> Forall headed ths -> Forall (fun th => h_numbers (snd th) <> []) ths ->
  Permutation (flat_map t_sources ths) files ->
  exists b, benchmark run files = Some b /\ finished files b /\
  forall t h c, In (t, h) ths -> same_config (the_config t h) c ->
  exists curves, plotted c (b_result b) = Some curves
    /\ Permutation (map (way_curve m (t_name t) h) (h_ways h)
         ++ (if existsb is_macro (h_ways h) then [curve_of m' (t_name t) h (text "bmp") literal_legend] else [])) curves.
Proof.
  intros run m m' ths files R R' N F Ne P. destruct (benchmark_with run m m' ths files R R' N F P) as (b & E & Rs & ND & Fi).
  exists b. split; [exact E|]. split; [exact Fi|]. intros t h c I S. rewrite Forall_forall in F. pose proof (F _ I) as ((Sa & W) & Pn). cbn [fst snd] in *.
  rewrite Forall_forall in Ne. pose proof (Ne _ I) as Ne1. cbn [snd] in Ne1.
  assert (V : forall n w, In n (h_numbers h) -> In w (h_ways h) ->
     dict_get (source_file (t_name t) n (way_id w)) (b_result b) = Some (m (source_file (t_name t) n (way_id w)))).
  { intros n w J K. apply get_in; [exact ND|]. rewrite Rs. apply in_flat_map. exists (source_file (t_name t) n (way_id w)). split; [|left; reflexivity].
    eapply Permutation_in; [exact P|]. apply in_all. exists (t, h), n, w. auto. }
  destruct (existsb is_macro (h_ways h)) eqn:X.
  - apply existsb_exists in X as (w & K & X). destruct w; [|discriminate X].
    assert (V' : forall n, In n (h_numbers h) ->
      In (source_file (t_name t) n (text "slt"), m' (source_file (t_name t) n (text "bmp"))) (b_result b)).
    { intros n J. rewrite Rs. apply in_flat_map. exists (source_file (t_name t) n (way_id Macro)). split.
      - eapply Permutation_in; [exact P|]. apply in_all. exists (t, h), n, Macro. auto.
      - unfold measured_with. rewrite contains_bmp by exact Pn. right. left. cbn [is_macro way_id]. rewrite replace_source by apply Pn. reflexivity. }
    apply plotted_literal; auto.
    + destruct (h_numbers h) as [|n ns]; [congruence|]. apply existsb_exists. eexists. split; [apply (V' n); left; reflexivity|].
      cbn [fst]. apply contains_slt_slt.
    + intros n J. apply get_in; [exact ND | apply V'; exact J].
  - rewrite app_nil_r. apply plotted_plain; auto; [split; assumption|]. unfold add_slt.
    destruct (existsb _ (b_result b)); [|reflexivity]. destruct S as ((gs & Q & Fs) & _). cbn [the_config c_files] in Q.
    apply Permutation_sym, Permutation_map_inv in Q as (ks & -> & Q).
    destruct ks as [|n ks]; [apply Permutation_sym, Permutation_nil in Q; contradiction|].
    cbn [map] in Fs. inversion Fs as [|a (k0 & f0) l1 l2 (E0 & R0) F0 E1 E2]; subst. cbn [snd] in R0.
    rewrite get_none; [reflexivity|]. intros J. apply (Permutation_in _ (Permutation_sym (Permutation_map fst R0))) in J.
    unfold inner in J. rewrite map_map in J. apply in_map_iff in J as (w & J & K). cbn [fst] in J.
    assert (existsb is_macro (h_ways h) = true) by (apply existsb_exists; exists w; split; [exact K | destruct w; [reflexivity | discriminate J]]). congruence.
Qed.

Lemma plot_without : forall run m ths files, (forall f, run f false = Some (m f)) -> (forall f, run f true = None) ->
  NoDup (names ths) -> Forall headed ths -> Permutation (flat_map t_sources ths) files ->
  exists b, benchmark run files = Some b /\ finished files b /\
  forall t h c, In (t, h) ths -> same_config (the_config t h) c ->
  exists curves, plotted c (b_result b) = Some curves /\ Permutation (map (way_curve m (t_name t) h) (h_ways h)) curves.
Proof.
  intros run m ths files R R' N F P.
  assert (W0 : Forall well_headed ths) by (eapply Forall_impl; [|exact F]; intros th H; apply H).
  pose proof (Permutation_NoDup P (all_nodup _ N W0)) as NF.
  destruct (benchmark_without run m files R R' NF) as (b & E & Rs & Fi).
  exists b. split; [exact E|]. split; [exact Fi|]. intros t h c I S. rewrite Forall_forall in F. pose proof (F _ I) as ((Sa & W) & Pn). cbn [fst snd] in *.
  apply plotted_plain; auto; [split; assumption | |].
  - unfold add_slt. replace (existsb _ (b_result b)) with false; [reflexivity|]. symmetry.
    destruct (existsb _ (b_result b)) eqn:X; [|reflexivity]. exfalso. apply existsb_exists in X as ((f & v) & J & X). cbn [fst] in X.
    rewrite Rs in J. apply in_map_iff in J as (f' & E' & J). injection E' as -> _.
    apply (Permutation_in _ (Permutation_sym P)) in J. apply in_all in J as (th & n & w & J & _ & _ & ->).
    apply F in J as (_ & J). rewrite contains_slt in X by exact J. discriminate X.
  - intros n w J K. apply get_in; [rewrite Rs, map_map; cbn [fst]; rewrite map_id; exact NF|]. rewrite Rs. apply in_map_iff.
    exists (source_file (t_name t) n (way_id w)). split; [reflexivity|]. eapply Permutation_in; [exact P|]. apply in_all. exists (t, h), n, w. auto.
Qed.

Lemma curves_with_is : forall m m' name h, NoDup (h_ways h) -> curves_with m m' name h =
  map (way_curve m name h) (h_ways h) ++ (if existsb is_macro (h_ways h) then [curve_of m' name h (text "bmp") literal_legend] else []).
Proof.
  intros m m' name h N. unfold curves_with. f_equal. change (text "bmp") with (way_id Macro).
  generalize (curve_of m' name h (way_id Macro) literal_legend). intros c. induction N as [|w ws X N IH]; [reflexivity|]. cbn [flat_map existsb].
  rewrite IH. destruct w; [|reflexivity]. cbn [is_macro orb]. destruct (existsb is_macro ws) eqn:E; [|reflexivity].
  exfalso. apply existsb_exists in E as (w & I & E). destruct w; [contradiction | discriminate E].
Qed.

(** ** The templates of a directory *)

Lemma ends_split : forall p s, ends p s = true -> s = firstn (length s - length p) s ++ p.
Proof.
  intros p s H. unfold ends in H. apply starts_inv in H as (r & E).
  assert (S : s = rev r ++ p).
  { rewrite <- (rev_involutive s), E, rev_app_distr, rev_involutive. reflexivity. }
  clear E. subst s. f_equal. rewrite app_length.
  replace (length (rev r) + length p - length p)%nat with (length (rev r)) by lia.
  rewrite firstn_app, Nat.sub_diag, firstn_all. cbn [firstn]. rewrite app_nil_r. reflexivity.
Qed.

Lemma templates_of_directory : forall src t,
  In t (templates_in src) <-> In (t_name t ++ text ".cpp", t_content t) src.
Proof.
  intros src t. unfold templates_in. rewrite in_map_iff. split.
  - intros ((n & c) & <- & I). apply filter_In in I as (I & E). cbn [fst snd t_name t_content] in *.
    apply ends_split in E. change (length (literal ".cpp")) with 4%nat in E.
    change (text ".cpp") with (literal ".cpp"). rewrite <- E. exact I.
  - intros I. exists (t_name t ++ text ".cpp", t_content t). cbn [fst snd]. split.
    + rewrite app_length. change (length (text ".cpp")) with 4%nat.
      replace (length (t_name t) + 4 - 4)%nat with (length (t_name t)) by lia.
      rewrite firstn_app, Nat.sub_diag, firstn_all. cbn [firstn]. rewrite app_nil_r. destruct t; reflexivity.
    + apply filter_In. split; [exact I|]. cbn [fst]. apply ends_app.
Qed.

Lemma template_names : forall src, NoDup (map fst src) -> NoDup (map t_name (templates_in src)).
Proof.
  intros src. induction src as [|(n & c) src IH]; intros N; [constructor|].
  inversion N as [|? ? X N']; subst. unfold templates_in in *. cbn [filter].
  destruct (ends (literal ".cpp") (fst (n, c))) eqn:E; [|apply IH; exact N'].
  cbn [map t_name fst snd]. constructor; [|apply IH; exact N']. intros I. apply X.
  apply in_map_iff in I as (t & T & I). apply (templates_of_directory src t) in I.
  apply in_map_iff. exists (t_name t ++ text ".cpp", t_content t). split; [|exact I]. cbn [fst].
  rewrite T. apply ends_split in E. cbn [fst] in E. symmetry. exact E.
Qed.
