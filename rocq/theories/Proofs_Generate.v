(** Proofs about the generator of the tutorial's headers. *)

From Coq Require Import ZArith List Bool Lia Permutation Sorted.
From Verif Require Import Base Messages Spec Benchmark SpecBenchmark Proofs_Benchmark
  Properties_Messages Generate SpecGenerate.
Import ListNotations.
Open Scope Z_scope.

(** ** The notions of the specification are those of Python *)

Lemma begins_starts : forall p s, begins p s = starts p s.
Proof. reflexivity. Qed.

Lemma skip_white_lstrip : forall s, skip_white s = lstrip s.
Proof. reflexivity. Qed.

Lemma strip_trim : forall s, strip s = trim s.
Proof. reflexivity. Qed.

Lemma lines_of_not_nil : forall s, lines_of s <> [].
Proof.
  induction s as [|c s IH]; cbn; [discriminate|].
  destruct (lines_of s); [congruence|]. destruct (c =? 10); discriminate.
Qed.

Lemma lines_of_split : forall s, lines_of s = split 10 s.
Proof.
  induction s as [|c s IH]; [reflexivity|]. cbn [lines_of split]. rewrite <- IH.
  pose proof (lines_of_not_nil s) as N. destruct (lines_of s); [congruence|]. reflexivity.
Qed.

(** ** Trimming *)

Definition whites (s : str) : Prop := Forall (fun c => white c = true) s.
(** No whitespace at its ends *)
Definition tight (s : str) : Prop :=
  s = [] \/ (white (hd 32 s) = false /\ white (last s 32) = false).

Lemma skip_white_app : forall u s, whites u -> skip_white (u ++ s) = skip_white s.
Proof.
  intros u s H. induction H as [|c u E H IH]; cbn [app skip_white]; auto. rewrite E. exact IH.
Qed.

Lemma skip_white_split : forall s, exists u, whites u /\ s = u ++ skip_white s.
Proof.
  induction s as [|c s (u & W & IH)]; cbn [skip_white].
  - exists []. split; constructor.
  - destruct (white c) eqn:E.
    + exists (c :: u). split; [constructor; auto|]. cbn. rewrite IH at 1. reflexivity.
    + exists []. split; constructor.
Qed.

Lemma skip_white_hd : forall s, skip_white s = [] \/ white (hd 32 (skip_white s)) = false.
Proof.
  induction s as [|c s IH]; cbn [skip_white]; auto.
  destruct (white c) eqn:E; auto.
Qed.

Lemma skip_white_id : forall s, white (hd 32 s) = false -> skip_white s = s.
Proof. intros [|c s] H; [reflexivity|]. cbn in *. rewrite H. reflexivity. Qed.

Lemma last_rev : forall (s : str) d, last s d = hd d (rev s).
Proof.
  intros s d. destruct s as [|c s] using rev_ind; [reflexivity|].
  rewrite last_last, rev_app_distr. reflexivity.
Qed.

Lemma whites_rev : forall s, whites s -> whites (rev s).
Proof. intros s H. apply Forall_rev. exact H. Qed.

Lemma whites_app : forall a b, whites a -> whites b -> whites (a ++ b).
Proof. intros. apply Forall_app. auto. Qed.

Lemma skip_white_whites : forall s, whites s -> skip_white s = [].
Proof.
  intros s H. rewrite <- (app_nil_r s), skip_white_app; auto.
Qed.

Lemma trim_whites : forall s, whites s -> trim s = [].
Proof. intros s H. unfold trim. rewrite (skip_white_whites s H). reflexivity. Qed.

(** What is trimmed *)
Lemma trim_app : forall u t v, whites u -> whites v -> tight t -> trim (u ++ t ++ v) = t.
Proof.
  intros u t v U V [->|(H & L)].
  - apply trim_whites. apply whites_app; auto.
  - assert (N : t <> []) by (intros ->; discriminate).
    unfold trim. rewrite skip_white_app by auto.
    rewrite (skip_white_id (t ++ v)).
    + rewrite rev_app_distr, skip_white_app by (apply whites_rev; auto).
      rewrite skip_white_id; [apply rev_involutive|]. rewrite <- last_rev. exact L.
    + destruct t; [congruence|exact H].
Qed.

Lemma trim_tight : forall t, tight t -> trim t = t.
Proof.
  intros t H. pose proof (trim_app [] t [] (Forall_nil _) (Forall_nil _) H) as E.
  cbn in E. rewrite app_nil_r in E. exact E.
Qed.

Lemma trim_split : forall s, exists u v, whites u /\ whites v /\ s = u ++ trim s ++ v
  /\ tight (trim s).
Proof.
  intros s. destruct (skip_white_split s) as (u & U & E).
  destruct (skip_white_split (rev (skip_white s))) as (v & V & F).
  exists u, (rev v). repeat split.
  all: try (apply whites_rev; exact V); auto.
  - rewrite E at 1. f_equal. rewrite <- (rev_involutive (skip_white s)), F at 1.
    rewrite rev_app_distr. reflexivity.
  - unfold trim. destruct (skip_white_hd (rev (skip_white s))) as [Q|Q].
    + left. rewrite Q. reflexivity.
    + destruct (skip_white_hd s) as [R|R]; [left; rewrite R; reflexivity|].
      right. split.
      * rewrite <- (rev_involutive (skip_white s)) in R.
        rewrite F in R. rewrite rev_app_distr in R.
        destruct (rev (skip_white (rev (skip_white s)))) eqn:Z; [|exact R].
        apply (f_equal (@rev char)) in Z. rewrite rev_involutive in Z. cbn in Z.
        rewrite Z in Q. discriminate.
      * rewrite last_rev, rev_involutive. exact Q.
Qed.

Ltac splits := repeat match goal with |- _ /\ _ => split end.

(** ** Definitions put together from lines *)

Definition no_newline (s : str) : Prop := Forall (fun c => c <> 10) s.

Lemma lines_no_newline : forall s, no_newline s -> lines_of s = [s].
Proof.
  intros s H. induction H as [|c s E H IH]; [reflexivity|]. cbn [lines_of]. rewrite IH.
  apply Z.eqb_neq in E. rewrite E. reflexivity.
Qed.

Lemma lines_newline : forall a b, lines_of (a ++ 10 :: b) = lines_of a ++ lines_of b.
Proof.
  intros a b. pose proof (lines_of_not_nil b) as N.
  induction a as [|c a IH]; cbn [app lines_of].
  - destruct (lines_of b); [congruence|]. reflexivity.
  - rewrite IH. pose proof (lines_of_not_nil a) as M.
    destruct (lines_of a) as [|l ls]; [congruence|]. cbn [app].
    destruct (c =? 10); reflexivity.
Qed.

(** The lines of a text given by its last line and the text before it *)
Lemma lines_app_last : forall a b, no_newline b -> exists ls l,
  lines_of a = ls ++ [l] /\ lines_of (a ++ b) = ls ++ [l ++ b].
Proof.
  intros a b H. induction a as [|c a (ls & l & E & F)]; cbn [app lines_of].
  - exists [], []. split; auto. apply lines_no_newline. exact H.
  - rewrite E, F. destruct ls as [|k ls]; cbn [app].
    + destruct (c =? 10); [exists [[]], l; auto|exists [], (c :: l); auto].
    + destruct (c =? 10); [exists ([] :: k :: ls), l; auto|exists ((c :: k) :: ls), l; auto].
Qed.

Definition good_piece (p : str) : Prop := tight p /\ p <> [] /\ no_newline p.

(** The text of a command in which each line but the first begins with a space and
    each but the last ends with one. *)
Inductive glued : list str -> str -> Prop :=
| gl_nil : glued [] []
| gl_one p : good_piece p -> glued [p] p
| gl_more ps a sp q : ps <> [] -> glued ps a -> good_piece q -> whites sp -> no_newline sp ->
    glued (ps ++ [q]) (a ++ 32 :: 10 :: sp ++ q).

Lemma last_app : forall (a b : str) d, b <> [] -> last (a ++ b) d = last b d.
Proof.
  intros a b d H. destruct b as [|c b] using rev_ind; [congruence|].
  rewrite app_assoc, !last_last. reflexivity.
Qed.

Lemma glued_nil : forall ps a, glued ps a -> (ps = [] <-> a = []).
Proof.
  intros ps a H. destruct H as [|p (_ & N & _)|ps a sp q N H G W L].
  - tauto.
  - split; congruence.
  - split; intro E.
    + destruct ps; discriminate.
    + destruct a; discriminate.
Qed.

Lemma glued_tight : forall ps a, glued ps a -> tight a.
Proof.
  intros ps a H. induction H as [|p (T & _)|ps a sp q N H IH (T & Q & _) W L].
  - left. reflexivity.
  - exact T.
  - right. destruct IH as [->|(H1 & H2)].
    + exfalso. apply N. apply (glued_nil ps []); auto.
    + split.
      * destruct a; [discriminate H1|exact H1].
      * change (32 :: 10 :: sp ++ q) with ((32 :: 10 :: sp) ++ q).
        rewrite app_assoc, last_app by exact Q. destruct T as [T|(_ & T)]; [congruence|exact T].
Qed.

Lemma glued_pieces : forall ps a, glued ps a -> Forall good_piece ps.
Proof.
  intros ps a H. induction H; auto using Forall_nil.
  apply Forall_app. auto.
Qed.

Lemma glued_lines : forall ps a, glued ps a -> ps <> [] -> map trim (lines_of a) = ps.
Proof.
  intros ps a H. induction H as [|p (T & _ & L)|ps a sp q N H IH (T & Q & M) W L]; intro NE.
  - congruence.
  - rewrite lines_no_newline by exact L. cbn. rewrite trim_tight by exact T. reflexivity.
  - specialize (IH N).
    replace (a ++ 32 :: 10 :: sp ++ q) with ((a ++ [32]) ++ 10 :: sp ++ q)
      by (rewrite <- app_assoc; reflexivity).
    rewrite lines_newline, map_app.
    rewrite (lines_no_newline (sp ++ q)) by (apply Forall_app; auto).
    cbn [map]. f_equal.
    + destruct (lines_app_last a [32]) as (ls & l & E & F).
      { constructor; [discriminate|constructor]. }
      rewrite F. rewrite E in IH. rewrite map_app in IH |- *. rewrite <- IH. f_equal. cbn [map].
      f_equal. destruct (trim_split l) as (u & v & U & V & S & TT).
      rewrite S at 1. rewrite <- !app_assoc. apply trim_app; auto.
      apply whites_app; auto. constructor; [reflexivity|constructor].
    + f_equal. rewrite <- (app_nil_r q) at 1. apply trim_app; auto. constructor.
Qed.

Lemma visible_trim : forall x, one_line x = true ->
  filter visible [trim x] = [] /\ trim x = [] /\ whites x \/
  filter visible [trim x] = [trim x] /\ good_piece (trim x)
    /\ exists u v, whites u /\ whites v /\ no_newline u /\ x = u ++ trim x ++ v.
Proof.
  intros x H. destruct (trim_split x) as (u & v & U & V & E & T).
  assert (N : no_newline x).
  { apply Forall_forall. intros c I. unfold one_line in H. rewrite forallb_forall in H.
    specialize (H c I). apply negb_true_iff, orb_false_iff in H as (H & _).
    apply Z.eqb_neq in H. exact H. }
  cbn [filter]. destruct (trim x) as [|c t] eqn:Q.
  - left. splits; auto. rewrite E. apply whites_app; auto.
  - right. cbn [visible]. splits; auto.
    + unfold good_piece; splits; auto; [discriminate|]. rewrite E in N. apply Forall_app in N as (_ & N).
      apply Forall_app in N as (N & _). exact N.
    + exists u, v. splits; auto. rewrite E in N. apply Forall_app in N as (N & _). exact N.
Qed.

Lemma glue_first : forall x, one_line x = true ->
  glued (filter visible [trim x]) (strip (32 :: x)).
Proof.
  intros x H. change (strip (32 :: x)) with (trim (32 :: x)).
  destruct (visible_trim x H) as [(-> & _ & W)|(-> & G & u & v & U & V & _ & E)].
  - rewrite trim_whites; [constructor|]. constructor; auto.
  - replace (trim (32 :: x)) with (trim x); [constructor; exact G|].
    rewrite E at 2. symmetry. apply (trim_app (32 :: u) (trim x) v); auto.
    + constructor; auto.
    + apply G.
Qed.

Lemma glue_step : forall ps a x, glued ps a -> one_line x = true ->
  glued (ps ++ filter visible [trim x]) (strip (a ++ 32 :: 10 :: 32 :: x)).
Proof.
  intros ps a x GA H. change (strip (a ++ 32 :: 10 :: 32 :: x)) with (trim (a ++ 32 :: 10 :: 32 :: x)). pose proof (glued_tight _ _ GA) as TA.
  destruct (visible_trim x H) as [(-> & _ & W)|(-> & G & u & v & U & V & NU & E)].
  - rewrite app_nil_r. replace (trim (a ++ 32 :: 10 :: 32 :: x)) with a; auto.
    symmetry. apply (trim_app [] a); auto; repeat (constructor; auto).
  - destruct (list_eq_dec Z.eq_dec a []) as [->|NA].
    + rewrite (proj2 (glued_nil _ _ GA) eq_refl). cbn [app].
      replace (trim (32 :: 10 :: 32 :: x)) with (trim x); [constructor; exact G|].
      rewrite E at 2. symmetry. apply (trim_app (32 :: 10 :: 32 :: u) (trim x) v); auto.
      * repeat (constructor; auto).
      * apply G.
    + assert (NP : ps <> []) by (intro Q; apply NA; apply (glued_nil _ _ GA); exact Q).
      assert (GG : glued (ps ++ [trim x]) (a ++ 32 :: 10 :: (32 :: u) ++ trim x)).
      { constructor; auto; constructor; auto. discriminate. }
      replace (trim (a ++ 32 :: 10 :: 32 :: x)) with (a ++ 32 :: 10 :: (32 :: u) ++ trim x); auto.
      rewrite E at 2. symmetry.
      replace (a ++ 32 :: 10 :: 32 :: u ++ trim x ++ v)
        with ([] ++ (a ++ 32 :: 10 :: (32 :: u) ++ trim x) ++ v).
      * apply trim_app; auto; [constructor|]. exact (glued_tight _ _ GG).
      * cbn [app]. rewrite <- app_assoc. cbn [app]. rewrite <- app_assoc. reflexivity.
Qed.

(** What [parse_md] has collected at the end of a command *)
Definition raw (c : command) : str :=
  fold_left (fun cur x => strip cur ++ 32 :: 10 :: 32 :: x) (snd c) (32 :: fst c).

Lemma raw_glued : forall c, forallb one_line (pieces c) = true ->
  glued (filter visible (map trim (pieces c))) (strip (raw c)).
Proof.
  intros [x xs] H. unfold pieces in *. cbn [fst snd forallb] in H.
  apply andb_true_iff in H as (H & HS). unfold raw. cbn [fst snd].
  assert (G : forall xs cur ps, forallb one_line xs = true -> glued ps (strip cur) ->
    glued (ps ++ filter visible (map trim xs))
      (strip (fold_left (fun cur x => strip cur ++ 32 :: 10 :: 32 :: x) xs cur))).
  { clear. induction xs as [|x xs IH]; intros cur ps H G; cbn [fold_left map].
    - rewrite app_nil_r. exact G.
    - cbn [forallb] in H. apply andb_true_iff in H as (H & HS).
      pose proof (glue_step _ _ x G H) as S. specialize (IH _ _ HS S).
      cbn [filter] in *. destruct (visible (trim x)); rewrite <- ?app_assoc in IH; exact IH. }
  specialize (G xs (32 :: x) _ HS (glue_first x H)).
  cbn [map filter] in *. destruct (visible (trim x)); exact G.
Qed.

(** ** Definitions and queries *)

(** A word that ends with its only space *)
Definition space_last (w : str) : Prop := exists v, w = v ++ [32] /\ ~ In 32 v.

Lemma starts_space : forall v p x y, ~ In 32 v ->
  starts (v ++ [32]) (p ++ 32 :: x) = starts (v ++ [32]) (p ++ 32 :: y).
Proof.
  induction v as [|c v IH]; intros p x y N.
  - destruct p as [|d p]; cbn [app starts]; auto.
  - cbn [app]. destruct p as [|d p]; cbn [app starts].
    + destruct (c =? 32) eqn:E; auto. apply Z.eqb_eq in E. subst. exfalso. apply N. now left.
    + f_equal. apply IH. intro H. apply N. now right.
Qed.

Lemma glued_first : forall ps a, glued ps a -> forall p ps', ps = p :: ps' ->
  (ps' = [] /\ a = p) \/ (ps' <> [] /\ exists r, a = p ++ 32 :: r).
Proof.
  intros ps a H. induction H as [|p G|ps a sp q N H IH G W L]; intros p' ps' E.
  - discriminate.
  - injection E as <- <-. auto.
  - destruct ps as [|p ps]; [congruence|]. injection E as <- <-. right. split.
    + destruct ps; discriminate.
    + destruct (IH p ps eq_refl) as [(-> & ->)|(_ & r & ->)].
      * exists (10 :: sp ++ q). reflexivity.
      * exists (r ++ 32 :: 10 :: sp ++ q). rewrite <- app_assoc. reflexivity.
Qed.

Lemma glued_starts : forall ps a w, glued ps a -> space_last w ->
  starts w a = starts w (separated (text " ") ps).
Proof.
  intros ps a w G (v & -> & N). destruct ps as [|p ps'].
  - rewrite (proj1 (glued_nil _ _ G) eq_refl). reflexivity.
  - destruct (glued_first _ _ G p ps' eq_refl) as [(-> & ->)|(NE & r & ->)]; [reflexivity|].
    destruct ps' as [|q ps']; [congruence|]. cbn [separated].
    change (text " " ++ separated (text " ") (q :: ps'))
      with (32 :: separated (text " ") (q :: ps')).
    apply starts_space. exact N.
Qed.

Lemma separated_last : forall (sep : str) (ps : list str) (q : str), q <> [] ->
  exists r, separated sep (ps ++ [q]) = r ++ q.
Proof.
  intros sep ps q H. induction ps as [|p ps (r & IH)]; cbn [app separated].
  - exists []. reflexivity.
  - destruct (ps ++ [q]) as [|k ks] eqn:E; [destruct ps; discriminate|].
    exists (p ++ sep ++ r). rewrite IH, <- !app_assoc. reflexivity.
Qed.

Lemma ends_with_app : forall c a q, q <> [] -> ends_with c (a ++ q) = ends_with c q.
Proof.
  intros c a q H. unfold ends_with. rewrite rev_app_distr.
  destruct (rev q) eqn:E; [|reflexivity].
  apply (f_equal (@rev char)) in E. rewrite rev_involutive in E. cbn in E. congruence.
Qed.

Lemma ends_ends_with : forall c s, ends [c] s = ends_with c s.
Proof.
  intros c s. unfold ends, ends_with. cbn [rev app]. destruct (rev s) as [|d r]; [reflexivity|].
  cbn [starts]. rewrite andb_true_r. apply Z.eqb_sym.
Qed.

Lemma glued_last : forall ps a c, glued ps a ->
  ends_with c a = ends_with c (separated (text " ") ps).
Proof.
  intros ps a c G. destruct G as [|p G|ps a sp q N H (T & Q & L) W S]; [reflexivity..|].
  destruct (separated_last (text " ") ps q Q) as (r & E).
  transitivity (ends_with c q);
    [|rewrite <- (ends_with_app c r q Q); f_equal; symmetry; exact E].
  change (32 :: 10 :: sp ++ q) with ((32 :: 10 :: sp) ++ q).
  rewrite app_assoc. apply ends_with_app. exact Q.
Qed.

Lemma is_definition_defines : forall c, forallb one_line (pieces c) = true ->
  is_definition (raw c) = defines c.
Proof.
  intros c H. pose proof (raw_glued c H) as G. unfold is_definition, defines.
  fold (one_liner c). cbn [existsb].
  assert (E : forall w, space_last w -> starts w (strip (raw c)) = begins w (one_liner c)).
  { intros w W. rewrite (glued_starts _ _ w G W). reflexivity. }
  rewrite !E.
  - rewrite ends_ends_with, (glued_last _ _ 59 G), orb_false_r, !orb_assoc. reflexivity.
  - exists (text "template"). split; [reflexivity|]. cbn. intuition discriminate.
  - exists (text "struct"). split; [reflexivity|]. cbn. intuition discriminate.
  - exists (text "using"). split; [reflexivity|]. cbn. intuition discriminate.
  - exists (text "#include"). split; [reflexivity|]. cbn. intuition discriminate.
Qed.

(** What is stored for a command *)
Definition def_text (c : command) : str := finish_command (raw c).

Definition query_text (s : str) : str :=
  strip (literal "// query:" ++ nl ++ prefix_lines (literal "//   ") s).

Lemma def_text_cases : forall c, forallb one_line (pieces c) = true ->
  def_text c = if defines c then protect_metashell (strip (raw c))
               else protect_metashell (query_text (raw c)).
Proof.
  intros c H. unfold def_text, finish_command. rewrite is_definition_defines by exact H.
  destruct (defines c); reflexivity.
Qed.

(** ** Sources *)

Lemma source_app : forall a b, source_lines (a ++ 10 :: b) = source_lines a ++ source_lines b.
Proof.
  intros. unfold source_lines. rewrite lines_newline, map_app, filter_app. reflexivity.
Qed.

Lemma source_line : forall l, no_newline l -> tight l -> significant l = true ->
  source_lines l = [l].
Proof.
  intros l N T S. unfold source_lines. rewrite lines_no_newline by exact N.
  cbn [map filter]. rewrite trim_tight by exact T. rewrite S. reflexivity.
Qed.

(** Trimming a text that begins with a given one *)
Lemma trim_begin : forall p r : str, white (hd 32 p) = false -> white (last p 32) = false ->
  exists r', trim (p ++ r) = p ++ r' /\ exists v, whites v /\ r = r' ++ v.
Proof.
  intros p r H L. destruct (trim_split (p ++ r)) as (u & v & U & V & E & T).
  assert (u = []) as ->.
  { destruct u as [|c u]; [reflexivity|]. exfalso. destruct p as [|d p]; [discriminate H|].
    cbn in E. injection E as -> E. cbn in H. inversion U; subst. congruence. }
  cbn [app] in E.
  assert (NP : p <> []) by (intros ->; discriminate).
  assert (exists r', trim (p ++ r) = p ++ r' /\ r = r' ++ v) as (r' & Q & R).
  { revert E. generalize (trim (p ++ r)) as t. revert H L V NP. clear.
    intros H L V NP t E.
    (* the end of p is not in v *)
    revert r E. induction v as [|c v IH] using rev_ind; intros r E.
    - rewrite app_nil_r in E. exists r. subst. rewrite app_nil_r. auto.
    - apply Forall_app in V as (V & C). inversion C as [|? ? C' _]; subst.
      destruct r as [|d r] using rev_ind.
      + exfalso. rewrite app_nil_r, app_assoc in E. rewrite E, last_last in L. congruence.
      + rewrite !app_assoc in E. apply app_inj_tail in E as (E & ->).
        destruct (IH V r E) as (r' & -> & ->). exists r'. rewrite app_assoc. auto. }
  exists r'. split; auto. exists v. auto.
Qed.

Lemma comment_trim : forall s, starts (text "//") (trim (text "//" ++ s)) = true.
Proof.
  intros s. destruct (trim_begin (text "//") s eq_refl eq_refl) as (r & -> & _).
  apply starts_app.
Qed.

Lemma source_comment : forall s, no_newline s -> source_lines (text "//" ++ s) = [].
Proof.
  intros s N. unfold source_lines. rewrite lines_no_newline.
  - cbn [map filter]. unfold significant.
    change (begins (text "//") (trim (text "//" ++ s)))
      with (starts (text "//") (trim (text "//" ++ s))).
    rewrite comment_trim, andb_false_r. reflexivity.
  - apply Forall_app. split; [|exact N]. repeat (constructor; [discriminate|]). constructor.
Qed.

Lemma lines_have_no_newline : forall s, Forall no_newline (lines_of s).
Proof.
  induction s as [|c s IH]; cbn [lines_of].
  - constructor; constructor.
  - destruct (lines_of s) as [|l ls]; [constructor|]. destruct (c =? 10) eqn:E.
    + constructor; [constructor|exact IH].
    + apply Z.eqb_neq in E. inversion IH; subst. constructor; auto. constructor; auto.
Qed.

Lemma join_lines : forall ls, ls <> [] -> Forall no_newline ls -> lines_of (join nl ls) = ls.
Proof.
  intros ls N F. induction F as [|l ls H F IH]; [congruence|].
  destruct ls as [|k ls]; cbn [join].
  - apply lines_no_newline. exact H.
  - etransitivity; [apply (lines_newline l (join nl (k :: ls)))|]. rewrite IH by discriminate.
    rewrite lines_no_newline by exact H. reflexivity.
Qed.

Lemma prefix_lines_lines : forall p s, no_newline p ->
  lines_of (prefix_lines p s) = map (fun l => p ++ l) (lines_of s).
Proof.
  intros p s N. unfold prefix_lines. rewrite <- lines_of_split. apply join_lines.
  - pose proof (lines_of_not_nil s). destruct (lines_of s); [congruence|discriminate].
  - apply Forall_forall. intros l H. apply in_map_iff in H as (k & <- & K).
    apply Forall_app. split; auto.
    pose proof (lines_have_no_newline s) as F. rewrite Forall_forall in F. exact (F k K).
Qed.

(** Trimming a text removes whitespace around its lines and empty lines. *)
Lemma source_whites : forall s, whites s -> source_lines s = [].
Proof.
  intros s W. unfold source_lines.
  assert (F : Forall whites (lines_of s)).
  { clear - W. induction W as [|c s H W IH]; cbn [lines_of].
    - constructor; constructor.
    - destruct (lines_of s) as [|l ls]; [constructor|]. destruct (c =? 10).
      + constructor; [constructor|exact IH].
      + inversion IH; subst. constructor; auto. constructor; auto. }
  induction F as [|l ls H F IH]; [reflexivity|]. cbn [map filter].
  rewrite trim_whites by exact H. exact IH.
Qed.

Lemma trim_white_end : forall s v, whites v -> trim (s ++ v) = trim s.
Proof.
  intros s v V. destruct (trim_split s) as (u & w & U & W & E & T).
  rewrite E at 1. rewrite <- !app_assoc. apply trim_app; auto. apply whites_app; auto.
Qed.

Lemma trim_white_begin : forall u s, whites u -> trim (u ++ s) = trim s.
Proof. intros u s U. unfold trim. rewrite skip_white_app by exact U. reflexivity. Qed.

Lemma source_white_end : forall v s, whites v -> source_lines (s ++ v) = source_lines s.
Proof.
  induction v as [|c v IH] using rev_ind; intros s V.
  - rewrite app_nil_r. reflexivity.
  - apply Forall_app in V as (V & C). inversion C as [|? ? C' _]; subst.
    rewrite app_assoc. destruct (Z.eq_dec c 10) as [->|N].
    + change [10] with (10 :: @nil char). rewrite source_app, IH by exact V.
      change (source_lines []) with (@nil str). apply app_nil_r.
    + destruct (lines_app_last (s ++ v) [c]) as (ls & l & E & F).
      { constructor; [exact N|constructor]. }
      rewrite <- (IH s V). unfold source_lines. rewrite E, F, !map_app, !filter_app.
      cbn [map]. rewrite trim_white_end; [reflexivity|]. constructor; [exact C'|constructor].
Qed.

Lemma source_query : forall s, source_lines (query_text s) = [].
Proof.
  intros s. unfold query_text. change strip with trim.
  change (literal "// query:" ++ nl ++ prefix_lines (literal "//   ") s)
    with (text "//" ++ (text " query:" ++ nl ++ prefix_lines (literal "//   ") s)).
  match goal with |- context [text "//" ++ ?r] => generalize (eq_refl r); generalize r at 2 3 end.
  intros r E. destruct (trim_begin (text "//") r eq_refl eq_refl) as (r' & -> & v & V & R).
  rewrite <- (source_white_end v) by exact V. rewrite <- app_assoc, <- R, <- E.
  change (text "//" ++ text " query:" ++ nl ++ prefix_lines (literal "//   ") s)
    with (text "// query:" ++ 10 :: prefix_lines (literal "//   ") s).
  rewrite source_app. change (source_lines (text "// query:")) with (@nil str). cbn [app].
  unfold source_lines. rewrite prefix_lines_lines.
  - rewrite map_map. induction (lines_of s) as [|l ls IH]; [reflexivity|].
    cbn [map filter]. unfold significant at 1.
    change (begins (text "//") (trim (literal "//   " ++ l)))
      with (starts (text "//") (trim (text "//" ++ (text "   " ++ l)))).
    rewrite comment_trim, andb_false_r. exact IH.
  - repeat (constructor; [discriminate|]). constructor.
Qed.

Lemma query_not_protected : forall s, protect_metashell (query_text s) = query_text s.
Proof.
  intros s. unfold query_text. change strip with trim.
  change (literal "// query:" ++ nl ++ prefix_lines (literal "//   ") s)
    with (text "//" ++ (text " query:" ++ nl ++ prefix_lines (literal "//   ") s)).
  match goal with |- context [text "//" ++ ?r] =>
    destruct (trim_begin (text "//") r eq_refl eq_refl) as (r' & -> & _) end.
  reflexivity.
Qed.

Ltac slia := unfold str, char in *; lia.

(** ** Reading a guide *)

Definition with_cmd (m : md) (d : list (str * str)) (cmd : str) : md :=
  {| md_sections := md_sections m; md_defs := md_defs m ++ d; md_section := md_section m;
     md_in_cpp := true; md_in_msh := true; md_cmd := cmd |}.

(** A command can begin here. *)
Definition ready (m : md) : Prop :=
  md_cmd m = [] /\ (md_in_cpp m = false \/ md_in_msh m = true).

Lemma ready_msh : forall m, ready m -> negb (md_in_cpp m) || md_in_msh m = true.
Proof. intros m (_ & [-> | ->]); [reflexivity|apply orb_true_r]. Qed.

Lemma remove_newline_app : forall p x, one_line x = true -> one_line p = true ->
  remove_newline (p ++ x ++ eol) = p ++ x.
Proof.
  intros p x X P. unfold remove_newline, eol. rewrite !filter_app.
  cbn [filter Z.eqb Pos.eqb orb negb]. rewrite app_nil_r.
  unfold one_line in *. rewrite forallb_forall in X, P.
  rewrite !filter_all; [reflexivity| |].
  - intros c I. apply X in I. rewrite orb_comm. exact I.
  - intros c I. apply P in I. rewrite orb_comm. exact I.
Qed.

Lemma one_line_app : forall a b, one_line a = true -> one_line b = true -> one_line (a ++ b) = true.
Proof. intros a b A B. unfold one_line in *. rewrite forallb_app. apply andb_true_iff. split; [exact A|exact B]. Qed.

Lemma command_prompt : forall x, starts (text " ") x = false ->
  metashell_command (text "> " ++ x ++ eol) = true.
Proof.
  intros x H. destruct x as [|c x]; [reflexivity|].
  change ((32 =? c) && true = false) in H. rewrite andb_true_r, Z.eqb_sym in H.
  change (negb (c =? 32) = true). rewrite H. reflexivity.
Qed.

Lemma add_first : forall x, one_line x = true -> add_command [] (text "> " ++ x ++ eol) = 32 :: x.
Proof.
  intros x H. unfold add_command. rewrite (remove_newline_app (text "> ") x H eq_refl). reflexivity.
Qed.

Lemma add_more : forall a x, one_line x = true ->
  add_command (a ++ [32]) (text "...> " ++ x ++ eol) = a ++ 32 :: 10 :: 32 :: x.
Proof.
  intros a x H. unfold add_command. rewrite (remove_newline_app (text "...> ") x H eq_refl).
  change (remove_prompt (text "...> " ++ x)) with (32 :: x).
  destruct (a ++ [32]) eqn:E; [destruct a; discriminate|]. rewrite <- E.
  unfold nl. rewrite <- !app_assoc. reflexivity.
Qed.

Lemma drop_backslash : forall a, drop_last (a ++ [92]) = a.
Proof. intros a. unfold drop_last. apply removelast_last. Qed.

Lemma ends_backslash : forall a, ends [92] (a ++ [92]) = true.
Proof. intros a. unfold ends. rewrite rev_app_distr. reflexivity. Qed.

Lemma md_command_line : forall m ll cmd, negb (md_in_cpp m) || md_in_msh m = true ->
  metashell_command ll || match md_cmd m with [] => false | _ => true end = true ->
  add_command (md_cmd m) ll = cmd ->
  md_line m (text "  " ++ ll)
  = if ends [92] cmd then with_cmd m [] (strip (drop_last cmd) ++ [32])
    else with_cmd m [(md_section m, finish_command cmd)] [].
Proof.
  intros m ll cmd H K <-. unfold md_line.
  change (starts (literal "  ") (text "  " ++ ll)) with true.
  change (skipn 2 (text "  " ++ ll)) with ll. cbv zeta. rewrite H, K. unfold with_cmd.
  destruct (ends [92] (add_command (md_cmd m) ll)); [|reflexivity].
  rewrite app_nil_r. reflexivity.
Qed.

Lemma cmd_not_nil : forall a : str,
  match a ++ [32] with [] => false | _ => true end = true.
Proof. intros [|c a]; reflexivity. Qed.

Lemma md_first_more : forall m x, ready m -> one_line x = true -> starts (text " ") x = false ->
  md_line m (text "  > " ++ x ++ [92] ++ eol) = with_cmd m [] (strip (32 :: x) ++ [32]).
Proof.
  intros m x R H S.
  assert (one_line (x ++ [92]) = true) by (apply one_line_app; auto).
  change (text "  > " ++ x ++ [92] ++ eol) with (text "  " ++ (text "> " ++ x ++ [92] ++ eol)).
  replace (x ++ [92] ++ eol) with ((x ++ [92]) ++ eol) by (rewrite <- app_assoc; reflexivity).
  erewrite md_command_line;
    [|apply ready_msh; exact R| |rewrite (proj1 R); apply add_first; auto].
  - change (32 :: x ++ [92]) with ((32 :: x) ++ [92]). rewrite ends_backslash, drop_backslash.
    reflexivity.
  - rewrite command_prompt; [reflexivity|]. destruct x; [reflexivity|exact S].
Qed.

Lemma md_single : forall m x, ready m -> one_line x = true -> starts (text " ") x = false ->
  ends_with 92 x = false ->
  md_line m (text "  > " ++ x ++ eol)
  = with_cmd m [(md_section m, finish_command (32 :: x))] [].
Proof.
  intros m x R H S E.
  change (text "  > " ++ x ++ eol) with (text "  " ++ (text "> " ++ x ++ eol)).
  erewrite md_command_line;
    [|apply ready_msh; exact R| |rewrite (proj1 R); apply add_first; auto].
  - rewrite ends_ends_with. change (32 :: x) with ([32] ++ x).
    destruct x as [|c x]; [reflexivity|]. rewrite ends_with_app by discriminate.
    rewrite E. reflexivity.
  - rewrite command_prompt by exact S. reflexivity.
Qed.

Lemma md_more : forall m a x, md_cmd m = a ++ [32] -> md_in_msh m = true -> one_line x = true ->
  md_line m (text "  ...> " ++ x ++ [92] ++ eol)
  = with_cmd m [] (strip (a ++ 32 :: 10 :: 32 :: x) ++ [32]).
Proof.
  intros m a x C M H.
  assert (one_line (x ++ [92]) = true) by (apply one_line_app; auto).
  change (text "  ...> " ++ x ++ [92] ++ eol)
    with (text "  " ++ (text "...> " ++ x ++ [92] ++ eol)).
  replace (x ++ [92] ++ eol) with ((x ++ [92]) ++ eol) by (rewrite <- app_assoc; reflexivity).
  erewrite md_command_line;
    [|rewrite M; apply orb_true_r
     |rewrite C, cmd_not_nil; apply orb_true_r
     |rewrite C; apply add_more; auto].
  replace (a ++ 32 :: 10 :: 32 :: x ++ [92]) with ((a ++ 32 :: 10 :: 32 :: x) ++ [92])
    by (rewrite <- app_assoc; reflexivity).
  rewrite ends_backslash, drop_backslash. reflexivity.
Qed.

Lemma md_last : forall m a x, md_cmd m = a ++ [32] -> md_in_msh m = true -> one_line x = true ->
  ends_with 92 x = false ->
  md_line m (text "  ...> " ++ x ++ eol)
  = with_cmd m [(md_section m, finish_command (a ++ 32 :: 10 :: 32 :: x))] [].
Proof.
  intros m a x C M H E.
  change (text "  ...> " ++ x ++ eol) with (text "  " ++ (text "...> " ++ x ++ eol)).
  erewrite md_command_line;
    [|rewrite M; apply orb_true_r
     |rewrite C, cmd_not_nil; apply orb_true_r
     |rewrite C; apply add_more; auto].
  rewrite ends_ends_with.
  replace (a ++ 32 :: 10 :: 32 :: x) with ((a ++ [32; 10]) ++ (32 :: x))
    by (rewrite <- app_assoc; reflexivity).
  rewrite ends_with_app by discriminate.
  change (32 :: x) with ([32] ++ x). destruct x as [|c x]; [reflexivity|].
  rewrite ends_with_app by discriminate. rewrite E. reflexivity.
Qed.

Lemma with_cmd_cmd : forall m d c e k, with_cmd (with_cmd m d c) e k = with_cmd m (d ++ e) k.
Proof. intros. unfold with_cmd. cbn. rewrite <- app_assoc. reflexivity. Qed.

Lemma continued : forall xs m cur, xs <> [] -> md_cmd m = strip cur ++ [32] ->
  md_in_msh m = true -> forallb one_line xs = true -> ends_with 92 (last xs []) = false ->
  fold_left md_line (prompts (text "  ...> ") xs) m
  = with_cmd m [(md_section m, finish_command
      (fold_left (fun cur x => strip cur ++ 32 :: 10 :: 32 :: x) xs cur))] [].
Proof.
  induction xs as [|x xs IH]; intros m cur N C M H E; [congruence|].
  cbn [forallb] in H. apply andb_true_iff in H as (H & HS).
  destruct xs as [|y xs].
  - cbn [prompts fold_left]. cbn in E. rewrite (md_last m (strip cur) x C M H E). reflexivity.
  - change (prompts (text "  ...> ") (x :: y :: xs))
      with ((text "  ...> " ++ x ++ [92] ++ eol) :: prompts (text "  ...> ") (y :: xs)).
    cbn [fold_left]. rewrite (md_more m (strip cur) x C M H).
    erewrite IH; [|discriminate|reflexivity|reflexivity|exact HS|exact E].
    rewrite with_cmd_cmd. reflexivity.
Qed.

Lemma read_command : forall m c, ready m -> good_command c = true ->
  fold_left md_line (command_lines c) m = with_cmd m [(md_section m, def_text c)] [].
Proof.
  intros m (x, xs) R G. unfold good_command, pieces in G. cbn [fst snd forallb] in G.
  apply andb_true_iff in G as (G & L). apply andb_true_iff in G as (G & S).
  apply andb_true_iff in G as (H & HS). apply negb_true_iff in L, S.
  unfold command_lines, pieces, def_text, raw. cbn [fst snd].
  destruct xs as [|y xs].
  - cbn [prompts fold_left]. cbn in L. rewrite (md_single m x R H S L). reflexivity.
  - change (prompts (text "  > ") (x :: y :: xs))
      with ((text "  > " ++ x ++ [92] ++ eol) :: prompts (text "  ...> ") (y :: xs)).
    cbn [fold_left]. rewrite (md_first_more m x R H S).
    erewrite continued; [|discriminate|reflexivity|reflexivity|exact HS|].
    + rewrite with_cmd_cmd. reflexivity.
    + rewrite <- L. f_equal. clear. revert y. induction xs; intros; [reflexivity|]. apply IHxs.
Qed.

Lemma ready_with : forall m d, ready (with_cmd m d []).
Proof. intros. split; [reflexivity|right; reflexivity]. Qed.

Lemma no_prompt_command : forall l, no_prompt l = true -> metashell_command (l ++ eol) = false.
Proof.
  intros l H. unfold no_prompt in H. apply andb_true_iff in H as (H & _).
  apply negb_true_iff in H. destruct l as [|a [|b l]]; try reflexivity.
  - cbn in *. destruct a as [|p|p]; try reflexivity.
    do 7 (destruct p as [p|p|]; try reflexivity).
  - cbn in H. rewrite andb_true_r in H. unfold metashell_command. cbn [app].
    destruct (Z.eq_dec a 62) as [->|NA].
    + destruct (Z.eq_dec b 32) as [->|NB]; [discriminate H|].
      destruct b as [|p|p]; try reflexivity.
      do 6 (destruct p as [p|p|]; try reflexivity). congruence.
    + destruct a as [|p|p]; try reflexivity.
      do 6 (destruct p as [p|p|]; try reflexivity). congruence.
Qed.

Lemma read_answer : forall m d l, no_prompt l = true ->
  md_line (with_cmd m d []) (text "  " ++ l ++ eol) = with_cmd m d [].
Proof.
  intros m d l H. unfold md_line.
  change (starts (literal "  ") (text "  " ++ l ++ eol)) with true.
  change (skipn 2 (text "  " ++ l ++ eol)) with (l ++ eol). cbv zeta.
  cbn [md_cmd with_cmd md_in_cpp md_in_msh negb orb].
  rewrite (no_prompt_command l H). reflexivity.
Qed.

Definition defs_for (s : str) (cs : list command) : list (str * str) :=
  map (fun c => (s, def_text c)) cs.

Lemma read_items : forall items m d, forallb good_item items = true ->
  fold_left md_line (concat (map item_lines items)) (with_cmd m d [])
  = with_cmd m (d ++ defs_for (md_section m) (items_commands items)) [].
Proof.
  induction items as [|i items IH]; intros m d H.
  - cbn. rewrite app_nil_r. reflexivity.
  - cbn [forallb] in H. apply andb_true_iff in H as (H & HS). cbn [map concat].
    rewrite fold_left_app. destruct i as [c|l]; cbn [item_lines].
    + rewrite (read_command _ c (ready_with m d) H), with_cmd_cmd, IH by exact HS.
      cbn [md_section with_cmd]. unfold items_commands, defs_for. cbn [map concat app].
      rewrite <- app_assoc. reflexivity.
    + cbn [good_item] in H. apply andb_true_iff in H as (_ & H).
      cbn [fold_left]. rewrite read_answer by exact H. apply IH. exact HS.
Qed.

(** At the beginning of a block *)
Definition at_block (m : md) (listing : bool) : Prop :=
  md_cmd m = [] /\ (listing = true -> md_in_cpp m = false).

(** What a block adds *)
Definition reads (m : md) (b : block) (m' : md) : Prop :=
  md_sections m' = md_sections m ++ map name (block_numbers b)
  /\ md_defs m' = md_defs m ++ defs_for (md_section m) (block_commands b)
  /\ md_section m' = last (map name (block_numbers b)) (md_section m)
  /\ md_cmd m' = [] /\ (is_listing b = false -> md_in_cpp m' = false).

Lemma plain_listing : forall ls m, md_cmd m = [] -> md_in_cpp m = true -> md_in_msh m = false ->
  fold_left md_line (map (fun l => text "  " ++ l ++ eol) ls) m = m.
Proof.
  induction ls as [|l ls IH]; intros m C P M; [reflexivity|]. cbn [map fold_left].
  replace (md_line m (text "  " ++ l ++ eol)) with m; [apply IH; auto|].
  unfold md_line. change (starts (literal "  ") (text "  " ++ l ++ eol)) with true. cbv zeta.
  rewrite P, M. cbn [negb orb]. destruct m; cbn in *; subst. reflexivity.
Qed.

Lemma read_listing : forall l ls m, at_block m true -> no_prompt l = true ->
  reads m (Listing l ls) (fold_left md_line (block_lines (Listing l ls)) m).
Proof.
  intros l ls m (C & P) H. specialize (P eq_refl). cbn [block_lines map fold_left].
  assert (E : md_line m (text "  " ++ l ++ eol)
    = {| md_sections := md_sections m; md_defs := md_defs m; md_section := md_section m;
         md_in_cpp := true; md_in_msh := false; md_cmd := [] |}).
  { unfold md_line. change (starts (literal "  ") (text "  " ++ l ++ eol)) with true.
    change (skipn 2 (text "  " ++ l ++ eol)) with (l ++ eol). cbv zeta.
    rewrite P, C, (no_prompt_command l H). reflexivity. }
  rewrite E, plain_listing by reflexivity.
  unfold reads. cbn. rewrite !app_nil_r. splits; auto.
Qed.

Lemma read_session : forall c items m, at_block m true -> good_block (Session c items) = true ->
  reads m (Session c items) (fold_left md_line (block_lines (Session c items)) m).
Proof.
  intros c items m (C & P) H. specialize (P eq_refl). cbn [good_block] in H.
  apply andb_true_iff in H as (H & HS). cbn [block_lines]. rewrite fold_left_app.
  rewrite read_command by (auto; split; auto). rewrite read_items by exact HS.
  unfold reads. cbn [md_sections md_defs md_section md_cmd md_in_cpp with_cmd block_numbers
    map last block_commands is_listing]. rewrite app_nil_r. splits; auto.
Qed.

(** ** Numbers *)

Lemma print_digits : forall k, 0 <= k -> Forall digit_char (print_number k)
  /\ print_number k <> [].
Proof.
  intros k H. split; [apply C44_numbers_are_decimal; exact H|apply print_int_nonempty].
Qed.

Lemma take_digits : forall f (a b : str), Forall (fun c => f c = true) a ->
  match b with c :: _ => f c = false | [] => True end -> take_while f (a ++ b) = a.
Proof.
  intros f a b H B. induction H as [|c a E H IH]; cbn [app take_while].
  - destruct b; [reflexivity|]. cbn. rewrite B. reflexivity.
  - rewrite E, IH. reflexivity.
Qed.

Definition digit_or (d : char) (c : char) : Prop := 48 <= c <= 57 \/ c = d.

Lemma separated_chars : forall d n, Forall (fun k => 0 <= k) n ->
  Forall (digit_or d) (separated [d] (map print_number n)).
Proof.
  intros d n H. induction H as [|k n K H IH]; [constructor|]. cbn [map].
  assert (F : Forall (digit_or d) (print_number k)).
  { eapply Forall_impl; [|apply (print_digits k K)]. intros c D. left. exact D. }
  destruct n as [|j n]; [exact F|].
  change (separated [d] (print_number k :: map print_number (j :: n)))
    with (print_number k ++ [d] ++ separated [d] (map print_number (j :: n))).
  apply Forall_app. split; [exact F|]. constructor; [right; reflexivity|exact IH].
Qed.

Lemma separated_not_nil : forall d n, n <> [] -> Forall (fun k => 0 <= k) n ->
  separated [d] (map print_number n) <> [].
Proof.
  intros d n N H. destruct H as [|k n K H]; [congruence|]. cbn [map].
  destruct (print_digits k K) as (_ & P).
  destruct (print_number k) as [|c r] eqn:E; [congruence|].
  destruct (map print_number n); cbn; discriminate.
Qed.

Lemma replace_separated : forall n, Forall (fun k => 0 <= k) n ->
  replace 46 95 (dotted n) = name n.
Proof.
  intros n H. unfold dotted, name, replace. induction H as [|k n K H IH]; [reflexivity|].
  assert (E : map (fun c => if c =? 46 then 95 else c) (print_number k) = print_number k).
  { transitivity (map (fun c : char => c) (print_number k)); [|apply map_id].
    apply map_ext_in. intros c I. destruct (print_digits k K) as (F & _).
    rewrite Forall_forall in F. specialize (F c I). unfold digit_char in F.
    replace (c =? 46) with false; [reflexivity|]. symmetry. apply Z.eqb_neq. slia. }
  destruct n as [|j n]; [exact E|].
  change (separated [46] (map print_number (k :: j :: n)))
    with (print_number k ++ [46] ++ separated [46] (map print_number (j :: n))).
  change (separated [95] (map print_number (k :: j :: n)))
    with (print_number k ++ [95] ++ separated [95] (map print_number (j :: n))).
  rewrite map_app. apply (f_equal2 (@app char) E). cbn [app map]. apply (f_equal (cons 95) IH).
Qed.

Lemma heading_number : forall n title, Forall (fun k => 0 <= k) n -> n <> [] ->
  numbered_section (text "[section " ++ dotted n ++ text ". " ++ title ++ eol)
  = Some (dotted n ++ [46]).
Proof.
  intros n title H N. unfold numbered_section.
  change (starts (literal "[section") (text "[section " ++ dotted n ++ text ". " ++ title ++ eol))
    with true. cbv iota.
  assert (E : drop_while (Z.eqb 32)
      (skipn 8 (text "[section " ++ dotted n ++ text ". " ++ title ++ eol))
    = dotted n ++ text ". " ++ title ++ eol).
  { transitivity (drop_while (Z.eqb 32) (dotted n ++ text ". " ++ title ++ eol)); [reflexivity|].
    assert (C : Forall (digit_or 46) (dotted n)) by exact (separated_chars 46 n H).
    assert (D : dotted n <> []) by exact (separated_not_nil 46 n N H).
    destruct (dotted n) as [|c r]; [exfalso; apply D; reflexivity|]. inversion C as [|? ? B _]; subst.
    cbn [app drop_while]. replace (32 =? c) with false; [reflexivity|].
    symmetry. apply Z.eqb_neq. unfold digit_or in B. slia. }
  rewrite E. clear E.
  set (F := fun c : char => is_ascii_digit c || (c =? 46)).
  assert (T : take_while F (dotted n ++ text ". " ++ title ++ eol) = dotted n ++ [46]).
  { replace (dotted n ++ text ". " ++ title ++ eol)
      with ((dotted n ++ [46]) ++ 32 :: title ++ eol) by (rewrite <- app_assoc; reflexivity).
    apply take_digits; [|reflexivity].
    apply Forall_app. split; [|constructor; [reflexivity|constructor]].
    eapply Forall_impl; [|apply (separated_chars 46 n H)].
    intros c [D|D]; unfold F, is_ascii_digit.
    - apply orb_true_iff. left. apply andb_true_iff. split; apply Z.leb_le; slia.
    - rewrite D. apply orb_true_r. }
  rewrite T. destruct (dotted n); reflexivity.
Qed.

(** ** Whole guides *)

Lemma starts_eol : forall p s, ~ In 10 p -> starts p (s ++ eol) = starts p s.
Proof.
  induction p as [|a p IH]; intros s N; [reflexivity|].
  destruct s as [|b s]; cbn [app starts].
  - unfold eol. replace (a =? 10) with false; [reflexivity|].
    symmetry. apply Z.eqb_neq. intros ->. apply N. now left.
  - rewrite IH; auto. intro I. apply N. now right.
Qed.

Lemma first_digit : forall f (r : str), (forall c, f c = true -> white c = false) ->
  match skip_white r with c :: _ => f c | [] => false end = false ->
  take_while f (drop_while (Z.eqb 32) (r ++ eol)) = [].
Proof.
  intros f r F. induction r as [|c r IH]; intro H.
  - cbn. destruct (f 10) eqn:E; [|reflexivity]. apply F in E. discriminate.
  - cbn [skip_white] in H. cbn [app drop_while]. destruct (32 =? c) eqn:E.
    + apply Z.eqb_eq in E. subst c. apply IH. exact H.
    + cbn [take_while]. destruct (white c) eqn:W.
      * destruct (f c) eqn:Q; [|reflexivity]. apply F in Q. congruence.
      * rewrite H. reflexivity.
Qed.

Lemma unnumbered_none : forall l, unnumbered l = true -> numbered_section (l ++ eol) = None.
Proof.
  intros l H. unfold unnumbered in H. apply negb_true_iff in H.
  unfold numbered_section. rewrite starts_eol by (cbn; intuition discriminate).
  change (begins (text "[section") l) with (starts (literal "[section") l) in H.
  destruct (starts (literal "[section") l) eqn:S; [|reflexivity]. cbn [andb] in H.
  replace (take_while _ _) with (@nil char); [reflexivity|]. symmetry.
  assert (E : skipn 8 (l ++ eol) = skipn 8 l ++ eol).
  { apply starts_inv in S as (r & ->). reflexivity. }
  rewrite E. apply first_digit.
  - intros c D. unfold white, is_ascii_digit in *. apply orb_true_iff in D as [D|D].
    + apply andb_true_iff in D as (D1 & D2). apply Z.leb_le in D1, D2.
      apply orb_false_iff. split; [apply Z.eqb_neq; slia|].
      apply andb_false_iff. right. apply Z.leb_gt. slia.
    + apply Z.eqb_eq in D. rewrite D. reflexivity.
  - exact H.
Qed.

Lemma read_prose : forall l m, md_cmd m = [] -> good_block (Prose l) = true ->
  reads m (Prose l) (fold_left md_line (block_lines (Prose l)) m).
Proof.
  intros l m C H. cbn [good_block] in H. apply andb_true_iff in H as (H & U).
  apply andb_true_iff in H as (_ & S). apply negb_true_iff in S.
  cbn [block_lines fold_left]. unfold md_line.
  rewrite starts_eol by (cbn; intuition discriminate).
  change (starts (literal "  ") l) with (begins (text "  ") l). rewrite S.
  rewrite unnumbered_none by exact U. unfold reads. cbn. rewrite !app_nil_r. splits; auto.
Qed.

Lemma good_numbers : forall n title, good_block (Heading n title) = true ->
  Forall (fun k => 0 <= k) n /\ n <> [].
Proof.
  intros n title H. cbn [good_block] in H. apply andb_true_iff in H as (H & _).
  apply andb_true_iff in H as (H & N). split.
  - apply Forall_forall. intros k K. rewrite forallb_forall in H. apply H, Z.leb_le in K. exact K.
  - destruct n; [discriminate N|discriminate].
Qed.

Lemma read_heading : forall n title m, md_cmd m = [] -> good_block (Heading n title) = true ->
  reads m (Heading n title) (fold_left md_line (block_lines (Heading n title)) m).
Proof.
  intros n title m C H. destruct (good_numbers _ _ H) as (P & N).
  cbn [block_lines fold_left]. unfold md_line.
  change (starts (literal "  ") (text "[section " ++ dotted n ++ text ". " ++ title ++ eol))
    with false. cbv iota. rewrite (heading_number n title P N). cbv zeta iota.
  assert (E : remove_last_dot (dotted n ++ [46]) = dotted n).
  { unfold remove_last_dot, ends, drop_last. rewrite rev_app_distr. cbn [rev app starts].
    apply removelast_last. }
  rewrite E, replace_separated by exact P. unfold reads. cbn. rewrite !app_nil_r. splits; auto.
Qed.

Lemma read_block : forall b m, at_block m (is_listing b) -> good_block b = true ->
  reads m b (fold_left md_line (block_lines b) m).
Proof.
  intros [l|n title|c items|l ls] m A H.
  - apply read_prose; [apply A|exact H].
  - apply read_heading; [apply A|exact H].
  - apply read_session; [exact A|exact H].
  - apply read_listing; [exact A|]. cbn [good_block] in H.
    apply andb_true_iff in H as (H & _). exact H.
Qed.

(** The definitions with the sections they are in *)
Fixpoint tagged (s : str) (g : list block) : list (str * str) :=
  match g with
  | [] => []
  | b :: g' => defs_for s (block_commands b) ++ tagged (last (map name (block_numbers b)) s) g'
  end.

Lemma read_guide : forall g m,
  at_block m (match g with b :: _ => is_listing b | [] => false end) ->
  forallb good_block g = true -> apart g = true ->
  let m' := fold_left md_line (guide_lines g) m in
  md_sections m' = md_sections m ++ map name (numbers g)
  /\ md_defs m' = md_defs m ++ tagged (md_section m) g.
Proof.
  induction g as [|b g IH]; intros m A H P; cbv zeta.
  - cbn. rewrite !app_nil_r. auto.
  - unfold guide_lines. cbn [map concat]. rewrite fold_left_app.
    cbn [forallb] in H. apply andb_true_iff in H as (H & HS).
    destruct (read_block b m A H) as (R1 & R2 & R3 & R4 & R5).
    destruct (IH (fold_left md_line (block_lines b) m)) as (I1 & I2); auto.
    + split; auto. destruct g as [|b' g]; [discriminate|]. intro L. apply R5.
      cbn [apart] in P. apply andb_true_iff in P as (P & _). apply negb_true_iff in P.
      rewrite L, andb_true_r in P. exact P.
    + destruct g as [|b' g]; [reflexivity|]. cbn [apart] in P. apply andb_true_iff in P as (_ & P).
      exact P.
    + unfold guide_lines in I1, I2. cbv zeta in I1, I2.
      rewrite I1, I2, R1, R2, R3. cbn [tagged]. unfold numbers. cbn [map concat].
      rewrite map_app, !app_assoc. auto.
Qed.

(** ** The order of the sections *)

Lemma fold_decimal : forall s v,
  fold_left (fun v c => 10 * v + (c - 48)) s v = decimal_acc v s.
Proof.
  induction s as [|c s IH]; intros v; [reflexivity|]. cbn [fold_left decimal_acc].
  rewrite IH. f_equal. slia.
Qed.

Lemma int_print : forall k, 0 <= k -> int_of (print_number k) = Some k.
Proof.
  intros k H. destruct (print_digits k H) as (_ & N).
  pose proof (proj2 (proj1 (C44_numbers_are_decimal k) H)) as D.
  change (decimal (print_number k) = k) in D. unfold int_of.
  rewrite fold_decimal. change (decimal_acc 0 (print_number k)) with (decimal (print_number k)).
  rewrite D. destruct (print_number k); [congruence|]. reflexivity.
Qed.

Lemma ints_print : forall n, Forall (fun k => 0 <= k) n ->
  ints_of (map print_number n) = Some n.
Proof.
  intros n H. induction H as [|k n K H IH]; [reflexivity|]. cbn [map ints_of].
  rewrite int_print, IH by exact K. reflexivity.
Qed.

Lemma split_no : forall d w, ~ In d w -> split d w = [w].
Proof.
  intros d. induction w as [|c w IH]; intros N; [reflexivity|]. cbn [split].
  replace (c =? d) with false; [|symmetry; apply Z.eqb_neq; intros ->; apply N; now left].
  rewrite IH; [reflexivity|]. intro I. apply N. now right.
Qed.

Lemma split_app : forall d w s, ~ In d w -> split d (w ++ d :: s) = w :: split d s.
Proof.
  intros d. induction w as [|c w IH]; intros s N; cbn [app split].
  - rewrite Z.eqb_refl. reflexivity.
  - replace (c =? d) with false; [|symmetry; apply Z.eqb_neq; intros ->; apply N; now left].
    rewrite IH; [reflexivity|]. intro I. apply N. now right.
Qed.

Lemma split_separated : forall d ws, ws <> [] -> Forall (fun w => ~ In d w) ws ->
  split d (separated [d] ws) = ws.
Proof.
  intros d ws N F. induction F as [|w ws W F IH]; [congruence|].
  destruct ws as [|v ws]; [apply split_no; exact W|].
  change (separated [d] (w :: v :: ws)) with (w ++ d :: separated [d] (v :: ws)).
  rewrite split_app by exact W. rewrite IH by discriminate. reflexivity.
Qed.

Definition number_ok (n : list Z) : Prop := Forall (fun k => 0 <= k) n /\ n <> [].

Lemma key_name : forall n, number_ok n -> section_key (name n) = Some n.
Proof.
  intros n (P & N). unfold section_key, name. rewrite split_separated.
  - apply ints_print. exact P.
  - destruct n; [congruence|discriminate].
  - apply Forall_forall. intros w W I. apply in_map_iff in W as (k & <- & K).
    rewrite Forall_forall in P. destruct (print_digits k (P k K)) as (F & _).
    rewrite Forall_forall in F. apply F in I. unfold digit_char in I. slia.
Qed.

Lemma name_inj : forall n m, number_ok n -> number_ok m -> name n = name m -> n = m.
Proof.
  intros n m N M E. apply key_name in N, M. rewrite E in N. congruence.
Qed.

Lemma name_not_nil : forall n, number_ok n -> name n <> [].
Proof. intros n (P & N). apply separated_not_nil; auto. Qed.

Lemma keys_names : forall ns, Forall number_ok ns ->
  with_keys (map name ns) = Some (map (fun n => (n, name n)) ns).
Proof.
  intros ns F. induction F as [|n ns H F IH]; [reflexivity|]. cbn [map with_keys].
  rewrite key_name, IH by exact H. reflexivity.
Qed.

Lemma earlier_less : forall a b, earlier a b -> list_less a b = true.
Proof.
  intros a b H. induction H; cbn; auto.
  - apply Z.ltb_lt in H. rewrite H. reflexivity.
  - rewrite Z.eqb_refl, IHearlier. apply orb_true_r.
Qed.

Lemma insert_last : forall l (k : list Z * str), Forall (fun x => earlier (fst x) (fst k)) l ->
  insert k l = l ++ [k].
Proof.
  intros l k F. induction F as [|x l H F IH]; [reflexivity|]. cbn [insert app].
  rewrite (earlier_less _ _ H), IH. reflexivity.
Qed.

Lemma sort_sorted : forall ns acc, in_order ns ->
  Forall (fun x => Forall (earlier (fst x)) ns) acc ->
  fold_left (fun acc k => insert k acc) (map (fun n => (n, name n)) ns) acc
  = acc ++ map (fun n => (n, name n)) ns.
Proof.
  induction ns as [|n ns IH]; intros acc H F; cbn [map fold_left].
  - rewrite app_nil_r. reflexivity.
  - inversion H as [|? ? E H']; subst. rewrite insert_last.
    + rewrite IH; auto.
      * rewrite <- app_assoc. reflexivity.
      * apply Forall_app. split.
        -- eapply Forall_impl; [|exact F]. intros x X. inversion X; auto.
        -- constructor; [exact E|constructor].
    + eapply Forall_impl; [|exact F]. intros x X. inversion X; auto.
Qed.

Lemma guide_numbers : forall g, forallb good_block g = true -> Forall number_ok (numbers g).
Proof.
  intros g H. apply Forall_forall. intros n I. unfold numbers in I.
  apply in_concat in I as (l & L & I). apply in_map_iff in L as (b & <- & B).
  destruct b as [ |k title| | ]; cbn in I; try contradiction.
  destruct I as [<-|[]]. rewrite forallb_forall in H. apply H in B.
  apply (good_numbers _ _ B).
Qed.

Theorem parse_guide : forall g, good_guide g -> in_order (numbers g) ->
  parse_md (guide_lines g) = Some (map name (numbers g), tagged [] g).
Proof.
  intros g (G & P) O. unfold parse_md.
  destruct (read_guide g md_start) as (R1 & R2); auto.
  { split; [reflexivity|]. intros _. reflexivity. }
  cbv zeta in R1, R2. rewrite R1, R2. cbn [md_start md_sections md_defs md_section app].
  rewrite keys_names by (apply guide_numbers; exact G).
  unfold sort. rewrite sort_sorted by (auto; constructor). cbn [app].
  rewrite map_map. cbn [snd]. reflexivity.
Qed.

(** Sections given in another order are sorted. *)
Lemma less_earlier : forall a b, list_less a b = true -> earlier a b.
Proof.
  induction a as [|x a IH]; intros [|y b] H; try discriminate H.
  - constructor.
  - cbn in H. apply orb_true_iff in H as [H|H].
    + apply earlier_head. apply Z.ltb_lt. exact H.
    + apply andb_true_iff in H as (E & H). apply Z.eqb_eq in E. subst y. apply earlier_tail. auto.
Qed.

Lemma less_trans : forall a b c, list_less a b = true -> list_less b c = true -> list_less a c = true.
Proof.
  induction a as [|x a IH]; intros [|y b] [|z c] H K; try discriminate; try reflexivity.
  cbn in *. rewrite orb_true_iff, andb_true_iff, Z.ltb_lt, Z.eqb_eq in *.
  destruct H as [H|(-> & H)], K as [K|(-> & K)]; try (left; lia). right. split; [reflexivity|]. eapply IH; eassumption.
Qed.

Lemma less_irrefl : forall a, list_less a a = false.
Proof. induction a as [|x a IH]; [reflexivity|]. cbn. rewrite Z.ltb_irrefl, Z.eqb_refl, IH. reflexivity. Qed.

Lemma less_asym : forall a b, list_less a b = true -> list_less b a = false.
Proof.
  intros a b H. destruct (list_less b a) eqn:E; [|reflexivity].
  rewrite <- (less_irrefl a). symmetry. eapply less_trans; eassumption.
Qed.

Definition not_after (x y : list Z * str) : Prop := list_less (fst y) (fst x) = false.

Lemma insert_perm : forall k l, Permutation (insert k l) (k :: l).
Proof.
  intros k l. induction l as [|x l IH]; [reflexivity|]. cbn [insert].
  destruct (_ || _); [|reflexivity]. rewrite IH. apply perm_swap.
Qed.

Lemma insert_sorted : forall k l, StronglySorted not_after l -> StronglySorted not_after (insert k l).
Proof.
  intros k l H. induction H as [|x l S IH F]; [repeat constructor|]. cbn [insert].
  destruct (list_less (fst x) (fst k) || negb (list_less (fst k) (fst x))) eqn:E.
  - assert (N : not_after x k).
    { unfold not_after. apply orb_true_iff in E as [E|E]; [apply less_asym; exact E | apply negb_true_iff; exact E]. }
    constructor; [exact IH|]. rewrite insert_perm. constructor; assumption.
  - apply orb_false_iff in E as (E1 & E2). apply negb_false_iff in E2. constructor; [constructor; assumption|].
    constructor; [exact E1|]. eapply Forall_impl; [|exact F]. intros y Y. unfold not_after in *.
    destruct (list_less (fst y) (fst k)) eqn:X; [|reflexivity].
    rewrite (less_trans _ _ _ X E2) in Y. discriminate.
Qed.

Lemma sort_spec : forall l acc, StronglySorted not_after acc ->
  Permutation (fold_left (fun acc k => insert k acc) l acc) (l ++ acc)
  /\ StronglySorted not_after (fold_left (fun acc k => insert k acc) l acc).
Proof.
  induction l as [|k l IH]; intros acc S; cbn [fold_left app]; [auto|].
  destruct (IH (insert k acc) (insert_sorted k acc S)) as (P & S'). split; [|exact S'].
  rewrite P, insert_perm. symmetry. apply Permutation_middle.
Qed.

Lemma sections_sorted : forall g, good_guide g -> exists ns defs,
  parse_md (guide_lines g) = Some (map name ns, defs)
  /\ Permutation ns (numbers g) /\ StronglySorted (fun a b => ~ earlier b a) ns.
Proof.
  intros g (G & P). unfold parse_md.
  destruct (read_guide g md_start) as (R1 & R2); auto.
  { split; [reflexivity|]. intros _. reflexivity. }
  cbv zeta in R1, R2. rewrite R1, R2. cbn [md_start md_sections md_defs md_section app].
  rewrite keys_names by (apply guide_numbers; exact G). unfold sort.
  destruct (sort_spec (map (fun n => (n, name n)) (numbers g)) [] (SSorted_nil _)) as (Pm & S).
  rewrite app_nil_r in Pm. revert Pm S. generalize (fold_left (fun acc k => insert k acc) (map (fun n => (n, name n)) (numbers g)) []).
  intros l Pm S. exists (map fst l). eexists. split; [|split].
  - f_equal. f_equal. rewrite map_map. apply map_ext_in. intros (n & s) I.
    apply (Permutation_in _ Pm) in I. apply in_map_iff in I as (m & E & _). injection E as <- <-. reflexivity.
  - apply (Permutation_map fst) in Pm. rewrite map_map in Pm. cbn [fst] in Pm. rewrite map_id in Pm. exact Pm.
  - clear Pm. induction S as [|x l S IH F]; [constructor|]. cbn [map]. constructor; [exact IH|].
    rewrite Forall_map. eapply Forall_impl; [|exact F]. intros y Y E. apply earlier_less in E.
    unfold not_after in Y. congruence.
Qed.

(** ** What is stored is what is meant *)

Lemma filter_visible_significant : forall ls,
  filter significant (filter visible ls) = filter significant ls.
Proof.
  induction ls as [|l ls IH]; [reflexivity|]. cbn [filter]. unfold significant at 2.
  destruct (visible l) eqn:V.
  - cbn [filter]. unfold significant at 1. rewrite V, IH. reflexivity.
  - exact IH.
Qed.

Lemma glued_source : forall c, forallb one_line (pieces c) = true ->
  source_lines (strip (raw c)) = filter significant (map trim (pieces c)).
Proof.
  intros c H. pose proof (raw_glued c H) as G. unfold source_lines.
  rewrite <- (filter_visible_significant (map trim (pieces c))).
  destruct (filter visible (map trim (pieces c))) as [|p ps] eqn:E.
  - rewrite (proj1 (glued_nil _ _ G) eq_refl). reflexivity.
  - rewrite (glued_lines _ _ G) by discriminate. reflexivity.
Qed.

(** A definition begins with a directive only if it includes a header of a library. *)
Lemma first_char : forall ps a, glued ps a -> forall w, starts w a = true -> w <> [] ->
  exists p ps' c, ps = p :: ps' /\ hd 32 w = c /\ hd 32 p = c /\ p <> [].
Proof.
  intros ps a G w S N. pose proof (glued_pieces _ _ G) as F.
  destruct ps as [|p ps'].
  - rewrite (proj1 (glued_nil _ _ G) eq_refl) in S. destruct w; [congruence|discriminate].
  - inversion F as [|? ? (_ & P & _) _]; subst. exists p, ps', (hd 32 w). splits; auto.
    apply starts_inv in S as (r & E).
    assert (hd 32 a = hd 32 p).
    { destruct (glued_first _ _ G p ps' eq_refl) as [(_ & ->)|(_ & r' & ->)]; auto.
      destruct p; [congruence|reflexivity]. }
    rewrite <- H, E. destruct w; [congruence|reflexivity].
Qed.

Definition no_directive (c : command) : Prop :=
  forall p, In p (pieces c) -> starts (text "#") (trim p) = false.

Lemma no_directive_first : forall c w, forallb one_line (pieces c) = true -> no_directive c ->
  hd 32 w = 35 -> starts w (strip (raw c)) = false.
Proof.
  intros c w H D W. destruct (starts w (strip (raw c))) eqn:S; [exfalso|reflexivity].
  destruct (first_char _ _ (raw_glued c H) w S) as (p & ps & k & E & K & P & N).
  { intros ->. discriminate. }
  assert (I : In p (filter visible (map trim (pieces c)))) by (rewrite E; now left).
  apply filter_In in I as (I & _). apply in_map_iff in I as (q & <- & Q).
  specialize (D q Q). destruct (trim q) as [|d r]; [congruence|]. cbn in P.
  rewrite W in K. subst. discriminate D.
Qed.

Lemma no_directive_one_liner : forall c w, forallb one_line (pieces c) = true -> no_directive c ->
  hd 32 w = 35 -> starts w (one_liner c) = false.
Proof.
  intros c w H D W. pose proof (raw_glued c H) as G. unfold one_liner.
  destruct (filter visible (map trim (pieces c))) as [|p ps] eqn:E.
  - destruct w; [discriminate W|reflexivity].
  - assert (I : In p (filter visible (map trim (pieces c)))) by (rewrite E; now left).
    apply filter_In in I as (I & V). apply in_map_iff in I as (q & <- & Q). specialize (D q Q).
    destruct (trim q) as [|d r]; [discriminate V|]. destruct w as [|k w]; [discriminate W|].
    cbn in W. subst k.
    assert (R : exists r', separated (text " ") ((d :: r) :: ps) = d :: r').
    { destruct ps; [exists r; reflexivity|]. eexists. reflexivity. }
    destruct R as (r' & R).
    match goal with |- starts _ ?t = false => replace t with (d :: r') by (symmetry; exact R) end.
    change ((35 =? d) && starts [] r = false) in D. rewrite andb_true_r in D.
    cbn [starts]. rewrite D. reflexivity.
Qed.

(** The three kinds of commands *)
Inductive stored : command -> Prop :=
| st_query c : defines c = false -> stored c
| st_include c : defines c = true -> snd c = [] ->
    starts (text "#include <") (trim (fst c)) = true -> stored c
| st_plain c : defines c = true -> no_directive c ->
    (forall p, In p (pieces c) -> starts (text "//") (trim p) = false) -> stored c.

Lemma plain_stored : forall c, plain_definition c = true -> stored c.
Proof.
  intros c H. unfold plain_definition in H. destruct (defines c) eqn:D; [|apply st_query; exact D].
  cbn [negb orb] in H. apply orb_true_iff in H as [H|H].
  - unfold library_include in H. destruct (snd c) eqn:E; [|discriminate].
    apply st_include; auto.
  - rewrite forallb_forall in H. apply st_plain; auto; intros p P; apply H in P;
      apply andb_true_iff in P as (P & Q); apply negb_true_iff in P, Q; auto.
Qed.

Lemma def_lines : forall c, forallb one_line (pieces c) = true -> stored c ->
  (defines c = false /\ source_lines (def_text c) = [])
  \/ (defines c = true /\ of_metashell c = false
      /\ source_lines (def_text c) = filter significant (map trim (pieces c))
      /\ Forall (fun l => starts (text "#") l = false \/ starts (text "#include <") l = true)
           (filter significant (map trim (pieces c))))
  \/ (defines c = true /\ of_metashell c = true
      /\ exists l, filter significant (map trim (pieces c)) = [l]
         /\ starts (text "#include <") l = true
         /\ source_lines (def_text c) = [text "#ifdef __METASHELL"; l; text "#endif"]).
Proof.
  intros c H S. pose proof (def_text_cases c H) as T. destruct S as [c D|c D N I|c D N C].
  - left. split; auto. rewrite T, D, query_not_protected. apply source_query.
  - right.
    assert (PC : pieces c = [fst c]) by (unfold pieces; rewrite N; reflexivity).
    assert (V : filter visible (map trim (pieces c)) = [trim (fst c)]).
    { rewrite PC. cbn [map filter]. destruct (trim (fst c)); [discriminate I|reflexivity]. }
    assert (SG : filter significant (map trim (pieces c)) = [trim (fst c)]).
    { rewrite PC. cbn [map filter]. unfold significant.
      apply starts_inv in I as (r & ->). reflexivity. }
    assert (OL : one_liner c = trim (fst c)) by (unfold one_liner; rewrite V; reflexivity).
    assert (SR : strip (raw c) = trim (fst c)).
    { pose proof (raw_glued c H) as G. rewrite V in G.
      destruct (glued_first _ _ G _ _ eq_refl) as [(_ & E)|(E & _)]; [exact E|congruence]. }
    pose proof (glued_source c H) as GS. rewrite SR in GS.
    rewrite D, SR in T. unfold protect_metashell in T. unfold of_metashell. rewrite OL.
    change (begins (text "#include <metashell") (trim (fst c)))
      with (starts (literal "#include <metashell") (trim (fst c))).
    destruct (starts (literal "#include <metashell") (trim (fst c))) eqn:M.
    + right. splits; auto. exists (trim (fst c)). splits; auto. rewrite T.
      etransitivity; [apply (source_app (literal "#ifdef __METASHELL"))|].
      etransitivity; [apply f_equal, (source_app (trim (fst c)))|].
      rewrite GS, SG. reflexivity.
    + left. splits; auto.
      * rewrite T. exact GS.
      * rewrite SG. constructor; [right; exact I|constructor].
  - right. left. splits; auto.
    + apply no_directive_one_liner; auto.
    + rewrite T, D. unfold protect_metashell. rewrite no_directive_first by auto.
      apply glued_source. exact H.
    + apply Forall_forall. intros l L. left. apply filter_In in L as (L & _).
      apply in_map_iff in L as (p & <- & P). apply N. exact P.
Qed.

(** ** The preprocessor *)

Lemma pp_app : forall fs D a D1 o1, preprocess fs D a D1 o1 ->
  forall b D2 o2, preprocess fs D1 b D2 o2 -> preprocess fs D (a ++ b) D2 (o1 ++ o2).
Proof.
  intros fs D a D1 o1 H. induction H as [D|D l ls D' out L H IH|D m ls D' out H IH
    |D f t ls D1 D2 out1 out2 N I H IH H2 IH2|D l body ls D1 D2 out1 out2 C B H IH H2 IH2
    |D l body ls D' out C B H IH]; intros b E o2 P; cbn [app].
  - exact P.
  - apply pp_line; auto.
  - apply pp_define; auto.
  - rewrite <- app_assoc. eapply pp_include; eauto.
  - rewrite <- !app_assoc. cbn [app]. eapply pp_taken; eauto.
  - rewrite <- app_assoc. cbn [app]. apply pp_skipped; auto.
Qed.

Lemma balanced_app : forall a b, balanced a -> balanced b -> balanced (a ++ b).
Proof.
  intros a b A B. induction A as [|l ls C A IH|l body ls C A1 IH1 A2 IH2]; cbn [app]; auto.
  - constructor; auto.
  - rewrite <- app_assoc. cbn [app]. apply bal_if; auto.
Qed.

Definition ordinary (l : str) : Prop :=
  starts (text "#") l = false \/ starts (text "#include <") l = true.

Lemma ordinary_conditional : forall l, ordinary l -> conditional l = false.
Proof.
  intros l [H|H].
  - destruct l as [|c l]; [reflexivity|].
    change ((35 =? c) && true = false) in H. rewrite andb_true_r in H.
    unfold conditional. cbn [begins text]. 
    change (begins (text "#ifndef ") (c :: l)) with ((35 =? c) && begins (text "ifndef ") l).
    change (begins (text "#ifdef ") (c :: l)) with ((35 =? c) && begins (text "ifdef ") l).
    change (begins (text "#endif") (c :: l)) with ((35 =? c) && begins (text "endif") l).
    rewrite H. reflexivity.
  - apply starts_inv in H as (r & ->). reflexivity.
Qed.

Lemma ordinary_balanced : forall ls, Forall ordinary ls -> balanced ls.
Proof.
  intros ls F. induction F; constructor; auto. apply ordinary_conditional. exact H.
Qed.

Lemma ordinary_pp : forall fs D ls, Forall ordinary ls -> preprocess fs D ls D ls.
Proof.
  intros fs D ls F. induction F; constructor; auto.
Qed.

Lemma def_balanced : forall c, forallb one_line (pieces c) = true -> stored c ->
  balanced (source_lines (def_text c)).
Proof.
  intros c H S. destruct (def_lines c H S) as [(_ & ->)|[(_ & _ & -> & F)|(_ & _ & l & _ & L & ->)]].
  - constructor.
  - apply ordinary_balanced. exact F.
  - apply (bal_if (text "#ifdef __METASHELL") [l] []).
    + right. reflexivity.
    + apply ordinary_balanced. constructor; [right; exact L|constructor].
    + constructor.
Qed.

Lemma def_pp : forall fs D c, forallb one_line (pieces c) = true -> stored c ->
  preprocess fs D (source_lines (def_text c)) D (command_source (in_metashell D) c).
Proof.
  intros fs D c H S. unfold command_source.
  destruct (def_lines c H S) as [(E & ->)|[(E & M & -> & F)|(E & M & l & SG & L & ->)]]; rewrite E.
  - constructor.
  - rewrite M, orb_true_r. apply ordinary_pp. exact F.
  - rewrite M, orb_false_r, SG. cbn [andb]. unfold in_metashell.
    assert (F : Forall ordinary [l]) by (constructor; [right; exact L|constructor]).
    destruct (in_dec (list_eq_dec Z.eq_dec) metashell_macro D) as [I|I].
    + 
      apply (pp_taken fs D (text "#ifdef __METASHELL") [l] [] D D [l] []).
      * left. exists metashell_macro. auto.
      * apply ordinary_balanced. exact F.
      * apply ordinary_pp. exact F.
      * constructor.
    + apply (pp_skipped fs D (text "#ifdef __METASHELL") [l] [] D []).
      * left. exists metashell_macro. auto.
      * apply ordinary_balanced. exact F.
      * constructor.
Qed.

Definition good_commands (cs : list command) : Prop :=
  Forall (fun c => forallb one_line (pieces c) = true /\ stored c) cs.

Lemma defs_pp : forall fs D cs, good_commands cs ->
  balanced (concat (map (fun c => source_lines (def_text c)) cs))
  /\ preprocess fs D (concat (map (fun c => source_lines (def_text c)) cs)) D
       (source_of (in_metashell D) cs).
Proof.
  intros fs D cs F. induction F as [|c cs (H & S) F (IB & IP)]; cbn [map concat].
  - split; constructor.
  - split; [apply balanced_app; auto; apply def_balanced; auto|].
    unfold source_of. cbn [map concat]. eapply pp_app; [apply def_pp; auto|exact IP].
Qed.

(** ** The commands of a section *)

Fixpoint tagged_commands (s : str) (g : list block) : list (str * command) :=
  match g with
  | [] => []
  | b :: g' =>
      map (fun c => (s, c)) (block_commands b)
      ++ tagged_commands (last (map name (block_numbers b)) s) g'
  end.

Definition section_commands (t : str) (l : list (str * command)) : list command :=
  map snd (filter (fun d => str_eqb (fst d) t) l).

Lemma tagged_tagged : forall g s,
  tagged s g = map (fun d => (fst d, def_text (snd d))) (tagged_commands s g).
Proof.
  induction g as [|b g IH]; intros s; [reflexivity|]. cbn [tagged tagged_commands].
  rewrite map_app, map_map, <- IH. reflexivity.
Qed.

Lemma defs_of_commands : forall t l,
  defs_of t (map (fun d => (fst d, def_text (snd d))) l) = map def_text (section_commands t l).
Proof.
  intros t l. unfold defs_of, section_commands. induction l as [|(s, c) l IH]; [reflexivity|].
  cbn [map filter fst snd]. destruct (str_eqb s t); cbn [map snd]; rewrite IH; reflexivity.
Qed.

Lemma str_eqb_eq : forall a b, str_eqb a b = true <-> a = b.
Proof.
  intros a b. unfold str_eqb. destruct (list_eq_dec Z.eq_dec a b); split; congruence.
Qed.

Lemma str_eqb_refl : forall a, str_eqb a a = true.
Proof. intro. apply str_eqb_eq. reflexivity. Qed.

Lemma str_eqb_neq : forall a b, a <> b -> str_eqb a b = false.
Proof.
  intros a b N. destruct (str_eqb a b) eqn:E; [|reflexivity]. apply str_eqb_eq in E. congruence.
Qed.

Lemma section_app : forall t a b,
  section_commands t (a ++ b) = section_commands t a ++ section_commands t b.
Proof. intros. unfold section_commands. rewrite filter_app, map_app. reflexivity. Qed.

Lemma section_here : forall t cs, section_commands t (map (fun c => (t, c)) cs) = cs.
Proof.
  intros t cs. unfold section_commands. induction cs as [|c cs IH]; [reflexivity|].
  cbn [map filter fst snd]. rewrite str_eqb_refl. cbn [map snd]. rewrite IH. reflexivity.
Qed.

Lemma section_none : forall t l, ~ In t (map fst l) -> section_commands t l = [].
Proof.
  intros t l. unfold section_commands. induction l as [|(s, c) l IH]; intro N; [reflexivity|].
  cbn [filter fst]. rewrite str_eqb_neq.
  - apply IH. intro I. apply N. now right.
  - intros ->. apply N. now left.
Qed.

Lemma tagged_sections : forall g s t, In t (map fst (tagged_commands s g)) ->
  In t (s :: map name (numbers g)).
Proof.
  induction g as [|b g IH]; intros s t H; [destruct H|].
  cbn [tagged_commands] in H. rewrite map_app in H. apply in_app_or in H as [H|H].
  - rewrite map_map in H. apply in_map_iff in H as (c & <- & _). now left.
  - apply IH in H. unfold numbers. cbn [map concat].
    destruct b as [ |n title| | ]; cbn in *; tauto.
Qed.

Lemma tagged_app : forall a b s,
  tagged_commands s (a ++ b)
  = tagged_commands s a ++ tagged_commands (last (map name (numbers a)) s) b.
Proof.
  induction a as [|k a IH]; intros b s; [reflexivity|]. cbn [app tagged_commands].
  rewrite IH, <- app_assoc. do 3 f_equal.
  unfold numbers. cbn [map concat]. rewrite map_app.
  destruct k as [ |n title| | ]; cbn [block_numbers map last app]; try reflexivity.
  destruct (map name (concat (map block_numbers a))) as [|x r]; [reflexivity|].
  cbn [last]. clear. revert x. induction r as [|y r IH]; intro x; [reflexivity|]. apply IH.
Qed.

Lemma all_commands : forall g s, NoDup (s :: map name (numbers g)) ->
  concat (map (fun t => section_commands t (tagged_commands s g)) (s :: map name (numbers g)))
  = commands g.
Proof.
  induction g as [|b g IH]; intros s N; [reflexivity|].
  destruct (block_numbers b) as [|n ns] eqn:B.
  - (* not a heading *)
    unfold numbers, commands in *. cbn [map concat] in *. rewrite B in *. cbn [app] in *.
    cbn [tagged_commands map concat]. rewrite B. cbn [map last].
    rewrite section_app, section_here, <- app_assoc. f_equal.
    rewrite <- (IH s N). cbn [map concat]. f_equal.
    f_equal. apply map_ext_in. intros t T. rewrite section_app.
    rewrite section_none; [reflexivity|]. rewrite map_map. intro I.
    apply in_map_iff in I as (c & <- & _). inversion N; auto.
  - destruct b as [ |k title| | ]; try discriminate. cbn in B. injection B as <- <-.
    unfold numbers, commands in *. cbn [map concat block_numbers block_commands app] in *.
    cbn [tagged_commands block_numbers block_commands map last app].
    inversion N as [|? ? NI N']; subst. rewrite <- (IH (name k) N').
    cbn [map concat]. rewrite section_none; [reflexivity|].
    intro I. apply NI. apply tagged_sections in I. exact I.
Qed.

(** The commands before a heading are those of the sections before it. *)
Lemma commands_before : forall a n title b,
  NoDup ([] :: map name (numbers (a ++ Heading n title :: b))) ->
  concat (map (fun t => section_commands t (tagged_commands [] (a ++ Heading n title :: b)))
            ([] :: map name (numbers a)))
  = commands a.
Proof.
  intros a n title b N.
  assert (E : numbers (a ++ Heading n title :: b) = numbers a ++ n :: numbers b).
  { unfold numbers. rewrite map_app, concat_app. reflexivity. }
  rewrite E, map_app in N. cbn [map] in N.
  change ([] :: map name (numbers a) ++ name n :: map name (numbers b))
    with (([] :: map name (numbers a)) ++ name n :: map name (numbers b)) in N.
  rewrite <- (all_commands a []).
  - f_equal. apply map_ext_in. intros t T. rewrite tagged_app, section_app.
    cbn [tagged_commands block_commands block_numbers map last app].
    rewrite (section_none t (tagged_commands (name n) b)), app_nil_r; [reflexivity|].
    intro I. apply tagged_sections in I. apply in_split in I as (u & v & I).
    assert (D : forall (A B : list str) x, NoDup (A ++ B) -> In x A -> In x B -> False).
    { clear. induction A as [|y A IH]; intros B x N I J; [destruct I|]. cbn in N.
      inversion N as [|? ? M N']; subst. destruct I as [->|I].
      - apply M. apply in_or_app. now right.
      - eapply IH; eauto. }
    apply (D _ _ t N T). rewrite I. apply in_or_app. right. now left.
  - apply NoDup_remove_1 in N. clear - N.
    assert (forall (A B : list str), NoDup (A ++ B) -> NoDup A) as D.
    { clear. induction A as [|y A IH]; intros B N; [constructor|]. cbn in N.
      inversion N as [|? ? M N']; subst. constructor; [|eapply IH; exact N'].
      intro I. apply M. apply in_or_app. now left. }
    apply (D _ _ N).
Qed.

(** ** The headers *)

Definition header_name (s : str) : str := s ++ text ".hpp".
Definition header_guard (s : str) : str :=
  text "BOOST_METAPARSE_GETTING_STARTED_" ++ s ++ text "_HPP".

Fixpoint headers (prev : str) (sections : list str) (defs : list (str * str)) : files :=
  match sections with
  | [] => []
  | s :: sections' => (header_name s, header_text s prev defs) :: headers s sections' defs
  end.

Lemma set_new : forall fs n c, ~ In n (map fst fs) -> set_file n c fs = fs ++ [(n, c)].
Proof.
  induction fs as [|(k, d) fs IH]; intros n c N; [reflexivity|]. cbn [set_file].
  rewrite str_eqb_neq.
  - rewrite IH; [reflexivity|]. intro I. apply N. now right.
  - intros ->. apply N. now left.
Qed.

Lemma header_name_inj : forall a b, header_name a = header_name b -> a = b.
Proof. intros a b H. apply app_inv_tail in H. exact H. Qed.

Lemma gen_headers_list : forall sections prev defs fs,
  NoDup sections -> (forall s, In s sections -> ~ In (header_name s) (map fst fs)) ->
  gen_headers_from prev sections defs fs = fs ++ headers prev sections defs.
Proof.
  induction sections as [|s sections IH]; intros prev defs fs N F.
  - cbn. rewrite app_nil_r. reflexivity.
  - cbn [gen_headers_from headers]. inversion N as [|? ? NI N']; subst.
    change (s ++ literal ".hpp") with (header_name s).
    rewrite set_new by (apply F; now left). rewrite IH; auto.
    + rewrite <- app_assoc. reflexivity.
    + intros t T I. rewrite map_app in I. apply in_app_or in I as [I|[I|[]]].
      * apply (F t); auto. now right.
      * cbn in I. apply header_name_inj in I. subst. auto.
Qed.

Lemma last_cons : forall (pre : list str) p prev, last (p :: pre) prev = last pre p.
Proof.
  assert (I : forall (l : list str) a b, l <> [] -> last l a = last l b).
  { induction l as [|x l IH]; intros a b N; [congruence|]. destruct l as [|y l]; [reflexivity|].
    apply IH. discriminate. }
  intros [|q pre] p prev; [reflexivity|]. apply (I (q :: pre)). discriminate.
Qed.

Lemma headers_in : forall pre s post prev defs,
  In (header_name s, header_text s (last pre prev) defs) (headers prev (pre ++ s :: post) defs).
Proof.
  induction pre as [|p pre IH]; intros s post prev defs; cbn [app headers].
  - now left.
  - right. rewrite last_cons. apply IH.
Qed.

Lemma headers_names : forall sections prev defs,
  map fst (headers prev sections defs) = map header_name sections.
Proof.
  induction sections as [|s sections IH]; intros; [reflexivity|]. cbn. rewrite IH. reflexivity.
Qed.

Lemma joined_source : forall ds,
  source_lines (join nl (map (fun d => d ++ nl) ds)) = concat (map source_lines ds).
Proof.
  induction ds as [|d ds IH]; [reflexivity|].
  assert (E : source_lines (d ++ nl) = source_lines d).
  { etransitivity; [apply (source_app d [])|]. apply app_nil_r. }
  destruct ds as [|e ds].
  - cbn [map join concat]. rewrite E, app_nil_r. reflexivity.
  - cbn [map join concat] in *.
    etransitivity; [apply (source_app (d ++ nl))|]. rewrite E. f_equal. exact IH.
Qed.

Definition include_of (prev : str) : list str :=
  match prev with [] => [] | _ => [text "#include """ ++ header_name prev ++ text """"] end.

Lemma no_newline_app : forall a b, no_newline a -> no_newline b -> no_newline (a ++ b).
Proof. intros. apply Forall_app. auto. Qed.

Ltac chars := repeat (constructor; [discriminate|]); constructor.

Lemma tight_ends : forall a b c : str, white (hd 32 a) = false -> white (last c 32) = false ->
  a <> [] -> c <> [] -> tight (a ++ b ++ c).
Proof.
  intros a b c A C NA NC. right. split.
  - destruct a; [congruence|exact A].
  - rewrite app_assoc, last_app by exact NC. exact C.
Qed.

Lemma source_nl : forall x, source_lines (10 :: x) = source_lines x.
Proof. intros x. apply (source_app [] x). Qed.

Lemma header_source : forall s prev defs, no_newline s -> no_newline prev ->
  source_lines (header_text s prev defs)
  = (text "#ifndef " ++ header_guard s) :: (text "#define " ++ header_guard s)
    :: include_of prev ++ concat (map source_lines (defs_of prev defs)) ++ [text "#endif"].
Proof.
  intros s prev defs NS NP.
  assert (NG : no_newline (header_guard s)).
  { apply no_newline_app; [chars|]. apply no_newline_app; [exact NS|chars]. }
  assert (ND : no_newline (replace 95 46 prev)).
  { apply Forall_forall. intros c I. apply in_map_iff in I as (d & <- & D).
    unfold no_newline in NP. rewrite Forall_forall in NP. specialize (NP d D).
    destruct (d =? 95); [discriminate|exact NP]. }
  assert (A : source_lines (text "#ifndef " ++ header_guard s) = [text "#ifndef " ++ header_guard s]).
  { apply source_line; [apply no_newline_app; [chars|exact NG]| |reflexivity].
    apply (tight_ends (text "#ifndef BOOST_METAPARSE_GETTING_STARTED_") s (text "_HPP"));
      try reflexivity; discriminate. }
  assert (B : source_lines (text "#define " ++ header_guard s) = [text "#define " ++ header_guard s]).
  { apply source_line; [apply no_newline_app; [chars|exact NG]| |reflexivity].
    apply (tight_ends (text "#define BOOST_METAPARSE_GETTING_STARTED_") s (text "_HPP"));
      try reflexivity; discriminate. }
  assert (I : source_lines (text "#include """ ++ prev ++ text ".hpp""")
    = [text "#include """ ++ header_name prev ++ text """"]).
  { replace (text "#include """ ++ header_name prev ++ text """")
      with (text "#include """ ++ prev ++ text ".hpp""")
      by (unfold header_name; rewrite <- app_assoc; reflexivity).
    apply source_line.
    - apply no_newline_app; [chars|]. apply no_newline_app; [exact NP|chars].
    - apply tight_ends; try reflexivity; discriminate.
    - reflexivity. }
  assert (C : forall w, no_newline w ->
    source_lines (text "// Definitions of section " ++ w) = []
    /\ source_lines (text "// Definitions before section " ++ w) = []).
  { intros w W. split.
    - apply (source_comment (text " Definitions of section " ++ w)).
      apply no_newline_app; [chars|exact W].
    - apply (source_comment (text " Definitions before section " ++ w)).
      apply no_newline_app; [chars|exact W]. }
  destruct (C _ ND) as (C1 & C2).
  assert (T : source_lines
      ((text "// Definitions of section " ++ replace 95 46 prev) ++ 10 ::
       join nl (map (fun d => d ++ nl) (defs_of prev defs)) ++ 10 ::
       text "#endif" ++ 10 :: 10 :: [])
    = concat (map source_lines (defs_of prev defs)) ++ [text "#endif"]).
  { rewrite source_app, C1. cbn [app]. rewrite source_app, joined_source. reflexivity. }
  assert (E : header_text s prev defs
    = (text "#ifndef " ++ header_guard s) ++ 10 :: (text "#define " ++ header_guard s) ++ 10 ::
      10 :: text "// Automatically generated header file" ++ 10 :: 10 ::
      match prev with
      | [] => []
      | _ => (text "// Definitions before section " ++ replace 95 46 prev) ++ 10 ::
             (text "#include """ ++ prev ++ text ".hpp""") ++ 10 :: 10 :: []
      end ++
      (text "// Definitions of section " ++ replace 95 46 prev) ++ 10 ::
      join nl (map (fun d => d ++ nl) (defs_of prev defs)) ++ 10 ::
      text "#endif" ++ 10 :: 10 :: []).
  { unfold header_text, header_guard. unfold nl. destruct prev;
      repeat (rewrite <- app_assoc || cbn [app]); reflexivity. }
  rewrite E. clear E.
  rewrite source_app, A. cbn [app]. f_equal.
  rewrite source_app, B. cbn [app]. f_equal.
  rewrite source_nl, source_app.
  change (source_lines (text "// Automatically generated header file")) with (@nil str).
  cbn [app]. rewrite source_nl. destruct prev as [|c prev]; [exact T|].
  unfold include_of. generalize dependent (c :: prev). intros w NP ND I C1 C2 T.
  rewrite <- app_assoc. cbn [app]. rewrite source_app, C2. cbn [app].
  rewrite <- app_assoc. cbn [app]. rewrite source_app, I, source_nl, T. reflexivity.
Qed.

(** ** Including a header *)

Lemma metashell_guards : forall gs D, Forall (fun g : str => hd 0 g = 66) gs ->
  in_metashell (gs ++ D) = in_metashell D.
Proof.
  intros gs D F. unfold in_metashell.
  destruct (in_dec (list_eq_dec Z.eq_dec) metashell_macro (gs ++ D)) as [I|I];
    destruct (in_dec (list_eq_dec Z.eq_dec) metashell_macro D) as [J|J]; auto.
  - apply in_app_or in I as [I|I]; [|contradiction]. rewrite Forall_forall in F.
    apply F in I. discriminate.
  - exfalso. apply I. apply in_or_app. now right.
Qed.

Lemma header_guard_inj : forall a b, header_guard a = header_guard b -> a = b.
Proof.
  intros a b H. unfold header_guard in H. apply app_inv_head, app_inv_tail in H. exact H.
Qed.

Definition name_ok (s : str) : Prop := no_newline s /\ s <> [] /\ ~ In 34 s.

Lemma source_of_app : forall b x y, source_of b (x ++ y) = source_of b x ++ source_of b y.
Proof. intros. unfold source_of. rewrite map_app, concat_app. reflexivity. Qed.

Lemma concat_last : forall A (l : list (list A)) x, concat (l ++ [x]) = concat l ++ x.
Proof. intros. rewrite concat_app. cbn. rewrite app_nil_r. reflexivity. Qed.

Lemma define_balanced : forall m ls, balanced ls -> balanced ((text "#define " ++ m) :: ls).
Proof. intros m ls B. apply bal_line; [reflexivity|exact B]. Qed.

Lemma include_balanced : forall prev ls, balanced ls -> balanced (include_of prev ++ ls).
Proof.
  intros [|c p] ls B; [exact B|]. apply bal_line; [reflexivity|exact B].
Qed.

Lemma body_shape : forall s prev defs, no_newline s -> no_newline prev ->
  source_lines (header_text s prev defs)
  = (text "#ifndef " ++ header_guard s)
    :: ((text "#define " ++ header_guard s)
        :: include_of prev ++ concat (map source_lines (defs_of prev defs)))
       ++ text "#endif" :: [].
Proof.
  intros s prev defs S P. rewrite header_source by auto. cbn [app].
  rewrite <- app_assoc. reflexivity.
Qed.

Section Headers.
  Variable fs : files.
  Variable defs : list (str * str).
  Variable cmds : str -> list command.
  Hypothesis defs_cmds : forall t, defs_of t defs = map def_text (cmds t).
  Hypothesis cmds_good : forall t, good_commands (cmds t).

  Lemma defs_source : forall t D,
    balanced (concat (map source_lines (defs_of t defs)))
    /\ preprocess fs D (concat (map source_lines (defs_of t defs))) D
         (source_of (in_metashell D) (cmds t)).
  Proof.
    intros t D. rewrite defs_cmds, map_map. apply defs_pp. apply cmds_good.
  Qed.

  Lemma header_pp : forall pre s D,
    (forall a t b, pre ++ [s] = a ++ t :: b ->
       In (header_name t, header_text t (last a []) defs) fs) ->
    NoDup (pre ++ [s]) -> Forall name_ok (pre ++ [s]) ->
    (forall t, In t (pre ++ [s]) -> ~ In (header_guard t) D) ->
    exists gs, Forall (fun g : str => hd 0 g = 66) gs /\ In (header_guard s) gs
      /\ preprocess fs D (source_lines (header_text s (last pre []) defs)) (gs ++ D)
           (source_of (in_metashell D) (concat (map cmds ([] :: pre)))).
  Proof.
    induction pre as [|q pre IH] using rev_ind; intros s D F N O G.
    - cbn [last app] in *. inversion O as [|? ? (S1 & S2 & S3) _]; subst.
      exists [header_guard s]. splits.
      + constructor; [reflexivity|constructor].
      + now left.
      + rewrite body_shape by (auto; constructor). cbn [map concat]. rewrite app_nil_r.
        rewrite <- (app_nil_r (source_of _ _)).
        destruct (defs_source [] (header_guard s :: D)) as (B & P).
        eapply pp_taken.
        * right. exists (header_guard s). split; [reflexivity|]. apply G. now left.
        * apply define_balanced. apply include_balanced. exact B.
        * apply pp_define. cbn [include_of app].
          change (in_metashell D) with (in_metashell D).
          rewrite <- (metashell_guards [header_guard s] D) by
            (constructor; [reflexivity|constructor]).
          exact P.
        * constructor.
    - rewrite last_last. rewrite <- app_assoc in *. cbn [app] in *.
      assert (Os := proj2 (proj1 (Forall_app _ _ _) O)).
      inversion Os as [|? ? (Q1 & Q2 & Q3) Os']; subst.
      inversion Os' as [|? ? (S1 & S2 & S3) _]; subst.
      set (D1 := header_guard s :: D).
      destruct (IH q D1) as (gs & GS & GI & GP).
      + intros a t b E. apply (F a t (b ++ [s])).
        replace (pre ++ [q; s]) with ((pre ++ [q]) ++ [s]) by (rewrite <- app_assoc; reflexivity).
        rewrite E, <- app_assoc. reflexivity.
      + replace (pre ++ [q; s]) with ((pre ++ [q]) ++ [s]) in N by (rewrite <- app_assoc; reflexivity).
        apply NoDup_remove_1 in N. rewrite app_nil_r in N. exact N.
      + apply Forall_app. split; [apply (proj1 (proj1 (Forall_app _ _ _) O))|].
        constructor; [repeat split; auto|constructor].
      + intros t T [E|I].
        * apply header_guard_inj in E. subst t.
          replace (pre ++ [q; s]) with ((pre ++ [q]) ++ [s]) in N by (rewrite <- app_assoc; reflexivity).
          apply NoDup_remove_2 in N. rewrite app_nil_r in N. contradiction.
        * apply (G t); auto. apply in_app_or in T as [T|[T|[]]]; apply in_or_app; auto.
          right. now left.
      + exists (gs ++ [header_guard s]). splits.
        * apply Forall_app. split; [exact GS|]. constructor; [reflexivity|constructor].
        * apply in_or_app. right. now left.
        * rewrite body_shape by auto.
          destruct (defs_source q (gs ++ D1)) as (B & P).
          assert (M1 : in_metashell D1 = in_metashell D).
          { apply (metashell_guards [header_guard s] D). constructor; [reflexivity|constructor]. }
          rewrite metashell_guards, M1 in P by exact GS. rewrite M1 in GP.
          change ([] :: pre ++ [q]) with (([] :: pre) ++ [q]).
          rewrite map_app. cbn [map]. change (cmds [] :: map cmds pre) with (map cmds ([] :: pre)).
          rewrite concat_last, source_of_app.
          rewrite <- (app_nil_r (_ ++ source_of _ (cmds q))).
          rewrite <- app_assoc. change ([header_guard s] ++ D) with D1.
          eapply pp_taken.
          -- right. exists (header_guard s). split; [reflexivity|]. apply G.
             apply in_or_app. right. right. now left.
          -- apply define_balanced. apply include_balanced. exact B.
          -- apply pp_define. fold D1. destruct q as [|c q]; [congruence|].
             cbn [include_of app]. eapply pp_include; [| |exact GP|exact P].
             ++ unfold header_name. intro I. apply in_app_or in I as [I|I]; [contradiction|].
                cbn in I. intuition discriminate.
             ++ apply (F pre (c :: q) [s]). reflexivity.
          -- constructor.
  Qed.

  (** Including it again does nothing. *)
  Lemma header_again : forall s prev D, no_newline s -> no_newline prev ->
    In (header_guard s) D ->
    preprocess fs D (source_lines (header_text s prev defs)) D [].
  Proof.
    intros s prev D S P I. rewrite body_shape by auto. apply pp_skipped.
    - right. exists (header_guard s). auto.
    - apply define_balanced. apply include_balanced. apply (defs_source prev D).
    - constructor.
  Qed.
End Headers.

(** ** The preprocessor has one result *)

Lemma endif_conditional : conditional (text "#endif") = true.
Proof. reflexivity. Qed.

Lemma if_conditional : forall l, begins (text "#ifndef ") l = true \/ begins (text "#ifdef ") l = true ->
  conditional l = true /\ l <> text "#endif".
Proof.
  intros l [H|H]; unfold conditional; rewrite H; split; rewrite ?orb_true_r; auto; intros ->;
    discriminate.
Qed.

Lemma balanced_unique : forall a, balanced a -> forall b x y, balanced b ->
  a ++ text "#endif" :: x = b ++ text "#endif" :: y -> a = b /\ x = y.
Proof.
  intros a A. induction A as [|l ls C A IH|l body ls C A1 IH1 A2 IH2]; intros b x y B E.
  - destruct B as [|k ks K B|k body ks K B1 B2]; cbn [app] in E.
    + injection E as E. auto.
    + injection E as <- _. discriminate K.
    + injection E as <- _. apply if_conditional in K as (_ & K). exfalso. apply K. reflexivity.
  - destruct B as [|k ks K B|k body ks K B1 B2]; cbn [app] in E.
    + injection E as -> _. discriminate C.
    + injection E as -> E. destruct (IH ks x y B E) as (-> & ->). auto.
    + injection E as -> _. apply if_conditional in K as (K & _). congruence.
  - destruct B as [|k ks K B|k body' ks K B1 B2]; cbn [app] in E.
    + injection E as -> _. apply if_conditional in C as (_ & C). exfalso. apply C. reflexivity.
    + injection E as -> _. apply if_conditional in C as (C & _). congruence.
    + injection E as -> E. rewrite <- !app_assoc in E. cbn [app] in E.
      destruct (IH1 body' _ _ B1 E) as (-> & E').
      destruct (IH2 ks x y B2 E') as (-> & ->). auto.
Qed.

Lemma condition_begins : forall D l, holds D l \/ fails D l ->
  begins (text "#ifndef ") l = true \/ begins (text "#ifdef ") l = true.
Proof.
  intros D l [[(m & -> & _)|(m & -> & _)]|[(m & -> & _)|(m & -> & _)]]; auto.
Qed.

Lemma condition_not_plain : forall D l, holds D l \/ fails D l ->
  ~ (begins (text "#") l = false \/ begins (text "#include <") l = true)
  /\ (forall m, l <> text "#define " ++ m) /\ (forall f, l <> text "#include """ ++ f).
Proof.
  intros D l [[(m & -> & _)|(m & -> & _)]|[(m & -> & _)|(m & -> & _)]];
    (splits; [intros [H|H]; discriminate H| |]; intros ? H; discriminate H).
Qed.

Lemma holds_fails : forall D l, holds D l -> fails D l -> False.
Proof.
  intros D l [(m & -> & M)|(m & -> & M)] [(k & E & K)|(k & E & K)]; try discriminate E;
    apply app_inv_head in E; subst; contradiction.
Qed.

Lemma file_unique : forall (fs : list (str * str)) f t t', NoDup (map fst fs) ->
  In (f, t) fs -> In (f, t') fs -> t = t'.
Proof.
  induction fs as [|(g, u) fs IH]; intros f t t' N I J; [destruct I|].
  cbn in N. inversion N as [|? ? M N']; subst.
  destruct I as [I|I]; destruct J as [J|J].
  - congruence.
  - injection I as -> ->. exfalso. apply M. apply in_map_iff. exists (f, t'). auto.
  - injection J as -> ->. exfalso. apply M. apply in_map_iff. exists (f, t). auto.
  - eapply IH; eauto.
Qed.

Lemma pp_inv : forall fs D x D' out, preprocess fs D x D' out -> forall l ls, x = l :: ls ->
  ((begins (text "#") l = false \/ begins (text "#include <") l = true)
    /\ exists o, out = l :: o /\ preprocess fs D ls D' o)
  \/ (exists m, l = text "#define " ++ m /\ preprocess fs (m :: D) ls D' out)
  \/ (exists f t D1 o1 o2, l = text "#include """ ++ f ++ text """" /\ In (f, t) fs
       /\ preprocess fs D (source_lines t) D1 o1 /\ preprocess fs D1 ls D' o2 /\ out = o1 ++ o2)
  \/ (exists body r D1 o1 o2, ls = body ++ text "#endif" :: r /\ holds D l /\ balanced body
       /\ preprocess fs D body D1 o1 /\ preprocess fs D1 r D' o2 /\ out = o1 ++ o2)
  \/ (exists body r, ls = body ++ text "#endif" :: r /\ fails D l /\ balanced body
       /\ preprocess fs D r D' out).
Proof.
  intros fs D x D' out H.
  destruct H as [D|D k ks D' out L H|D m ks D' out H|D f t ks E1 E2 out1 out2 Q I H H2
    |D k body ks E1 E2 out1 out2 C B H H2|D k body ks D' out C B H]; intros l ls E;
    [discriminate E|injection E as <- <-..].
  - left. split; [exact L|]. exists out. auto.
  - right. left. exists m. auto.
  - right. right. left. exists f, t, E1, out1, out2. splits; auto.
  - right. right. right. left. exists body, ks, E1, out1, out2. splits; auto.
  - right. right. right. right. exists body, ks. splits; auto.
Qed.

Lemma directive_define : forall m, ~ (begins (text "#") (text "#define " ++ m) = false
  \/ begins (text "#include <") (text "#define " ++ m) = true).
Proof. intros m [H|H]; discriminate H. Qed.

Lemma directive_include : forall f, ~ (begins (text "#") (text "#include """ ++ f) = false
  \/ begins (text "#include <") (text "#include """ ++ f) = true).
Proof. intros m [H|H]; discriminate H. Qed.

Lemma preprocess_unique : forall fs, NoDup (map fst fs) -> forall D ls D1 o1,
  preprocess fs D ls D1 o1 -> forall D2 o2, preprocess fs D ls D2 o2 -> D1 = D2 /\ o1 = o2.
Proof.
  intros fs N D ls D1 o1 H.
  induction H as [D|D l ls D' out L H IH|D m ls D' out H IH
    |D f t ls E1 E2 out1 out2 Q I H IH H2 IH2|D l body ls E1 E2 out1 out2 C B H IH H2 IH2
    |D l body ls D' out C B H IH]; intros D2 o2 P;
    [inversion P; subst; auto|..];
    pose proof (pp_inv _ _ _ _ _ P _ _ eq_refl) as
      [(L' & o & -> & P')|[(m' & E & P')|[(f' & t' & F1 & p1 & p2 & E & I' & P1 & P2 & ->)
      |[(body' & r' & F1 & p1 & p2 & E & C' & B' & P1 & P2 & ->)|(body' & r' & E & C' & B' & P')]]]];
    clear P.
  - destruct (IH _ _ P') as (-> & ->). auto.
  - subst l. exfalso. exact (directive_define _ L).
  - subst l. exfalso. exact (directive_include _ L).
  - exfalso. apply (proj1 (condition_not_plain D l (or_introl C'))). exact L.
  - exfalso. apply (proj1 (condition_not_plain D l (or_intror C'))). exact L.
  - exfalso. exact (directive_define _ L').
  - apply app_inv_head in E. subst m'. apply IH. exact P'.
  - discriminate E.
  - exfalso. exact (proj1 (proj2 (condition_not_plain D _ (or_introl C'))) m eq_refl).
  - exfalso. exact (proj1 (proj2 (condition_not_plain D _ (or_intror C'))) m eq_refl).
  - exfalso. exact (directive_include _ L').
  - discriminate E.
  - apply app_inv_head, app_inv_tail in E. subst f'.
    rewrite <- (file_unique fs f t t' N I I') in P1.
    destruct (IH _ _ P1) as (<- & <-). destruct (IH2 _ _ P2) as (-> & ->). auto.
  - exfalso. exact (proj2 (proj2 (condition_not_plain D _ (or_introl C'))) _ eq_refl).
  - exfalso. exact (proj2 (proj2 (condition_not_plain D _ (or_intror C'))) _ eq_refl).
  - exfalso. apply (proj1 (condition_not_plain D l (or_introl C))). exact L'.
  - exfalso. exact (proj1 (proj2 (condition_not_plain D _ (or_introl C))) _ E).
  - exfalso. exact (proj2 (proj2 (condition_not_plain D _ (or_introl C))) _ E).
  - destruct (balanced_unique _ B _ _ _ B' E) as (<- & <-).
    destruct (IH _ _ P1) as (<- & <-). destruct (IH2 _ _ P2) as (-> & ->). auto.
  - exfalso. exact (holds_fails _ _ C C').
  - exfalso. apply (proj1 (condition_not_plain D l (or_intror C))). exact L'.
  - exfalso. exact (proj1 (proj2 (condition_not_plain D _ (or_intror C))) _ E).
  - exfalso. exact (proj2 (proj2 (condition_not_plain D _ (or_intror C))) _ E).
  - exfalso. exact (holds_fails _ _ C' C).
  - destruct (balanced_unique _ B _ _ _ B' E) as (<- & <-). apply IH. exact P'.
Qed.
