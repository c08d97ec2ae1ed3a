(** Proofs about the macros and the templates of the generated header of strings. *)

From Coq Require Import ZArith List Bool Lia Sorted FinFun.
From Verif Require Import Base Messages Spec Strings Generate Headers SpecGenerate SpecHeaders
  Properties_Messages Proofs_Macro Proofs_Generate Proofs_Pages Proofs_Headers.
Import ListNotations.
Open Scope Z_scope.

(** ** Directives *)

Definition prepend (ls : list str) (o : outcome) : outcome := fold_right with_line o ls.
Definition passes (ms : list macro) (a : list str) (ms' : list macro) (ls : list str) : Prop :=
  forall rest o, scan ms' rest o -> scan ms (a ++ rest) (prepend ls o).

Lemma prepend_app : forall a b o, prepend (a ++ b) o = prepend a (prepend b o).
Proof. intros. unfold prepend. apply fold_right_app. Qed.

Lemma prepend_finished : forall a ms ls, prepend a (Finished ms ls) = Finished ms (a ++ ls).
Proof. induction a as [|l a IH]; intros; [reflexivity|].
  change (prepend (l :: a) ?o) with (with_line l (prepend a o)). rewrite IH. reflexivity.
Qed.

Lemma prepend_stopped : forall a m, prepend a (Stopped m) = Stopped m.
Proof. induction a as [|l a IH]; intros; [reflexivity|].
  change (prepend (l :: a) ?o) with (with_line l (prepend a o)). rewrite IH. reflexivity.
Qed.

Lemma passes_nil : forall ms, passes ms [] ms [].
Proof. intros ms rest o H. exact H. Qed.

Lemma passes_app : forall ms a ms' x b ms'' y, passes ms a ms' x -> passes ms' b ms'' y ->
  passes ms (a ++ b) ms'' (x ++ y).
Proof.
  intros ms a ms' x b ms'' y A B rest o H. rewrite <- app_assoc, prepend_app. apply A, B, H.
Qed.

Lemma passes_text : forall ms ls, forallb (fun l => negb (begins (text "#") l)) ls = true ->
  passes ms ls ms ls.
Proof.
  intros ms ls H rest o R. induction ls as [|l ls IH]; [exact R|]. cbn [forallb] in H.
  apply andb_true_iff in H as (L & H). apply negb_true_iff in L.
  cbn [app]. change (prepend (l :: ls) o) with (with_line l (prepend ls o)).
  apply scan_line; auto.
Qed.

Lemma passes_include : forall ms ls, forallb (begins (text "#include <")) ls = true ->
  passes ms ls ms [].
Proof.
  intros ms ls H rest o R. induction ls as [|l ls IH]; [exact R|]. cbn [forallb] in H.
  apply andb_true_iff in H as (L & H). cbn [app]. apply scan_include; auto.
Qed.

Lemma passes_defines : forall ls ds ms, Forall2 definition ls ds ->
  NoDup (map macro_id (ms ++ ds)) -> passes ms ls (ms ++ ds) [].
Proof.
  intros ls ds ms H. revert ms. induction H as [|l d ls ds H _ IH]; intros ms N rest o R.
  - rewrite app_nil_r in R. exact R.
  - cbn [app]. apply (scan_define ms l d); [exact H| |].
    + rewrite map_app in N. cbn [map] in N. apply NoDup_remove_2 in N. intro X. apply N.
      apply in_or_app. left. exact X.
    + change (d :: ds) with ([d] ++ ds) in N, R. rewrite app_assoc in N, R. now apply (IH (ms ++ [d])).
Qed.

Lemma passes_taken : forall ms l body ms' ls, condition ms l true -> closed body ->
  passes ms body ms' ls -> passes ms (l :: body ++ [text "#endif"]) ms' ls.
Proof.
  intros ms l body ms' ls C D B rest o R. cbn [app]. rewrite <- app_assoc.
  apply (scan_taken ms l body); auto.
Qed.

Lemma passes_skipped : forall ms l body, condition ms l false -> closed body ->
  passes ms (l :: body ++ [text "#endif"]) ms [].
Proof.
  intros ms l body C D rest o R. cbn [app]. rewrite <- app_assoc.
  apply (scan_skipped ms l body); auto.
Qed.

Lemma closed_app : forall a b, closed a -> closed b -> closed (a ++ b).
Proof.
  intros a b A B. induction A as [|l ls O E A IH|l body ls O D _ A IH]; [exact B| |].
  - now apply closed_line.
  - cbn [app]. rewrite <- app_assoc. now apply closed_part.
Qed.

Definition simple (l : str) : bool := negb (opens l) && negb (begins (text "#endif") l).
Lemma closed_simple : forall ls, forallb simple ls = true -> closed ls.
Proof.
  induction ls as [|l ls IH]; intros H; [constructor|]. cbn [forallb] in H.
  apply andb_true_iff in H as (L & H). apply andb_true_iff in L as (L & M).
  apply negb_true_iff in L, M. apply closed_line; auto.
Qed.

Lemma closed_between : forall l body, opens l = true -> closed body ->
  closed (l :: body ++ [text "#endif"]).
Proof. intros l body O B. apply closed_part; [exact O|exact B|constructor]. Qed.

(** ** The macros of the header *)

Definition s_params : option (list str) := Some [text "s"].
Definition string_def : macro := Macro string_id s_params (tokens string_body).
Definition index_def (limits : list Z) (k : Z) : macro :=
  Macro (index_id k) None [index_str_id (limit_for limits k)].
Definition index_str_def (prev : str) (p l : Z) : macro :=
  Macro (index_str_id l) s_params (tokens (index_str_body prev p l)).
Fixpoint index_str_defs (prev : str) (p : Z) (limits : list Z) : list macro :=
  match limits with
  | [] => []
  | l :: limits' => index_str_def prev p l :: index_str_defs (index_str_id l) l limits'
  end.
Definition guard_def : macro := Macro guard None [].

Definition first_macros (sun : bool) (n : Z) : list macro := macros_before sun n ++ [guard_def].
Definition index_macros (limits : list Z) (m : Z) : list macro :=
  string_def :: map (index_def limits) (xrange 0 (m + 1) 1) ++ index_str_defs [] 0 limits.
Definition macros (sun : bool) (n : Z) (limits : list Z) (m : Z) : list macro :=
  first_macros sun n ++ index_macros limits m.

(** *** Names *)

Lemma index_id_word : forall k, 0 <= k -> word (index_id k) = true.
Proof. intros k K. apply word_app; [reflexivity|now apply print_word]. Qed.
Lemma index_str_id_word : forall k, 0 <= k -> word (index_str_id k) = true.
Proof. intros k K. apply word_app; [reflexivity|now apply print_word]. Qed.

Lemma index_str_id_inj : forall j k, index_str_id j = index_str_id k -> j = k.
Proof. intros j k E. apply app_inv_head in E. now apply print_int_inj. Qed.
Lemma index_id_inj : forall j k, index_id j = index_id k -> j = k.
Proof. intros j k E. apply app_inv_head in E. now apply print_int_inj. Qed.

Lemma index_ids_differ : forall j k, 0 <= j -> index_id j <> index_str_id k.
Proof.
  intros j k J E. unfold index_id, index_str_id in E.
  change (text "BOOST_METAPARSE_V1_INDEX_STR") with (text "BOOST_METAPARSE_V1_I" ++ text "NDEX_STR") in E.
  rewrite <- app_assoc in E. apply app_inv_head in E.
  destruct (print_digits j J) as (D & N). destruct (print_number j) as [|c r]; [congruence|].
  inversion D as [|? ? C _]; subst. change (text "NDEX_STR" ++ ?x) with (78 :: text "DEX_STR" ++ x) in E.
  injection E as E _. unfold digit_char in C. slia.
Qed.

Lemma first_ids : forall sun n x, In x (map macro_id (first_macros sun n ++ [string_def])) ->
  x = limit_macro \/ x = text "BOOST_METAPARSE_V1_STRING_AT" \/ x = text "__SUNPRO_CC"
  \/ x = guard \/ x = string_id.
Proof.
  intros sun n x H. destruct sun; cbn [first_macros macros_before app map In macro_id guard_def
    string_def string_at_macro] in H; intuition auto.
Qed.

Lemma xrange_nodup : forall a b, NoDup (xrange a b 1).
Proof.
  intros a b. unfold xrange. apply Injective_map_NoDup; [|apply seq_NoDup].
  intros i j E. lia.
Qed.

Lemma index_str_ids : forall limits prev p,
  map macro_id (index_str_defs prev p limits) = map index_str_id limits.
Proof.
  induction limits as [|l limits IH]; intros prev p; [reflexivity|]. cbn [index_str_defs map].
  rewrite IH. reflexivity.
Qed.

Lemma sorted_nodup : forall l, StronglySorted Z.lt l -> NoDup l.
Proof.
  intros l H. induction H as [|x l H IH F]; [constructor|]. constructor; [|exact IH].
  intro I. rewrite Forall_forall in F. specialize (F x I). lia.
Qed.

Lemma nodup_app : forall (A : Type) (a b : list A), NoDup a -> NoDup b ->
  (forall x, In x a -> In x b -> False) -> NoDup (a ++ b).
Proof.
  intros A a b H. revert b. induction H as [|x a N H IH]; intros b B D; [exact B|].
  cbn [app]. constructor.
  - intro I. apply in_app_or in I as [I|I]; [now apply N|]. apply (D x); [now left|exact I].
  - apply IH; [exact B|]. intros y Y Z. apply (D y); [now right|exact Z].
Qed.

Lemma first_nodup : forall sun n, NoDup (map macro_id (first_macros sun n ++ [string_def])).
Proof.
  intros sun n.
  destruct sun; cbn [first_macros macros_before app map macro_id guard_def string_def string_at_macro];
    repeat constructor; cbn [In]; intuition discriminate.
Qed.

Lemma macros_nodup : forall sun n limits m, good_limits limits ->
  NoDup (map macro_id (macros sun n limits m)).
Proof.
  intros sun n limits m G. unfold macros, index_macros.
  change (string_def :: ?x) with ([string_def] ++ x). rewrite app_assoc.
  rewrite (map_app macro_id (first_macros sun n ++ [string_def])), (map_app macro_id (map _ _)), map_map.
  rewrite index_str_ids.
  change (map (fun k => macro_id (index_def limits k)) ?x) with (map index_id x).
  apply nodup_app; [apply first_nodup| |].
  - apply nodup_app.
    + apply Injective_map_NoDup; [exact index_id_inj|apply xrange_nodup].
    + apply Injective_map_NoDup; [exact index_str_id_inj|apply sorted_nodup, G].
    + intros x X Y. apply in_map_iff in X as (j & <- & J). apply in_map_iff in Y as (k & E & _).
      apply xrange_In in J. symmetry in E. revert E. apply index_ids_differ. lia.
  - intros x X Y. apply first_ids in X. apply in_app_or in Y as [Y|Y];
      apply in_map_iff in Y as (k & <- & _);
      destruct X as [X|[X|[X|[X|X]]]]; discriminate X.
Qed.

Lemma macro_names : forall sun n limits m x, In x (map macro_id (macros sun n limits m)) ->
  begins (text "BOOST_METAPARSE_") x = true \/ x = text "__SUNPRO_CC".
Proof.
  intros sun n limits m x H. unfold macros, index_macros in H.
  change (string_def :: ?x) with ([string_def] ++ x) in H.
  rewrite app_assoc, (map_app macro_id (first_macros sun n ++ [string_def])),
    (map_app macro_id (map _ _)), map_map, index_str_ids in H.
  apply in_app_or in H as [H|H].
  - apply first_ids in H. destruct H as [->|[->|[->|[->| ->]]]]; auto.
  - left. apply in_app_or in H as [H|H]; apply in_map_iff in H as (k & <- & _); reflexivity.
Qed.

(** *** The definitions *)

Lemma tokens_separated : forall l, tokens (separated comma l) = comma_separated (map tokens l).
Proof.
  induction l as [|x l IH]; [reflexivity|]. cbn [separated map comma_separated].
  destruct l as [|y l]; [reflexivity|]. cbn [map] in *.
  rewrite tokens_app_r by reflexivity. rewrite (tokens_app_l comma) by reflexivity.
  rewrite IH. reflexivity.
Qed.

Definition at_tokens (x : list str) (i : Z) : list str :=
  text "BOOST_METAPARSE_V1_STRING_AT" :: lparen :: lparen :: x
  ++ [rparen; comma; print_number i; rparen].

Lemma string_at_tokens : forall i, 0 <= i -> tokens (string_at_text i) = at_tokens [text "s"] i.
Proof.
  intros i I. unfold string_at_text. rewrite tokens_app_l by reflexivity.
  rewrite tokens_app_r by reflexivity. rewrite (tokens_word (print_number i)) by now apply print_word. reflexivity.
Qed.

Definition previous (prev : str) (x : list str) : list str :=
  match prev with [] => [] | _ => prev :: lparen :: x ++ [rparen; comma] end.

Lemma index_str_body_tokens : forall prev p l, prev = [] \/ word prev = true -> 0 <= p ->
  tokens (index_str_body prev p l) =
  previous prev [text "s"] ++ comma_separated (map (at_tokens [text "s"]) (xrange p l 1)).
Proof.
  intros prev p l W P. unfold index_str_body.
  rewrite tokens_app_l.
  - apply (f_equal2 (@app str)).
    + destruct prev as [|c prev]; [reflexivity|]. destruct W as [W|W]; [discriminate|].
      unfold previous. rewrite tokens_app_r by reflexivity. rewrite tokens_word by exact W. reflexivity.
    + etransitivity; [apply tokens_separated|]. rewrite map_map. f_equal. apply map_ext_in.
      intros i I. apply xrange_In in I. apply string_at_tokens. lia.
  - destruct prev as [|c prev]; [reflexivity|]. unfold ends_word. rewrite rev_app_distr. reflexivity.
Qed.

Lemma index_defines : forall limits k, 0 <= k -> 0 <= limit_for limits k ->
  definition (index_line limits k) (index_def limits k).
Proof.
  intros limits k K L. unfold index_line, index_def.
  rewrite <- (tokens_word (index_str_id (limit_for limits k))) by now apply index_str_id_word.
  apply def_object. now apply index_id_word.
Qed.

Lemma index_str_defines : forall limits prev p, (forall l, In l limits -> 0 <= l) ->
  Forall2 definition (index_str_lines prev p limits) (index_str_defs prev p limits).
Proof.
  induction limits as [|l limits IH]; intros prev p H; [constructor|].
  cbn [index_str_lines index_str_defs]. constructor.
  - unfold index_str_line, index_str_def.
    change (text "(s) " ++ ?x) with (text "(" ++ separated (text ", ") [text "s"] ++ text ") " ++ x).
    apply def_function; [|reflexivity]. apply index_str_id_word, H. now left.
  - apply IH. intros j J. apply H. now right.
Qed.

Lemma limit_for_spec : forall limits m k, py_max limits = Some m -> k <= m ->
  In (limit_for limits k) limits /\ k <= limit_for limits k.
Proof.
  intros limits m k M K. destruct (index_macro_spec limits k m M K) as (l & L & I & B).
  unfold limit_for. unfold index_macro in L. rewrite L. auto.
Qed.

(** ** The header *)

Definition text_lines (sun : bool) : list str :=
  open_lines ++ make_lines ++ small_lines ++ (if sun then [] else large_lines) ++ close_lines.

Lemma index_line_simple : forall limits ks, forallb simple (map (index_line limits) ks) = true.
Proof. intros limits ks. apply forallb_forall. intros x X. apply in_map_iff in X as (k & <- & _). reflexivity. Qed.

Lemma index_str_line_simple : forall limits prev p,
  forallb simple (index_str_lines prev p limits) = true.
Proof.
  induction limits as [|l limits IH]; intros; [reflexivity|]. cbn [index_str_lines forallb].
  rewrite IH. reflexivity.
Qed.

Definition body_lines (limits : list Z) (m : Z) : list str :=
  (text "#define " ++ guard) :: front_lines
      ++ open_lines ++ make_lines ++ small_lines
      ++ [text "#ifndef __SUNPRO_CC"] ++ large_lines ++ [text "#endif"] ++ close_lines
      ++ limit_lines m
      ++ map (index_line limits) (xrange 0 (m + 1) 1)
      ++ index_str_lines [] 0 limits.

Lemma limit_lines_parts : forall m, limit_lines m =
  ((text "#ifndef " ++ limit_macro)
     :: [text "#  error BOOST_METAPARSE_LIMIT_STRING_SIZE not defined"] ++ [text "#endif"])
  ++ ((text "#if " ++ limit_macro ++ text " > " ++ print_number m)
     :: [text "#  error " ++ too_large m] ++ [text "#endif"])
  ++ ((text "#ifdef " ++ string_id)
     :: [text "#  error " ++ string_id ++ text " already defined."] ++ [text "#endif"])
  ++ [text "#define " ++ string_id ++ text "(s) " ++ string_body].
Proof. reflexivity. Qed.

Lemma specialisation_start : forall k, exists r, specialisation k = text "template <int LenRemaining," ++ r.
Proof. intro k. eexists. reflexivity. Qed.

Lemma specialisations_simple : forall ks,
  forallb (fun l => negb (begins (text "#") l)) (map specialisation ks) = true
  /\ forallb simple (map specialisation ks) = true.
Proof.
  intro ks. split; apply forallb_forall; intros x X; apply in_map_iff in X as (k & <- & _);
    destruct (specialisation_start k) as (r & ->); reflexivity.
Qed.

Lemma body_closed : forall limits m, closed (body_lines limits m).
Proof.
  intros limits m. unfold body_lines. rewrite limit_lines_parts.
  change ((text "#define " ++ guard) :: ?x) with ([text "#define " ++ guard] ++ x).
  apply closed_app; [now apply closed_simple|].
  apply closed_app; [now apply closed_simple|].
  apply closed_app; [now apply closed_simple|].
  apply closed_app; [apply closed_simple; vm_compute; reflexivity|].
  apply closed_app; [apply closed_simple; apply specialisations_simple|].
  change ([text "#ifndef __SUNPRO_CC"] ++ large_lines ++ [text "#endif"] ++ ?x)
    with ((text "#ifndef __SUNPRO_CC" :: large_lines ++ [text "#endif"]) ++ x).
  apply closed_app; [apply closed_between; [reflexivity|apply closed_simple; apply specialisations_simple]|].
  apply closed_app; [now apply closed_simple|].
  rewrite <- !app_assoc.
  apply closed_app; [apply closed_between; [reflexivity|now apply closed_simple]|].
  apply closed_app; [apply closed_between; [reflexivity|now apply closed_simple]|].
  apply closed_app; [apply closed_between; [reflexivity|now apply closed_simple]|].
  apply closed_app; [now apply closed_simple|].
  apply closed_app; apply closed_simple; [apply index_line_simple|apply index_str_line_simple].
Qed.

Lemma guard_not_before : forall sun n, ~ defined (macros_before sun n) guard.
Proof. intros sun n H. destruct sun; cbn in H; intuition discriminate. Qed.

Lemma limit_condition : forall sun n m b, (m <? n) = b ->
  condition (first_macros sun n) (text "#if " ++ limit_macro ++ text " > " ++ print_number m) b.
Proof. intros sun n m b <-. apply cond_if_greater. cbn. auto. Qed.

(** Up to the limit *)
Lemma first_passes : forall (sun : bool) n,
  passes (macros_before sun n)
    ((text "#define " ++ guard) :: front_lines
      ++ open_lines ++ make_lines ++ small_lines
      ++ [text "#ifndef __SUNPRO_CC"] ++ large_lines ++ [text "#endif"] ++ close_lines)
    (first_macros sun n) (text_lines sun).
Proof.
  intros sun n. change ((text "#define " ++ guard) :: ?x) with ([text "#define " ++ guard] ++ x).
  change (text_lines sun) with ([] ++ [] ++ text_lines sun).
  apply passes_app with (first_macros sun n).
  { apply passes_defines.
    - constructor; [|constructor]. apply def_empty. reflexivity.
    - pose proof (first_nodup sun n) as N. rewrite map_app in N.
      apply NoDup_remove in N as (N & _). rewrite app_nil_r in N. exact N. }
  apply passes_app with (first_macros sun n); [now apply passes_include|].
  unfold text_lines.
  apply passes_app with (first_macros sun n); [now apply passes_text|].
  apply passes_app with (first_macros sun n); [apply passes_text; vm_compute; reflexivity|].
  apply passes_app with (first_macros sun n); [apply passes_text; apply specialisations_simple|].
  change ([text "#ifndef __SUNPRO_CC"] ++ large_lines ++ [text "#endif"] ++ ?x)
    with ((text "#ifndef __SUNPRO_CC" :: large_lines ++ [text "#endif"]) ++ x).
  apply passes_app with (first_macros sun n); [|now apply passes_text].
  change (text "#ifndef __SUNPRO_CC") with (text "#ifndef " ++ text "__SUNPRO_CC").
  destruct sun.
  - apply passes_skipped; [|apply closed_simple; apply specialisations_simple].
    apply cond_ifndef_not. cbn. auto.
  - apply passes_taken; [|apply closed_simple; apply specialisations_simple|
      apply passes_text; apply specialisations_simple].
    apply cond_ifndef. intro H. cbn in H. intuition discriminate.
Qed.

(** The rest *)
Lemma rest_passes : forall sun n limits m, good_limits limits -> py_max limits = Some m -> n <= m ->
  passes (first_macros sun n)
    (limit_lines m ++ map (index_line limits) (xrange 0 (m + 1) 1) ++ index_str_lines [] 0 limits)
    (macros sun n limits m) [].
Proof.
  intros sun n limits m G M L. rewrite limit_lines_parts, <- !app_assoc.
  match goal with |- passes ?a ?b ?c _ => change (passes a b c ([] ++ [] ++ [] ++ [])) end.
  assert (ND : ~ defined (first_macros sun n) string_id).
  { intro H. assert (X : In string_id (map macro_id (first_macros sun n ++ [string_def])))
      by (rewrite map_app; apply in_or_app; now left).
    pose proof (first_nodup sun n) as N. rewrite map_app in N.
    apply NoDup_remove in N as (_ & N). rewrite app_nil_r in N. exact (N H). }
  apply passes_app with (first_macros sun n).
  { apply passes_skipped; [|now apply closed_simple]. apply cond_ifndef_not. cbn. auto. }
  apply passes_app with (first_macros sun n).
  { apply passes_skipped; [|now apply closed_simple].
    apply limit_condition. apply Z.ltb_ge. exact L. }
  apply passes_app with (first_macros sun n).
  { apply passes_skipped; [|now apply closed_simple]. apply cond_ifdef_not. exact ND. }
  unfold macros. apply passes_defines; [|now apply macros_nodup].
  unfold index_macros. change (string_def :: ?x) with ([string_def] ++ x).
  apply Forall2_app; [|apply Forall2_app].
  - constructor; [|constructor].
    change (text "(s) " ++ ?x) with (text "(" ++ separated (text ", ") [text "s"] ++ text ") " ++ x).
    now apply def_function.
  - assert (R : Forall (fun k => 0 <= k <= m) (xrange 0 (m + 1) 1)).
    { apply Forall_forall. intros k K. apply xrange_In in K. lia. }
    induction R as [|k ks K R IH]; [constructor|]. cbn [map]. constructor; [|exact IH].
    apply index_defines; [lia|].
    destruct (limit_for_spec limits m k M ltac:(lia)). lia.
  - apply index_str_defines. intros l I. apply G in I. lia.
Qed.

Lemma header_scan : forall sun n limits m, good_limits limits -> py_max limits = Some m -> n <= m ->
  scan (macros_before sun n) (header_lines limits m)
    (Finished (macros sun n limits m) (text_lines sun)).
Proof.
  intros sun n limits m G M L. unfold header_lines. fold (body_lines limits m).
  apply (scan_taken (macros_before sun n) _ (body_lines limits m) []).
  - apply cond_ifndef, guard_not_before.
  - apply body_closed.
  - pose proof (passes_app _ _ _ _ _ _ _ (first_passes sun n) (rest_passes sun n limits m G M L)) as P.
    specialize (P [] _ (scan_end _)). rewrite prepend_finished, !app_nil_r in P.
    rewrite app_nil_r. unfold body_lines. revert P.
    do 3 (cbn [app]; rewrite <- ?app_assoc). intro P. exact P.
Qed.

Lemma header_too_large : forall sun n limits m, m < n ->
  scan (macros_before sun n) (header_lines limits m) (Stopped (too_large m)).
Proof.
  intros sun n limits m L. unfold header_lines. fold (body_lines limits m).
  apply (scan_taken (macros_before sun n) _ (body_lines limits m) []).
  - apply cond_ifndef, guard_not_before.
  - apply body_closed.
  - rewrite app_nil_r. pose proof (first_passes sun n
      (limit_lines m ++ map (index_line limits) (xrange 0 (m + 1) 1) ++ index_str_lines [] 0 limits)
      (Stopped (too_large m))) as P.
    rewrite prepend_stopped in P. unfold body_lines. revert P.
    do 3 (cbn [app]; rewrite <- ?app_assoc). intro P. apply P. clear P.
    rewrite limit_lines_parts.
    assert (S : passes (first_macros sun n) ((text "#ifndef " ++ limit_macro)
     :: [text "#  error BOOST_METAPARSE_LIMIT_STRING_SIZE not defined"] ++ [text "#endif"]) (first_macros sun n) []).
    { apply passes_skipped; [|now apply closed_simple]. apply cond_ifndef_not. cbn. auto. }
    rewrite <- app_assoc. apply (S _ (Stopped (too_large m))). rewrite <- app_assoc.
    cbn [app]. apply (scan_taken _ _ [text "#  error " ++ too_large m]).
    + apply limit_condition. apply Z.ltb_lt. exact L.
    + now apply closed_simple.
    + apply scan_error.
Qed.

(** Without the macro of the limit *)
Lemma header_no_limit : forall ms limits m, ~ defined ms guard -> ~ defined ms limit_macro ->
  scan ms (header_lines limits m)
    (Stopped (text "BOOST_METAPARSE_LIMIT_STRING_SIZE not defined")).
Proof.
  intros ms limits m NG NL. unfold header_lines. fold (body_lines limits m).
  set (e := Stopped (text "BOOST_METAPARSE_LIMIT_STRING_SIZE not defined")).
  apply (scan_taken ms _ (body_lines limits m) []).
  - now apply cond_ifndef.
  - apply body_closed.
  - rewrite app_nil_r. unfold body_lines.
    apply (scan_define ms _ guard_def); [now apply def_empty|exact NG|].
    set (ms' := ms ++ [guard_def]).
    assert (R : scan ms' (limit_lines m ++ map (index_line limits) (xrange 0 (m + 1) 1)
      ++ index_str_lines [] 0 limits) e).
    { rewrite limit_lines_parts, <- app_assoc. cbn [app].
      apply (scan_taken _ _ [text "#  error BOOST_METAPARSE_LIMIT_STRING_SIZE not defined"]).
      - apply cond_ifndef. unfold ms', defined. rewrite map_app. intro H.
        apply in_app_or in H as [H|H]; [exact (NL H)|]. cbn in H. intuition discriminate.
      - now apply closed_simple.
      - apply (scan_error ms' (text "BOOST_METAPARSE_LIMIT_STRING_SIZE not defined")). }
    assert (T : forall ls rest, forallb (fun l => negb (begins (text "#") l)) ls = true ->
      scan ms' rest e -> scan ms' (ls ++ rest) e).
    { intros ls rest F S. unfold e. rewrite <- (prepend_stopped ls). apply passes_text; assumption. }
    assert (I : passes ms' front_lines ms' []) by now apply passes_include.
    apply (I _ e). apply T; [reflexivity|]. apply T; [vm_compute; reflexivity|].
    apply T; [apply specialisations_simple|].
    change ([text "#ifndef __SUNPRO_CC"] ++ large_lines ++ [text "#endif"] ++ ?x)
      with ((text "#ifndef " ++ text "__SUNPRO_CC") :: large_lines ++ text "#endif" :: x).
    assert (C : closed large_lines) by (apply closed_simple; apply specialisations_simple).
    destruct (in_dec (list_eq_dec Z.eq_dec) (text "__SUNPRO_CC") (map macro_id ms')) as [D|D].
    + apply scan_skipped; [now apply cond_ifndef_not|exact C|]. apply T; [reflexivity|exact R].
    + apply scan_taken; [now apply cond_ifndef|exact C|].
      apply T; [apply specialisations_simple|]. apply T; [reflexivity|exact R].
Qed.
