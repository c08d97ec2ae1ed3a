(** Proofs about the generated header of strings. *)

From Coq Require Import ZArith List Bool Lia Sorted.
From Verif Require Import Base Messages Spec Strings Generate Headers SpecGenerate SpecHeaders
  Properties_Messages Proofs_Macro Proofs_Generate Proofs_Pages.
Import ListNotations.
Open Scope Z_scope.

(** ** Tokens *)

Definition begins_word (s : str) : bool := match s with c :: _ => word_char c | [] => false end.
Definition ends_word (s : str) : bool := begins_word (rev s).

Lemma tokens_cons : forall c s, tokens (c :: s) =
  if word_char c then
    match tokens s with
    | w :: ts => if begins_word s then (c :: w) :: ts else [c] :: w :: ts
    | [] => [[c]]
    end
  else if white c then tokens s else [c] :: tokens s.
Proof. reflexivity. Qed.

Lemma tokens_word_head : forall s, begins_word s = true -> exists w ts, tokens s = w :: ts.
Proof.
  intros [|c s] H; [discriminate|]. cbn [begins_word] in H. rewrite tokens_cons, H.
  destruct (tokens s); [eauto|]. destruct (begins_word s); eauto.
Qed.

Lemma ends_word_cons : forall c s, s <> [] -> ends_word (c :: s) = ends_word s.
Proof.
  intros c s N. unfold ends_word. cbn [rev].
  destruct (rev s) as [|d r] eqn:E; [|reflexivity].
  exfalso. apply N. rewrite <- (rev_involutive s), E. reflexivity.
Qed.

Lemma tokens_app : forall a b, ends_word a && begins_word b = false ->
  tokens (a ++ b) = tokens a ++ tokens b.
Proof.
  induction a as [|c a IH]; intros b H; [reflexivity|].
  destruct a as [|d a].
  - change ([c] ++ b) with (c :: b). rewrite !tokens_cons. change (tokens []) with (@nil str).
    cbv beta iota. unfold ends_word in H. cbn [rev app begins_word] in H.
    destruct (word_char c).
    + cbn [andb] in H. rewrite H. destruct (tokens b); reflexivity.
    + destruct (white c); reflexivity.
  - rewrite ends_word_cons in H by discriminate.
    change ((c :: d :: a) ++ b) with (c :: ((d :: a) ++ b)).
    rewrite (tokens_cons c ((d :: a) ++ b)), (tokens_cons c (d :: a)), (IH b H).
    change (begins_word ((d :: a) ++ b)) with (begins_word (d :: a)).
    destruct (word_char c); [|destruct (white c); reflexivity].
    destruct (tokens (d :: a)) as [|w ts] eqn:E.
    + destruct (begins_word (d :: a)) eqn:B.
      * destruct (tokens_word_head _ B) as (w & ts & X). rewrite X in E. discriminate E.
      * cbn [app]. destruct (tokens b); reflexivity.
    + cbn [app]. destruct (begins_word (d :: a)); reflexivity.
Qed.

Lemma tokens_app_l : forall a b, ends_word a = false -> tokens (a ++ b) = tokens a ++ tokens b.
Proof. intros a b H. apply tokens_app. rewrite H. reflexivity. Qed.

Lemma tokens_app_r : forall a b, begins_word b = false -> tokens (a ++ b) = tokens a ++ tokens b.
Proof. intros a b H. apply tokens_app. rewrite H, andb_false_r. reflexivity. Qed.

Lemma tokens_word : forall w, word w = true -> tokens w = [w].
Proof.
  intros w W. destruct w as [|c w]; [discriminate|]. unfold word in W.
  revert c W. induction w as [|d w IH]; intros c W; cbn [forallb] in W.
  - apply andb_true_iff in W as (W & _). rewrite tokens_cons, W. reflexivity.
  - apply andb_true_iff in W as (W & V). rewrite tokens_cons, W, (IH d V).
    cbn [begins_word]. cbn [forallb] in V. apply andb_true_iff in V as (V & _). rewrite V. reflexivity.
Qed.

Lemma word_app : forall a b, word a = true -> word b = true -> word (a ++ b) = true.
Proof.
  intros a b A B. destruct a as [|c a]; [discriminate|]. destruct b as [|d b]; [discriminate|].
  unfold word in *. cbn [app]. change (c :: a ++ d :: b) with ((c :: a) ++ d :: b).
  rewrite forallb_app, A, B. reflexivity.
Qed.

Lemma print_word : forall k, 0 <= k -> word (print_number k) = true.
Proof.
  intros k H. destruct (print_digits k H) as (D & N).
  destruct (print_number k) as [|c r]; [congruence|]. unfold word.
  apply forallb_forall. intros x X. rewrite Forall_forall in D. specialize (D x X).
  unfold word_char. unfold digit_char in D.
  destruct (Z.leb_spec 48 x); [|slia]. destruct (Z.leb_spec x 57); [|slia]. reflexivity.
Qed.

Lemma word_begins : forall w, word w = true -> begins_word w = true.
Proof.
  intros [|c w] H; [discriminate|]. cbn in *. apply andb_true_iff in H. apply H.
Qed.

(** ** Lines *)

Lemma whole_source : forall a b, whole a -> source_lines (a ++ b) = source_lines a ++ source_lines b.
Proof.
  intros a b [->|(u & ->)]; [reflexivity|]. rewrite <- app_assoc. unfold nl. cbn [app].
  rewrite source_app, source_app. change (source_lines []) with (@nil str).
  rewrite app_nil_r. reflexivity.
Qed.

Lemma whole_line : forall l, whole (l ++ nl).
Proof. intro l. right. exists l. reflexivity. Qed.

Lemma source_indented : forall p l, whites p -> no_newline p -> no_newline l -> tight l ->
  significant l = true -> source_lines (p ++ l ++ nl) = [l].
Proof.
  intros p l W NP NL T S. unfold nl. rewrite app_assoc. rewrite source_app.
  change (source_lines []) with (@nil str). rewrite app_nil_r.
  unfold source_lines. rewrite lines_no_newline by (apply Forall_app; auto).
  cbn [map filter]. rewrite trim_white_begin, trim_tight, S by auto. reflexivity.
Qed.

Lemma source_one : forall l, no_newline l -> tight l -> significant l = true ->
  source_lines (l ++ nl) = [l].
Proof. intros l N T S. apply (source_indented []); auto; constructor. Qed.

Lemma print_no_newline : forall k, 0 <= k -> no_newline (print_number k).
Proof.
  intros k H. destruct (print_digits k H) as (D & _). revert D. apply Forall_impl.
  intros c C ->. unfold digit_char in C. slia.
Qed.

Lemma last_word : forall a w, word w = true -> white (last (a ++ w) 32) = false.
Proof.
  intros a w W. destruct w as [|c w] using rev_ind; [discriminate|].
  rewrite app_assoc, last_last.
  assert (X : word_char c = true).
  { destruct (w ++ [c]) as [|d r] eqn:E; [discriminate|]. unfold word in W.
    rewrite forallb_forall in W. apply W. rewrite <- E. apply in_or_app. right. now left. }
  unfold word_char in X. unfold white.
  destruct (Z.eqb_spec c 32); [subst; discriminate|].
  destruct (Z.leb_spec c 13); [|apply andb_false_r]. exfalso.
  repeat match type of X with context [?a <=? ?b] => destruct (Z.leb_spec a b); try slia end.
Qed.

(** A directive on a line *)
Lemma source_directive : forall l, no_newline l -> white (last (35 :: l) 32) = false ->
  source_lines ((35 :: l) ++ nl) = [35 :: l].
Proof.
  intros l N L. apply source_one.
  - constructor; [discriminate|exact N].
  - right. split; [reflexivity|exact L].
  - reflexivity.
Qed.

(** ** The lines of the header *)

Definition names (k : Z) : list str := map (fun i => text "C" ++ print_number i) (up_to k).
Definition specialisation (k : Z) : str :=
  text "template <int LenRemaining,"
  ++ concat (map (fun n => text "char " ++ n ++ text ",") (names k))
  ++ text "char... Cs> struct make_string<" ++ print_number k ++ text ",LenRemaining,"
  ++ concat (map (fun n => n ++ text ",") (names k))
  ++ text "Cs...> : concat<string<" ++ separated (text ",") (names k)
  ++ text ">, typename make_string<take(LenRemaining),LenRemaining-take(LenRemaining),Cs...>::type> {};".

Definition front_lines : list str :=
  [text "#include <boost/metaparse/v1/cpp11/impl/concat.hpp>";
   text "#include <boost/preprocessor/cat.hpp>"].
Definition open_lines : list str :=
  [text "namespace boost"; text "{"; text "namespace metaparse"; text "{"; text "namespace v1";
   text "{"; text "namespace impl"; text "{"].
Definition take_head : str := text "constexpr inline int take(int n_)".
Definition take_body : str :=
  text "return n_ >= 512 ? 512 : (n_ >= 256 ? 256 : (n_ >= 128 ? 128 : (n_ >= 64 ? 64 : (n_ >= 32 ? 32 : (n_ >= 16 ? 16 : (n_ >= 8 ? 8 : (n_ >= 4 ? 4 : (n_ >= 2 ? 2 : (n_ >= 1 ? 1 : ( 0 ))))))))));".
Definition make_lines : list str :=
  [take_head; text "{"; take_body; text "}";
   text "template <int LenNow, int LenRemaining, char... Cs>"; text "struct make_string;";
   text "template <char... Cs> struct make_string<0, 0, Cs...> : string<> {};"].
Definition small_lines : list str := map specialisation [1; 2; 4; 8; 16; 32; 64].
Definition large_lines : list str := map specialisation [128; 256; 512].
Definition close_lines : list str := [text "}"; text "}"; text "}"; text "}"].

(** *** The limits *)

Lemma zeros_int : forall n k, 0 <= k -> int_of (zfill n (print_number k)) = Some k.
Proof.
  intros n k H. pose proof (int_print k H) as I. unfold zfill.
  generalize dependent (n - length (print_number k))%nat. intro m.
  destruct (print_number k) as [|c r] eqn:E; [discriminate|].
  unfold int_of in *. injection I as I.
  assert (G : fold_left (fun v c => 10 * v + (c - 48)) (times m [48] ++ c :: r) 0 = k).
  { induction m as [|m IH]; [exact I|exact IH]. }
  destruct (times m [48] ++ c :: r) eqn:F; [destruct m; discriminate|]. rewrite G. reflexivity.
Qed.

Lemma limits_ints : forall max step, 0 < step ->
  ints (limit_texts max step) = Some (length_limits max step).
Proof.
  intros max step H. unfold limit_texts. fold (length_limits max step).
  assert (P : Forall (fun k => 0 <= k) (length_limits max step)).
  { apply Forall_forall. intros l L. apply (length_limits_good max step H) in L. lia. }
  unfold ints, py_str. induction P as [|k l K P IH]; [reflexivity|]. cbn [map ints_of].
  change (print_int k) with (print_number k). rewrite zeros_int, IH by exact K. reflexivity.
Qed.

(** *** The macros *)

Definition string_id : str := text "BOOST_METAPARSE_V1_STRING".
Definition index_id (k : Z) : str := text "BOOST_METAPARSE_V1_I" ++ print_number k.
Definition index_str_id (k : Z) : str := text "BOOST_METAPARSE_V1_INDEX_STR" ++ print_number k.
Definition string_body : str :=
  text "::boost::metaparse::v1::impl::make_string< ::boost::metaparse::v1::impl::take(sizeof(s)-1), sizeof(s)-1-::boost::metaparse::v1::impl::take(sizeof(s)-1),BOOST_PP_CAT(BOOST_METAPARSE_V1_I, BOOST_METAPARSE_LIMIT_STRING_SIZE)(s)>::type".
Definition too_large (m : Z) : str :=
  text "BOOST_METAPARSE_LIMIT_STRING_SIZE is greater than " ++ print_number m
  ++ text ". To increase the limit run tools/string_headers.py of Boost.Metaparse against your Boost headers.".
Definition limit_lines (m : Z) : list str :=
  [text "#ifndef " ++ limit_macro;
   text "#  error BOOST_METAPARSE_LIMIT_STRING_SIZE not defined";
   text "#endif";
   text "#if " ++ limit_macro ++ text " > " ++ print_number m;
   text "#  error " ++ too_large m;
   text "#endif";
   text "#ifdef " ++ string_id;
   text "#  error " ++ string_id ++ text " already defined.";
   text "#endif";
   text "#define " ++ string_id ++ text "(s) " ++ string_body].

(** The smallest limit that is not less *)
Definition limit_for (limits : list Z) (k : Z) : Z :=
  match py_min (filter (fun l => k <=? l) limits) with Some l => l | None => 0 end.
Definition index_line (limits : list Z) (k : Z) : str :=
  text "#define " ++ index_id k ++ text " " ++ index_str_id (limit_for limits k).

Definition string_at_text (i : Z) : str :=
  text "BOOST_METAPARSE_V1_STRING_AT((s), " ++ print_number i ++ text ")".
Definition index_str_body (prev_macro : str) (prev_limit limit : Z) : str :=
  match prev_macro with [] => [] | _ => prev_macro ++ text "(s)," end
  ++ separated (text ",") (map string_at_text (xrange prev_limit limit 1)).
Definition index_str_line (prev_macro : str) (prev_limit limit : Z) : str :=
  text "#define " ++ index_str_id limit ++ text "(s) " ++ index_str_body prev_macro prev_limit limit.
Fixpoint index_str_lines (prev_macro : str) (prev_limit : Z) (limits : list Z) : list str :=
  match limits with
  | [] => []
  | l :: limits' =>
      index_str_line prev_macro prev_limit l :: index_str_lines (index_str_id l) l limits'
  end.

Definition guard : str := text "BOOST_METAPARSE_V1_CPP11_IMPL_STRING_HPP".
Definition header_lines (limits : list Z) (m : Z) : list str :=
  (text "#ifndef " ++ guard)
  :: ((text "#define " ++ guard) :: front_lines
      ++ open_lines ++ make_lines ++ small_lines
      ++ [text "#ifndef __SUNPRO_CC"] ++ large_lines ++ [text "#endif"] ++ close_lines
      ++ limit_lines m
      ++ map (index_line limits) (xrange 0 (m + 1) 1)
      ++ index_str_lines [] 0 limits)
  ++ [text "#endif"].

(** A text of lines *)
Definition gives_lines (t : str) (ls : list str) : Prop := whole t /\ source_lines t = ls.

Lemma gives_app : forall a b x y, gives_lines a x -> gives_lines b y -> gives_lines (a ++ b) (x ++ y).
Proof.
  intros a b x y (WA & <-) (WB & <-). split; [now apply whole_app|]. now apply whole_source.
Qed.

Lemma gives_nil : gives_lines [] [].
Proof. split; [now left|reflexivity]. Qed.

Lemma gives_directive : forall l, no_newline l -> white (last (35 :: l) 32) = false ->
  gives_lines ((35 :: l) ++ nl) [35 :: l].
Proof. intros l N L. split; [apply whole_line|now apply source_directive]. Qed.

Lemma gives_concat : forall ts ls, Forall2 (fun t l => gives_lines t [l]) ts ls ->
  gives_lines (concat ts) ls.
Proof.
  intros ts ls H. induction H as [|t l ts ls H _ IH]; [apply gives_nil|].
  cbn [concat]. change (l :: ls) with ([l] ++ ls). now apply gives_app.
Qed.

Lemma text_no_newline : forall s, forallb (fun c => negb (c =? 10)) s = true -> no_newline s.
Proof.
  intros s H. apply Forall_forall. intros c C E. rewrite forallb_forall in H. specialize (H c C).
  subst. discriminate.
Qed.

Lemma no_newline_app : forall a b, no_newline a -> no_newline b -> no_newline (a ++ b).
Proof. intros a b A B. apply Forall_app. auto. Qed.

Ltac no_newlines := repeat first [apply no_newline_app | apply text_no_newline; reflexivity
  | apply print_no_newline; assumption].

Lemma names_unique : forall k, 0 <= k -> unique_names k = names k.
Proof.
  intros k K. unfold unique_names, names, xrange, up_to. rewrite !map_map.
  replace ((k - 0 + 1 - 1) / 1) with k by (rewrite Z.div_1_r; lia).
  apply map_ext. intro i. unfold py_str, print_number. do 2 f_equal. lia.
Qed.

Lemma names_no_newline : forall k n, In n (names k) -> no_newline n.
Proof.
  intros k n H. unfold names in H. apply in_map_iff in H as (i & <- & I).
  unfold up_to in I. apply in_map_iff in I as (j & <- & _).
  apply no_newline_app; [now apply text_no_newline|apply print_no_newline; lia].
Qed.

Lemma no_newline_concat : forall ls, Forall no_newline ls -> no_newline (concat ls).
Proof.
  intros ls H. induction H; [constructor|]. cbn [concat]. now apply no_newline_app.
Qed.

Lemma no_newline_separated : forall x ls, no_newline x -> Forall no_newline ls ->
  no_newline (separated x ls).
Proof.
  intros x ls X H. induction H as [|l ls L H IH]; [constructor|].
  destruct ls; [exact L|].
  change (separated x (l :: s :: ls)) with (l ++ x ++ separated x (s :: ls)).
  apply no_newline_app; [exact L|]. now apply no_newline_app.
Qed.

Lemma specialisation_no_newline : forall k, 0 <= k -> no_newline (specialisation k).
Proof.
  intros k K. unfold specialisation. repeat apply no_newline_app;
    try (now apply text_no_newline); try now apply print_no_newline.
  - apply no_newline_concat, Forall_forall. intros x X. apply in_map_iff in X as (n & <- & N).
    apply names_no_newline in N. apply no_newline_app; [now apply text_no_newline|].
    apply no_newline_app; [exact N|now apply text_no_newline].
  - apply no_newline_concat, Forall_forall. intros x X. apply in_map_iff in X as (n & <- & N).
    apply names_no_newline in N. apply no_newline_app; [exact N|now apply text_no_newline].
  - apply no_newline_separated; [now apply text_no_newline|].
    apply Forall_forall. intros x X. now apply names_no_newline in X.
Qed.

Lemma specialisation_gives : forall p k, 0 <= k -> whites p -> no_newline p ->
  gives_lines (specialisation_text p k) [specialisation k].
Proof.
  intros p k K W N.
  assert (E : specialisation_text p k = p ++ specialisation k ++ nl).
  { unfold specialisation_text, specialisation. rewrite names_unique by exact K.
    change (py_str k) with (print_number k). change (@join) with (@separated).
    rewrite <- !app_assoc. reflexivity. }
  split.
  - rewrite E, app_assoc. apply whole_line.
  - rewrite E. apply source_indented; [exact W|exact N|now apply specialisation_no_newline| |reflexivity].
    right. split; [reflexivity|]. unfold specialisation.
    match goal with |- white (last ?l 32) = false =>
      assert (X : exists u, l = u ++ [59]) end.
    { eexists. change (text ">, typename make_string<take(LenRemaining),LenRemaining-take(LenRemaining),Cs...>::type> {};")
        with (text ">, typename make_string<take(LenRemaining),LenRemaining-take(LenRemaining),Cs...>::type> {}" ++ [59]).
      rewrite !app_assoc. reflexivity. }
    destruct X as (u & X). rewrite X, last_last. reflexivity.
Qed.

Lemma specialisations_gives : forall p ks, whites p -> no_newline p -> Forall (fun k => 0 <= k) ks ->
  gives_lines (concat (map (specialisation_text p) ks)) (map specialisation ks).
Proof.
  intros p ks W N H. apply gives_concat. induction H as [|k ks K H IH]; [constructor|].
  cbn [map]. constructor; [now apply specialisation_gives|exact IH].
Qed.

Lemma make_string_gives : gives_lines (make_string_text 512)
  (open_lines ++ make_lines ++ small_lines ++ [text "#ifndef __SUNPRO_CC"] ++ large_lines
   ++ [text "#endif"] ++ close_lines).
Proof.
  unfold make_string_text. cbv zeta.
  set (names := [literal "boost"; literal "metaparse"; literal "v" ++ py_str version; literal "impl"]).
  change (ns_prefix (length names)) with (literal "        ").
  set (p := literal "        ").
  change (rev (powers 512)) with [1; 2; 4; 8; 16; 32; 64; 128; 256; 512].
  assert (W : whites p) by (repeat constructor).
  assert (N : no_newline p) by now apply text_no_newline.
  replace (ns_begin names
    ++ take_text (powers 512) p
    ++ p ++ literal "template <int LenNow, int LenRemaining, char... Cs>" ++ nl
    ++ p ++ literal "struct make_string;" ++ nl
    ++ nl
    ++ p ++ literal "template <char... Cs>"
    ++ literal " struct make_string<0, 0, Cs...> : string<> {};" ++ nl
    ++ specialisations_text p false [1; 2; 4; 8; 16; 32; 64; 128; 256; 512]
    ++ ns_end names)
  with ((ns_begin names
    ++ take_text (powers 512) p
    ++ p ++ literal "template <int LenNow, int LenRemaining, char... Cs>" ++ nl
    ++ p ++ literal "struct make_string;" ++ nl
    ++ nl
    ++ p ++ literal "template <char... Cs>"
    ++ literal " struct make_string<0, 0, Cs...> : string<> {};" ++ nl)
    ++ concat (map (specialisation_text p) [1; 2; 4; 8; 16; 32; 64])
    ++ (literal "#ifndef __SUNPRO_CC" ++ nl)
    ++ concat (map (specialisation_text p) [128; 256; 512])
    ++ (literal "#endif" ++ nl)
    ++ ns_end names).
  2: { cbn [concat map]. rewrite app_nil_r. rewrite <- !app_assoc.
       do 10 apply f_equal.
       cbn [specialisations_text negb andb Z.ltb Z.compare Pos.compare Pos.compare_cont].
       rewrite <- !app_assoc. reflexivity. }
  rewrite (app_assoc open_lines). apply gives_app; [|apply gives_app; [|apply gives_app; [|apply gives_app; [|apply gives_app]]]].
  - split; [right; eexists; rewrite !app_assoc; reflexivity|vm_compute; reflexivity].
  - apply specialisations_gives; [exact W|exact N|repeat constructor; lia].
  - apply gives_directive; [now apply text_no_newline|reflexivity].
  - apply specialisations_gives; [exact W|exact N|repeat constructor; lia].
  - apply gives_directive; [now apply text_no_newline|reflexivity].
  - split; [|reflexivity]. right.
    change (ns_end ?l) with (concat (map (fun depth => ns_prefix depth ++ literal "}" ++ nl) [3; 2; 1]%nat)
        ++ (literal "}" ++ nl)).
    eexists. rewrite !app_assoc. reflexivity.
Qed.

Lemma limit_gives : forall m, 0 <= m -> gives_lines
  (literal "#ifndef BOOST_METAPARSE_LIMIT_STRING_SIZE" ++ nl
   ++ literal "#  error BOOST_METAPARSE_LIMIT_STRING_SIZE not defined" ++ nl
   ++ literal "#endif" ++ nl
   ++ nl
   ++ literal "#if BOOST_METAPARSE_LIMIT_STRING_SIZE > " ++ py_str m ++ nl
   ++ literal "#  error BOOST_METAPARSE_LIMIT_STRING_SIZE is greater than"
   ++ literal " " ++ py_str m
   ++ literal ". To increase the limit run tools/string_headers.py of"
   ++ literal " Boost.Metaparse against your Boost headers." ++ nl
   ++ literal "#endif" ++ nl
   ++ nl
   ++ string_macro)
  (limit_lines m).
Proof.
  intros m M. change (py_str m) with (print_number m).
  set (n := print_number m).
  replace (literal "#ifndef BOOST_METAPARSE_LIMIT_STRING_SIZE" ++ nl
   ++ literal "#  error BOOST_METAPARSE_LIMIT_STRING_SIZE not defined" ++ nl
   ++ literal "#endif" ++ nl
   ++ nl
   ++ literal "#if BOOST_METAPARSE_LIMIT_STRING_SIZE > " ++ n ++ nl
   ++ literal "#  error BOOST_METAPARSE_LIMIT_STRING_SIZE is greater than"
   ++ literal " " ++ n
   ++ literal ". To increase the limit run tools/string_headers.py of"
   ++ literal " Boost.Metaparse against your Boost headers." ++ nl
   ++ literal "#endif" ++ nl
   ++ nl
   ++ string_macro)
  with ((literal "#ifndef BOOST_METAPARSE_LIMIT_STRING_SIZE" ++ nl
   ++ literal "#  error BOOST_METAPARSE_LIMIT_STRING_SIZE not defined" ++ nl
   ++ literal "#endif" ++ nl ++ nl)
   ++ ((35 :: text "if " ++ limit_macro ++ text " > " ++ n) ++ nl)
   ++ ((35 :: text "  error " ++ text "BOOST_METAPARSE_LIMIT_STRING_SIZE is greater than " ++ n
        ++ text ". To increase the limit run tools/string_headers.py of Boost.Metaparse against your Boost headers.") ++ nl)
   ++ (literal "#endif" ++ nl ++ nl ++ string_macro)).
  2: { unfold nl. repeat (cbn [literal text map app String.list_ascii_of_string Ascii.nat_of_ascii]; rewrite <- ?app_assoc). reflexivity. }
  unfold limit_lines, too_large. fold n.
  change (?a :: ?b :: ?c :: ?d :: ?e :: ?f) with ([a; b; c] ++ [d] ++ [e] ++ f).
  apply gives_app; [|apply gives_app; [|apply gives_app]].
  - split; [right; eexists; rewrite !app_assoc; reflexivity|reflexivity].
  - apply gives_directive; [unfold n; no_newlines|].
    change (35 :: text "if " ++ limit_macro ++ text " > " ++ n)
      with ((35 :: text "if " ++ limit_macro ++ text " > ") ++ n).
    apply last_word. unfold n. apply print_word. exact M.
  - apply gives_directive; [unfold n; no_newlines|].
    match goal with |- context [last ?l 32] => replace l with ((35 :: text "  error " ++ text "BOOST_METAPARSE_LIMIT_STRING_SIZE is greater than " ++ n
        ++ text ". To increase the limit run tools/string_headers.py of Boost.Metaparse against your Boost headers") ++ [46]) end.
    + rewrite last_last. reflexivity.
    + cbn [app]. rewrite <- !app_assoc. reflexivity.
  - split; [right; eexists; unfold string_macro, define_macro; cbv zeta; rewrite !app_assoc; reflexivity|].
    vm_compute. reflexivity.
Qed.

Lemma index_gives : forall limits k l, 0 <= k ->
  py_min (filter (fun l => k <=? l) limits) = Some l ->
  exists t, index_macro_text limits k = Some t /\ gives_lines t [index_line limits k].
Proof.
  intros limits k l K E. unfold index_macro_text, index_line, limit_for. rewrite E.
  eexists. split; [reflexivity|].
  assert (L : 0 <= l).
  { apply py_min_spec in E. destruct E as (E & _). apply filter_In in E as (_ & E).
    apply Z.leb_le in E. lia. }
  match goal with |- gives_lines ?t [?x] => replace t with (x ++ nl) end.
  - apply (gives_directive (text "define " ++ index_id k ++ text " " ++ index_str_id l)).
    + unfold index_id, index_str_id. no_newlines.
    + unfold index_str_id.
      match goal with |- context [last ?x 32] => replace x with ((text "#define " ++ index_id k
        ++ text " BOOST_METAPARSE_V1_INDEX_STR") ++ print_number l) end.
      * apply last_word. now apply print_word.
      * rewrite <- !app_assoc. reflexivity.
  - unfold index_id, index_str_id. change (print_number k) with (py_str k).
    change (print_number l) with (py_str l). rewrite <- !app_assoc. reflexivity.
Qed.

Lemma separated_join : forall sep l, join sep l = separated sep l.
Proof.
  intro sep. induction l as [|x l IH]; [reflexivity|]. cbn [join separated].
  destruct l; [reflexivity|]. rewrite IH. reflexivity.
Qed.

Lemma separated_last : forall sep l x, exists r, separated sep (l ++ [x]) = r ++ x.
Proof.
  intros sep l x. induction l as [|y l IH]; [exists []; reflexivity|].
  destruct IH as (r & E). cbn [app separated]. destruct (l ++ [x]) eqn:F.
  { destruct l; discriminate. }
  rewrite E. exists (y ++ sep ++ r). rewrite <- !app_assoc. reflexivity.
Qed.

Lemma separated_no_newline : forall sep l, no_newline sep -> Forall no_newline l ->
  no_newline (separated sep l).
Proof.
  intros sep l S H. induction H as [|x l X H IH]; [constructor|]. cbn [separated].
  destruct l; [exact X|]. repeat apply no_newline_app; auto.
Qed.

Lemma xrange_In : forall a b x, In x (xrange a b 1) <-> a <= x < b.
Proof.
  intros a b x. unfold xrange. rewrite in_map_iff, Z.div_1_r. split.
  - intros (i & <- & I). apply in_seq in I. lia.
  - intros H. exists (Z.to_nat (x - a)). split; [lia|]. apply in_seq. lia.
Qed.

Lemma xrange_snoc : forall a b, a < b -> xrange a b 1 = xrange a (b - 1) 1 ++ [b - 1].
Proof.
  intros a b H. rewrite <- (xrange_1_app a (b - 1) b) by lia. apply f_equal.
  unfold xrange. rewrite Z.div_1_r. replace (Z.to_nat (b - (b - 1) + 1 - 1)) with 1%nat by lia.
  cbn [seq map]. f_equal. lia.
Qed.

Lemma index_str_line_gives : forall prev p l, no_newline prev -> 0 <= p < l ->
  gives_lines (index_str_line prev p l ++ nl) [index_str_line prev p l].
Proof.
  intros prev p l N H. unfold index_str_line.
  change (text "#define " ++ ?x) with (35 :: text "define " ++ x).
  assert (L : 0 <= l) by lia.
  apply gives_directive.
  - unfold index_str_id, index_str_body. no_newlines.
    + destruct prev; [constructor|]. apply no_newline_app; [exact N|no_newlines].
    + apply separated_no_newline; [no_newlines|]. apply Forall_forall. intros x X.
      apply in_map_iff in X as (i & <- & I). apply xrange_In in I.
      assert (0 <= i) by lia. unfold string_at_text. no_newlines.
  - unfold index_str_body. rewrite (xrange_snoc p l) by lia. rewrite map_app. cbn [map].
    destruct (separated_last (text ",") (map string_at_text (xrange p (l - 1) 1))
      (string_at_text (l - 1))) as (r & E). rewrite E. unfold string_at_text at 1.
    match goal with |- context [last ?x 32] => replace x with
      ((35 :: text "define " ++ index_str_id l ++ text "(s) "
        ++ match prev with [] => [] | _ => prev ++ text "(s)," end ++ r
        ++ text "BOOST_METAPARSE_V1_STRING_AT((s), " ++ print_number (l - 1)) ++ [41]) end.
    + rewrite last_last. reflexivity.
    + cbn [app]. rewrite <- !app_assoc. reflexivity.
Qed.

Lemma index_strs_gives : forall limits prev p, no_newline prev -> 0 <= p ->
  (forall l, In l limits -> p < l) -> StronglySorted Z.lt limits ->
  gives_lines (index_strs_text prev p limits) (index_str_lines prev p limits).
Proof.
  induction limits as [|l limits IH]; intros prev p N P H S; [apply gives_nil|].
  inversion S as [|? ? S' F]; subst. assert (p < l) by (apply H; now left).
  cbn [index_strs_text index_str_lines]. cbv zeta.
  change (macro_name (literal "INDEX_STR" ++ py_str l)) with (index_str_id l).
  match goal with |- gives_lines ?t _ => replace t with
    ((index_str_line prev p l ++ nl) ++ index_strs_text (index_str_id l) l limits) end.
  - change (index_str_line prev p l :: ?x) with ([index_str_line prev p l] ++ x).
    apply gives_app; [apply index_str_line_gives; [exact N|lia]|].
    apply IH; [|lia|rewrite Forall_forall in F; exact F|exact S'].
    assert (0 <= l) by lia. unfold index_str_id. no_newlines.
  - unfold index_str_line, index_str_body. rewrite <- !app_assoc. reflexivity.
Qed.

Lemma header_text : forall limits m, good_limits limits -> py_max limits = Some m ->
  exists t, (forall texts, ints texts = Some limits -> generate_string texts = Some t)
    /\ source_lines t = header_lines limits m.
Proof.
  intros limits m G M.
  assert (P : 0 < m) by (apply py_max_spec in M as (M & _); now apply G).
  assert (I : exists ts, all_some (map (index_macro_text limits) (xrange 0 (m + 1) 1)) = Some ts
    /\ gives_lines (concat ts) (map (index_line limits) (xrange 0 (m + 1) 1))).
  { assert (R : Forall (fun k => 0 <= k <= m) (xrange 0 (m + 1) 1)).
    { apply Forall_forall. intros k K. apply xrange_In in K. lia. }
    induction R as [|k ks K R IH]; [exists []; split; [reflexivity|apply gives_nil]|].
    destruct IH as (ts & E & V).
    destruct (index_macro_spec limits k m M ltac:(lia)) as (l & L & _). unfold index_macro in L.
    destruct (index_gives limits k l ltac:(lia) L) as (t & T & W).
    exists (t :: ts). cbn [map all_some]. rewrite T, E. split; [reflexivity|].
    cbn [concat]. change (?a :: ?b) with ([a] ++ b). now apply gives_app. }
  destruct I as (ts & A & V). eexists. split.
  - intros texts E. unfold generate_string. rewrite E, M, A. reflexivity.
  - unfold header_lines.
    match goal with |- source_lines ?t = _ => replace t with
      ((guard_begin ++ nl ++ literal "#include <boost/metaparse/v" ++ py_str version
        ++ literal "/cpp11/impl/concat.hpp>" ++ nl
        ++ literal "#include <boost/preprocessor/cat.hpp>" ++ nl)
       ++ make_string_text 512
       ++ nl
       ++ (literal "#ifndef BOOST_METAPARSE_LIMIT_STRING_SIZE" ++ nl
           ++ literal "#  error BOOST_METAPARSE_LIMIT_STRING_SIZE not defined" ++ nl
           ++ literal "#endif" ++ nl
           ++ nl
           ++ literal "#if BOOST_METAPARSE_LIMIT_STRING_SIZE > " ++ py_str m ++ nl
           ++ literal "#  error BOOST_METAPARSE_LIMIT_STRING_SIZE is greater than"
           ++ literal " " ++ py_str m
           ++ literal ". To increase the limit run tools/string_headers.py of"
           ++ literal " Boost.Metaparse against your Boost headers." ++ nl
           ++ literal "#endif" ++ nl
           ++ nl
           ++ string_macro)
       ++ nl ++ concat ts ++ nl ++ index_strs_text [] 0 limits ++ guard_end) end.
    2: { rewrite <- !app_assoc. reflexivity. }
    assert (N : gives_lines nl []) by (split; [right; exists []; reflexivity|reflexivity]).
    assert (F : gives_lines (guard_begin ++ nl ++ literal "#include <boost/metaparse/v" ++ py_str version
        ++ literal "/cpp11/impl/concat.hpp>" ++ nl
        ++ literal "#include <boost/preprocessor/cat.hpp>" ++ nl)
        ((text "#ifndef " ++ guard) :: (text "#define " ++ guard) :: front_lines)).
    { split; [right; eexists; rewrite !app_assoc; reflexivity|vm_compute; reflexivity]. }
    pose proof make_string_gives as MS.
    assert (E : gives_lines guard_end [text "#endif"]).
    { split; [right; exists (nl ++ literal "#endif"); rewrite <- !app_assoc; reflexivity|reflexivity]. }
    pose proof (index_strs_gives limits [] 0 ltac:(constructor) ltac:(lia) (proj2 G) (proj1 G)) as X.
    pose proof (limit_gives m ltac:(lia)) as L.
    destruct (gives_app _ _ _ _ F (gives_app _ _ _ _ MS (gives_app _ _ _ _ N
      (gives_app _ _ _ _ L (gives_app _ _ _ _ N (gives_app _ _ _ _ V (gives_app _ _ _ _ N
       (gives_app _ _ _ _ X E)))))))) as (_ & S).
    rewrite S. do 4 (cbn [app]; rewrite <- ?app_assoc). reflexivity.
Qed.
