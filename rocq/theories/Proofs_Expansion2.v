(** Proofs about BOOST_METAPARSE_V1_STRING of the generated header of strings. *)

From Coq Require Import ZArith List Bool Lia Sorted FinFun.
From Verif Require Import Base Messages Spec Strings Generate Headers SpecGenerate SpecHeaders
  Properties_Messages Proofs_Macro Proofs_Generate Proofs_Pages Proofs_Headers Proofs_Expansion.
Import ListNotations.
Open Scope Z_scope.

(** ** Expansion *)

(** Tokens that are not macros *)
Definition inert (ms : list macro) (t : str) : Prop := ~ defined ms t /\ t <> cat.

Lemma expands_inert : forall ms ts rest out, Forall (inert ms) ts -> expands ms rest out ->
  expands ms (ts ++ rest) (ts ++ out).
Proof.
  intros ms ts rest out H R. induction H as [|t ts (N & C) H IH]; [exact R|].
  cbn [app]. now apply exp_token.
Qed.

Lemma expands_itself : forall ms ts, Forall (inert ms) ts -> expands ms ts ts.
Proof.
  intros ms ts H. rewrite <- (app_nil_r ts). apply expands_inert; [exact H|constructor].
Qed.

Definition plain (t : str) : bool :=
  negb (begins (text "BOOST_") t) && negb (begins (text "__") t).

Lemma string_body_tokens : forall x : list str,
  let size := [text "sizeof"; lparen] ++ x ++ [rparen; text "-"; text "1"] in
  let take := tokens (text "::boost::metaparse::v1::impl::take(") ++ size ++ [rparen] in
  concat (map (argument_for [text "s"] [x]) (tokens string_body)) =
    tokens (text "::boost::metaparse::v1::impl::make_string<")
    ++ take ++ [comma] ++ size ++ [text "-"] ++ take ++ [comma]
    ++ cat :: lparen :: [text "BOOST_METAPARSE_V1_I"] ++ comma :: [limit_macro] ++ rparen
    :: lparen :: x ++ rparen :: tokens (text ">::type").
Proof. intros x size take. unfold take, size. rewrite <- !app_assoc. vm_compute. reflexivity. Qed.

Section Macros.

Variables (sun : bool) (n : Z) (limits : list Z) (m : Z).
Hypothesis good : good_limits limits.
Hypothesis max : py_max limits = Some m.
Hypothesis fits : 0 <= n <= m.

Let ms := macros sun n limits m.

Lemma plain_inert : forall t, plain t = true -> inert ms t.
Proof.
  intros t H. apply andb_true_iff in H as (A & B). apply negb_true_iff in A, B. split.
  - intro D. apply macro_names in D as [D| ->]; [|discriminate].
    assert (X : begins (text "BOOST_") t = true).
    { clear -D. change (text "BOOST_METAPARSE_") with (text "BOOST_" ++ text "METAPARSE_") in D.
      do 6 (destruct t as [|? t]; [discriminate|]; cbn in D; apply andb_true_iff in D as (? & D)).
      cbn. repeat (apply andb_true_iff; split; [assumption|]). reflexivity. }
    congruence.
  - intros ->. discriminate.
Qed.

Lemma plains_inert : forall ts, forallb plain ts = true -> Forall (inert ms) ts.
Proof.
  intros ts H. apply Forall_forall. intros t T. apply plain_inert.
  rewrite forallb_forall in H. now apply H.
Qed.

Lemma number_plain : forall k, 0 <= k -> plain (print_number k) = true.
Proof.
  intros k K. destruct (print_digits k K) as (D & N).
  destruct (print_number k) as [|c r]; [congruence|]. inversion D as [|? ? C _]; subst.
  unfold digit_char in C. unfold plain.
  change (begins (text "BOOST_") (c :: r)) with ((66 =? c) && begins (text "OOST_") r).
  change (begins (text "__") (c :: r)) with ((95 =? c) && begins (text "_") r).
  destruct (Z.eqb_spec 66 c); [slia|]. destruct (Z.eqb_spec 95 c); [slia|]. reflexivity.
Qed.

(** The argument *)
Variable x : list str.
Hypothesis x_argument : argument x.
Hypothesis x_inert : Forall (inert ms) x.

Definition at_call (i : Z) : list str :=
  tokens (text "::boost::metaparse::v1::impl::string_at<")
  ++ [print_number n] ++ tokens (text ">((") ++ x ++ [rparen; comma] ++ [print_number i; rparen].

Lemma before_In : forall d, In d (macros_before sun n) -> In d ms.
Proof. intros d D. unfold ms, macros, first_macros. rewrite <- !app_assoc. apply in_or_app. now left. Qed.

Lemma string_at_body :
  tokens (text "::boost::metaparse::v1::impl::string_at<BOOST_METAPARSE_LIMIT_STRING_SIZE>")
  = tokens (text "::boost::metaparse::v1::impl::string_at<") ++ [limit_macro; text ">"].
Proof. vm_compute. reflexivity. Qed.

Lemma expands_at : forall i rest out, 0 <= i -> expands ms rest out ->
  expands ms (at_tokens x i ++ rest) (at_call i ++ out).
Proof.
  intros i rest out I R. unfold at_tokens, at_call. cbn [app].
  apply exp_object with
    (body := tokens (text "::boost::metaparse::v1::impl::string_at<BOOST_METAPARSE_LIMIT_STRING_SIZE>")).
  { apply before_In. right. left. unfold string_at_macro. reflexivity. }
  rewrite string_at_body.
  rewrite <- !app_assoc. apply expands_inert; [apply plains_inert; vm_compute; reflexivity|].
  cbn [app]. apply exp_object with (body := [print_number n]).
  { apply before_In. left. reflexivity. }
  cbn [app]. rewrite <- ?app_assoc.
  destruct (plain_inert _ (number_plain n (proj1 fits))) as (N & C).
  apply exp_token; [exact N|exact C|].
  change (text ">" :: lparen :: lparen :: ?y) with (tokens (text ">((") ++ y).
  apply expands_inert; [apply plains_inert; vm_compute; reflexivity|].
  apply expands_inert; [exact x_inert|].
  apply (expands_inert ms [rparen; comma; print_number i; rparen]); [|exact R].
  apply plains_inert. cbn [forallb]. rewrite number_plain by exact I. reflexivity.
Qed.

Lemma comma_inert : inert ms comma.
Proof. apply plain_inert. reflexivity. Qed.

Lemma expands_ats : forall is rest out, Forall (fun i => 0 <= i) is -> expands ms rest out ->
  expands ms (comma_separated (map (at_tokens x) is) ++ rest)
    (comma_separated (map at_call is) ++ out).
Proof.
  intros is rest out H R. induction H as [|i is I H IH]; [exact R|]. cbn [map comma_separated].
  destruct is as [|j is]; [now apply expands_at|]. cbn [map] in *. rewrite <- !app_assoc.
  apply expands_at; [exact I|]. cbn [app]. destruct comma_inert as (N & C).
  apply exp_token; [exact N|exact C|exact IH].
Qed.

(** *** The macros INDEX_STR *)

Lemma comma_separated_app : forall a b, a <> [] -> b <> [] ->
  comma_separated (a ++ b) = comma_separated a ++ comma :: comma_separated b.
Proof.
  induction a as [|y a IH]; intros b A B; [congruence|]. cbn [app comma_separated].
  destruct a as [|z a].
  - cbn [app]. destruct b; [congruence|reflexivity].
  - cbn [app]. change (z :: a ++ b) with ((z :: a) ++ b). rewrite IH by (auto; discriminate).
    rewrite <- app_assoc. reflexivity.
Qed.

Lemma argument_for_at : forall i,
  0 <= i -> concat (map (argument_for [text "s"] [x]) (at_tokens [text "s"] i)) = at_tokens x i.
Proof.
  intros i I. unfold at_tokens. cbn [app map concat].
  assert (E : argument_for [text "s"] [x] (print_number i) = [print_number i]).
  { cbn [argument_for]. destruct (list_eq_dec Z.eq_dec (text "s") (print_number i)) as [E|E]; [|reflexivity].
    exfalso. destruct (print_digits i I) as (D & _). rewrite <- E in D.
    inversion D as [|? ? C _]; subst. unfold digit_char in C. cbn in C. slia. }
  rewrite E. cbn [app]. unfold at_tokens. reflexivity.
Qed.

Lemma argument_for_ats : forall is, Forall (fun i => 0 <= i) is ->
  concat (map (argument_for [text "s"] [x]) (comma_separated (map (at_tokens [text "s"]) is)))
  = comma_separated (map (at_tokens x) is).
Proof.
  intros is H. induction H as [|i is I H IH]; [reflexivity|]. cbn [map comma_separated].
  destruct is as [|j is]; [now apply argument_for_at|]. cbn [map] in *.
  rewrite map_app, concat_app, argument_for_at by exact I. cbn [map concat]. rewrite IH. reflexivity.
Qed.

Definition expands_index (l : Z) : Prop := forall rest out, expands ms rest out ->
  expands ms (index_str_id l :: lparen :: x ++ rparen :: rest)
    (comma_separated (map at_call (up_to l)) ++ out).

Lemma up_to_xrange : forall k, up_to k = xrange 0 k 1.
Proof.
  intros k. unfold up_to, xrange. rewrite Z.div_1_r. replace (k - 0 + 1 - 1) with k by lia.
  apply map_ext. intros i. lia.
Qed.

Lemma xrange_not_nil : forall a b, a < b -> xrange a b 1 <> [].
Proof.
  intros a b H E. assert (X : In a (xrange a b 1)) by (apply xrange_In; lia). rewrite E in X. exact X.
Qed.

Lemma map_not_nil : forall (A B : Type) (f : A -> B) l, l <> [] -> map f l <> [].
Proof. intros A B f [|y l] H; [congruence|discriminate]. Qed.

Lemma expands_step : forall prev p l, In (index_str_def prev p l) ms -> 0 <= p < l ->
  (prev = [] /\ p = 0) \/ (prev = index_str_id p /\ 0 < p /\ expands_index p) ->
  expands_index l.
Proof.
  intros prev p l D P H rest out R.
  assert (NN : Forall (fun i => 0 <= i) (xrange p l 1)).
  { apply Forall_forall. intros i I. apply xrange_In in I. lia. }
  apply (exp_function ms _ [text "s"] (tokens (index_str_body prev p l)) [x] [x]);
    [exact D|reflexivity|discriminate|auto|repeat constructor; now apply expands_itself|].
  rewrite index_str_body_tokens;
    [|destruct H as [(-> & _)|(-> & Q & _)]; [now left|right; apply index_str_id_word; lia]|lia].
  rewrite map_app, concat_app, argument_for_ats by exact NN. rewrite <- app_assoc.
  destruct H as [(-> & ->)|(-> & Q & E)].
  - cbn [previous map concat app]. rewrite up_to_xrange. now apply expands_ats.
  - assert (F : concat (map (argument_for [text "s"] [x]) (previous (index_str_id p) [text "s"]))
      = previous (index_str_id p) x).
    { unfold previous. destruct (index_str_id p) as [|c r] eqn:Y; [discriminate|].
      rewrite <- Y. clear Y. cbn [app map concat].
      assert (Z : argument_for [text "s"] [x] (index_str_id p) = [index_str_id p]).
      { cbn [argument_for]. destruct (list_eq_dec Z.eq_dec (text "s") (index_str_id p)) as [Z|Z];
          [discriminate Z|reflexivity]. }
      rewrite Z. reflexivity. }
    rewrite F. unfold previous. destruct (index_str_id p) as [|c r] eqn:Y; [discriminate|].
    rewrite <- Y. clear Y. cbn [app]. rewrite <- app_assoc. cbn [app].
    rewrite up_to_xrange, <- (xrange_1_app 0 p l) by lia. rewrite map_app.
    rewrite comma_separated_app by (apply map_not_nil, xrange_not_nil; lia).
    rewrite <- app_assoc. cbn [app]. rewrite <- up_to_xrange. apply E.
    destruct comma_inert as (N & C). apply exp_token; [exact N|exact C|]. now apply expands_ats.
Qed.

Lemma expands_indices : forall ls prev p,
  (forall d, In d (index_str_defs prev p ls) -> In d ms) ->
  0 <= p -> (forall l, In l ls -> p < l) -> StronglySorted Z.lt ls ->
  (prev = [] /\ p = 0) \/ (prev = index_str_id p /\ 0 < p /\ expands_index p) ->
  forall l, In l ls -> expands_index l.
Proof.
  induction ls as [|k ls IH]; intros prev p D P B S H l L; [destruct L|].
  inversion S as [|? ? S' F]; subst. assert (p < k) by (apply B; now left).
  assert (K : expands_index k).
  { apply (expands_step prev p k); [apply D; left; reflexivity|lia|exact H]. }
  destruct L as [<-|L]; [exact K|].
  apply (IH (index_str_id k) k); auto; [|lia|rewrite Forall_forall in F; exact F|].
  - intros d I. apply D. now right.
  - right. repeat split; [lia|exact K].
Qed.

Lemma index_macros_In : forall d, In d (index_macros limits m) -> In d ms.
Proof. intros d D. unfold ms, macros. apply in_or_app. now right. Qed.

Lemma expands_all_indices : forall l, In l limits -> expands_index l.
Proof.
  apply (expands_indices limits [] 0); [|lia|apply good|apply good|now left].
  intros d D. apply index_macros_In. right. apply in_or_app. now right.
Qed.

(** *** The macro STRING *)

Lemma index_not_defined : ~ defined ms (text "BOOST_METAPARSE_V1_I").
Proof.
  intro D.
  unfold defined, ms, macros, index_macros in D.
  change (string_def :: ?y) with ([string_def] ++ y) in D.
  rewrite app_assoc, (map_app macro_id (first_macros sun n ++ [string_def])),
    (map_app macro_id (map _ _)), map_map, index_str_ids in D.
  apply in_app_or in D as [D|D].
  + apply first_ids in D. intuition discriminate.
  + apply in_app_or in D as [D|D]; apply in_map_iff in D as (j & D & J).
    * apply xrange_In in J. change (index_id j = text "BOOST_METAPARSE_V1_I" ++ []) in D.
      apply app_inv_head in D. destruct (print_digits j ltac:(lia)) as (_ & Y). exact (Y D).
    * discriminate D.
Qed.

Lemma limit_index : forall rest out,
  expands ms (index_str_id (limit_for limits n) :: rest) out ->
  expands ms (cat :: lparen :: [text "BOOST_METAPARSE_V1_I"] ++ comma :: [limit_macro] ++ rparen :: rest) out.
Proof.
  intros rest out R.
  apply (exp_cat ms [text "BOOST_METAPARSE_V1_I"] [limit_macro]
    (text "BOOST_METAPARSE_V1_I") (print_number n)).
  - apply argument_token; try discriminate. constructor.
  - apply argument_token; try discriminate. constructor.
  - apply exp_token; [exact index_not_defined|discriminate|constructor].
  - apply exp_object with (body := [print_number n]); [apply before_In; left; reflexivity|].
    apply expands_itself. constructor; [|constructor]. apply plain_inert, number_plain, fits.
  - apply exp_object with (body := [index_str_id (limit_for limits n)]); [|exact R].
    apply index_macros_In. right. apply in_or_app. left.
    apply (in_map (index_def limits) _ n). apply xrange_In. lia.
Qed.

Lemma plains_expand : forall ts rest out, forallb plain ts = true -> expands ms rest out ->
  expands ms (ts ++ rest) (ts ++ out).
Proof. intros ts rest out H R. apply expands_inert; [now apply plains_inert|exact R]. Qed.

Lemma expands_call : forall rest out, expands ms rest out ->
  let size := [text "sizeof"; lparen] ++ x ++ [rparen; text "-"; text "1"] in
  let take := tokens (text "::boost::metaparse::v1::impl::take(") ++ size ++ [rparen] in
  expands ms
    (tokens (text "::boost::metaparse::v1::impl::make_string<")
     ++ take ++ [comma] ++ size ++ [text "-"] ++ take ++ [comma] ++ rest)
    (tokens (text "::boost::metaparse::v1::impl::make_string<")
     ++ take ++ [comma] ++ size ++ [text "-"] ++ take ++ [comma] ++ out).
Proof.
  intros rest out R size take.
  assert (SI : Forall (inert ms) size).
  { unfold size. apply Forall_app. split; [apply plains_inert; vm_compute; reflexivity|].
    apply Forall_app. split; [exact x_inert|apply plains_inert; vm_compute; reflexivity]. }
  assert (TI : Forall (inert ms) take).
  { unfold take. apply Forall_app. split; [apply plains_inert; vm_compute; reflexivity|].
    apply Forall_app. split; [exact SI|apply plains_inert; vm_compute; reflexivity]. }
  apply plains_expand; [vm_compute; reflexivity|].
  apply expands_inert; [exact TI|].
  apply plains_expand; [vm_compute; reflexivity|].
  apply expands_inert; [exact SI|].
  apply plains_expand; [vm_compute; reflexivity|].
  apply expands_inert; [exact TI|].
  apply plains_expand; [vm_compute; reflexivity|]. exact R.
Qed.

Lemma make_string_call_eq : forall ks, make_string_call n x ks =
  let size := [text "sizeof"; lparen] ++ x ++ [rparen; text "-"; text "1"] in
  let take := tokens (text "::boost::metaparse::v1::impl::take(") ++ size ++ [rparen] in
  tokens (text "::boost::metaparse::v1::impl::make_string<")
  ++ take ++ [comma] ++ size ++ [text "-"] ++ take ++ [comma]
  ++ comma_separated (map at_call ks) ++ tokens (text ">::type").
Proof. intro ks. unfold make_string_call, at_call. reflexivity. Qed.

Lemma expands_string :
  expands ms (string_id :: lparen :: x ++ [rparen])
    (make_string_call n x (up_to (limit_for limits n))).
Proof.
  destruct (limit_for_spec limits m n max (proj2 fits)) as (K & NK).
  pose proof (expands_all_indices _ K (tokens (text ">::type")) (tokens (text ">::type"))
    (expands_itself ms _ (plains_inert (tokens (text ">::type")) eq_refl))) as F.
  apply limit_index in F. apply expands_call in F. cbv zeta in F.
  rewrite <- string_body_tokens in F.
  apply (exp_function ms string_id [text "s"] (tokens string_body) [x] [x]);
    [apply index_macros_In; left; reflexivity|reflexivity|discriminate|auto|
     repeat constructor; now apply expands_itself|].
  rewrite app_nil_r, make_string_call_eq. exact F.
Qed.

End Macros.

(** ** The templates *)

Fixpoint choose_tokens (steps : list Z) : list str :=
  match steps with
  | [] => [text "0"]
  | a :: steps' =>
      [text "n_"; text ">"; text "="; print_number a; text "?"; print_number a; text ":"; lparen]
      ++ choose_tokens steps' ++ [rparen]
  end.

Definition all_steps : list Z := [512; 256; 128; 64; 32; 16; 8; 4; 2; 1].

Lemma take_body_tokens :
  tokens take_body = text "return" :: choose_tokens all_steps ++ [text ";"].
Proof. vm_compute. reflexivity. Qed.

Lemma chooses_one : forall e n v w, chooses e n v -> chooses e n w -> v = w.
Proof.
  intros e n v w H. revert w. induction H as [n|a b e n L|a b e n v L H IH]; intros w W;
    inversion W; subst; try reflexivity;
    repeat match goal with
    | E : print_number _ = print_number _ |- _ => apply print_int_inj in E
    | E : _ ++ [rparen] = _ ++ [rparen] |- _ => apply app_inj_tail in E as (-> & _)
    end; subst; try reflexivity; try lia.
  now apply IH.
Qed.

Lemma chooses_some : forall steps n, StronglySorted Z.gt steps -> exists v,
  chooses (choose_tokens steps) n v /\ (v = 0 \/ (In v steps /\ v <= n))
  /\ forall s, In s steps -> s <= n -> s <= v.
Proof.
  intros steps n S. induction S as [|a steps S IH F].
  - exists 0. split; [apply chooses_zero|]. split; [now left|]. intros s [].
  - rewrite Forall_forall in F. destruct (Z.le_gt_cases a n) as [L|L].
    + exists a. split; [now apply chooses_first|]. split; [right; split; [now left|exact L]|].
      intros s [<-|I] _; [lia|]. specialize (F s I). lia.
    + destruct IH as (v & C & O & M). exists v. split; [now apply chooses_other|]. split.
      * destruct O as [O|(O & P)]; [now left|right; split; [now right|exact P]].
      * intros s [<-|I] B; [lia|now apply M].
Qed.

Lemma all_steps_sorted : StronglySorted Z.gt all_steps.
Proof. unfold all_steps. repeat constructor. Qed.

(** *** take *)

Definition tokens_eqb (a b : list str) : bool :=
  if list_eq_dec (list_eq_dec Z.eq_dec) a b then true else false.
Definition head_tokens : list str := tokens (text "constexpr inline int take(int n_)").
Definition not_head (l : str) : bool := negb (tokens_eqb (tokens l) head_tokens).

Definition after_take (sun : bool) : list str :=
  [text "template <int LenNow, int LenRemaining, char... Cs>"; text "struct make_string;";
   text "template <char... Cs> struct make_string<0, 0, Cs...> : string<> {};"]
  ++ small_lines ++ (if sun then [] else large_lines) ++ close_lines.

Lemma text_lines_take : forall sun, text_lines sun =
  open_lines ++ take_head :: text "{" :: take_body :: text "}" :: after_take sun.
Proof. reflexivity. Qed.

Lemma not_heads : forall sun,
  forallb not_head open_lines = true
  /\ forallb not_head (text "{" :: take_body :: text "}" :: after_take sun) = true.
Proof. intro sun. split; [|destruct sun]; vm_compute; reflexivity. Qed.

Lemma split_unique : forall (p q u w : list str) (h h' : str),
  p ++ h :: q = u ++ h' :: w -> forallb not_head p = true -> forallb not_head q = true ->
  not_head h' = false -> u = p /\ w = q.
Proof.
  induction p as [|x p IH]; intros q u w h h' E P Q N.
  - destruct u as [|y u]; cbn [app] in E; injection E as E1 E2; [auto|]. exfalso.
    rewrite E2, forallb_app in Q. apply andb_true_iff in Q as (_ & Q). cbn [forallb] in Q.
    rewrite N in Q. discriminate.
  - cbn [forallb] in P. apply andb_true_iff in P as (X & P).
    destruct u as [|y u]; cbn [app] in E; injection E as E1 E2.
    + subst. congruence.
    + destruct (IH q u w h h' E2 P Q N) as (-> & ->). subst. auto.
Qed.

Lemma takes_value : forall sun n v, takes (text_lines sun) n v ->
  (v = 0 \/ (In v all_steps /\ v <= n)) /\ forall s, In s all_steps -> s <= n -> s <= v.
Proof.
  intros sun n v (u & w & head & body & e & E & H & B & C).
  rewrite text_lines_take in E.
  destruct (split_unique _ _ _ _ _ _ E (proj1 (not_heads sun)) (proj2 (not_heads sun))) as (-> & W).
  { unfold not_head, tokens_eqb. rewrite H. fold head_tokens.
    destruct (list_eq_dec (list_eq_dec Z.eq_dec) head_tokens head_tokens); [reflexivity|congruence]. }
  injection W as W _. subst body. rewrite take_body_tokens in B.
  apply (f_equal (@tl str)) in B. change (choose_tokens all_steps ++ [text ";"] = e ++ [text ";"]) in B.
  apply app_inj_tail in B as (<- & _).
  destruct (chooses_some all_steps n all_steps_sorted) as (v' & C' & O & M).
  rewrite (chooses_one _ _ _ _ C C'). auto.
Qed.

Lemma takes_some : forall sun n, exists v, takes (text_lines sun) n v.
Proof.
  intros sun n. destruct (chooses_some all_steps n all_steps_sorted) as (v & C & _).
  exists v, open_lines, (after_take sun), take_head, take_body, (choose_tokens all_steps).
  split; [apply text_lines_take|]. split; [reflexivity|]. split; [exact take_body_tokens|exact C].
Qed.

(** *** make_string *)

Lemma is_primary : forall sun, primary (text_lines sun).
Proof.
  intro sun. exists (open_lines ++ [take_head; text "{"; take_body; text "}"]).
  eexists. eexists. eexists. split; [reflexivity|]. vm_compute. reflexivity.
Qed.

Lemma is_for_nothing : forall sun, for_nothing (text_lines sun).
Proof.
  intro sun. exists (text "template <char... Cs> struct make_string<0, 0, Cs...> : string<> {};").
  split; [|reflexivity]. unfold text_lines. apply in_or_app. right. apply in_or_app. left.
  unfold make_lines. do 6 right. left. reflexivity.
Qed.

Lemma names_nodup : forall k, NoDup (text "LenRemaining" :: text "Cs" :: names k).
Proof.
  intro k.
  assert (D : forall y, In y (names k) -> exists i, 0 <= i /\ y = text "C" ++ print_number i).
  { intros y Y. apply in_map_iff in Y as (i & <- & I). apply in_map_iff in I as (j & <- & _).
    exists (Z.of_nat j). split; [lia|reflexivity]. }
  constructor; [|constructor].
  - intros [E|I]; [discriminate|]. apply D in I as (i & _ & E). discriminate E.
  - intro I. apply D in I as (i & B & E). injection E as E.
    destruct (print_digits i B) as (X & _).
    rewrite <- E in X.
    inversion X as [|? ? C _]; subst. unfold digit_char in C. slia.
  - unfold names. apply Injective_map_NoDup.
    + intros i j E. apply app_inv_head in E. now apply print_int_inj.
    + unfold up_to. apply Injective_map_NoDup; [|apply seq_NoDup]. intros i j E. lia.
Qed.

(** The tokens of a specialisation *)
Lemma chars_tokens : forall ns, forallb word ns = true ->
  tokens (concat (map (fun n => text "char " ++ n ++ text ",") ns))
  = concat (map (fun x => [text "char"; x; comma]) ns).
Proof.
  induction ns as [|n ns IH]; intros H; [reflexivity|]. cbn [forallb] in H.
  apply andb_true_iff in H as (W & H). cbn [map concat].
  assert (E : tokens (text "char " ++ n ++ text ",") = [text "char"; n; comma]).
  { rewrite tokens_app_l by reflexivity. rewrite tokens_app_r by reflexivity.
    rewrite (tokens_word n) by exact W. reflexivity. }
  rewrite tokens_app_l, E, IH by (exact H || (unfold ends_word; rewrite !rev_app_distr; reflexivity)).
  reflexivity.
Qed.

Lemma arguments_tokens : forall ns, forallb word ns = true ->
  tokens (concat (map (fun n => n ++ text ",") ns)) = concat (map (fun x => [x; comma]) ns).
Proof.
  induction ns as [|n ns IH]; intros H; [reflexivity|]. cbn [forallb] in H.
  apply andb_true_iff in H as (W & H). cbn [map concat].
  assert (E : tokens (n ++ text ",") = [n; comma]).
  { rewrite tokens_app_r by reflexivity. rewrite (tokens_word n) by exact W. reflexivity. }
  rewrite tokens_app_l, E, IH by (exact H || (unfold ends_word; rewrite !rev_app_distr; reflexivity)).
  reflexivity.
Qed.

Lemma names_word : forall k, forallb word (names k) = true.
Proof.
  intro k. apply forallb_forall. intros y Y. apply in_map_iff in Y as (i & <- & I).
  apply in_map_iff in I as (j & <- & _). apply word_app; [reflexivity|apply print_word; lia].
Qed.

Lemma words_tokens : forall ns, forallb word ns = true -> map tokens ns = map (fun x => [x]) ns.
Proof.
  intros ns H. apply map_ext_in. intros x X. apply tokens_word. rewrite forallb_forall in H. now apply H.
Qed.

Lemma is_for_characters : forall ls k, In (specialisation k) ls -> 0 <= k -> for_characters ls k.
Proof.
  intros ls k I K. exists (specialisation k), (names k). split; [exact I|].
  split; [apply names_word|]. split; [apply names_nodup|].
  split; [unfold names, up_to; rewrite !map_length, seq_length; lia|].
  unfold specialisation.
  rewrite tokens_app_l by reflexivity. apply f_equal.
  rewrite tokens_app.
  2: { destruct (names k) as [|y ns] using rev_ind; [reflexivity|].
       rewrite map_app, concat_app. cbn [map concat]. unfold ends_word.
       rewrite !rev_app_distr. reflexivity. }
  rewrite chars_tokens by apply names_word. apply f_equal.
  rewrite tokens_app_l by reflexivity. apply f_equal.
  rewrite tokens_app_r by reflexivity. rewrite (tokens_word (print_number k)) by now apply print_word.
  rewrite tokens_app_l by reflexivity.
  change (tokens (text ",LenRemaining,")) with ([comma] ++ tokens (text "LenRemaining,")).
  cbn [app]. apply f_equal, f_equal. rewrite <- ?app_assoc.
  change (?a :: ?b :: tokens (text ?c)) with (tokens (text c)).
  apply f_equal.
  rewrite tokens_app.
  2: { destruct (names k) as [|y ns] using rev_ind; [reflexivity|].
       rewrite map_app, concat_app. cbn [map concat]. unfold ends_word.
       rewrite !rev_app_distr. reflexivity. }
  rewrite arguments_tokens by apply names_word. apply f_equal.
  rewrite tokens_app_l by reflexivity. apply f_equal.
  rewrite tokens_app_r by reflexivity.
  apply (f_equal2 (@app str)); [|reflexivity].
  etransitivity; [apply tokens_separated|]. f_equal. apply words_tokens, names_word.
Qed.

Definition step_limit (sun : bool) (k : Z) : Prop := sun = true -> k < 128.

Lemma step_characters : forall sun k, In k all_steps -> step_limit sun k ->
  for_characters (text_lines sun) k.
Proof.
  intros sun k I L.
  assert (K : 0 <= k) by (repeat (destruct I as [<-|I]; [lia|]); destruct I).
  apply is_for_characters; [|exact K].
  assert (S : In k [1; 2; 4; 8; 16; 32; 64] \/ (sun = false /\ In k [128; 256; 512])).
  { unfold step_limit in L. cbn [In all_steps] in *. destruct sun; [|intuition auto 10].
    specialize (L eq_refl). left. intuition (try lia). }
  unfold text_lines. apply in_or_app. right. apply in_or_app. right. apply in_or_app.
  destruct S as [S|(-> & S)]; [left|right; apply in_or_app; left]; now apply in_map.
Qed.

Lemma makes_out : forall ls now remaining cs out, makes ls now remaining cs out ->
  0 <= now + remaining <= Z.of_nat (length cs)
  /\ out = firstn (Z.to_nat (now + remaining)) cs.
Proof.
  intros ls now remaining cs out H. induction H as [cs _ _|remaining now a cs out _ _ _ _ (B & IH)].
  - split; [lia|reflexivity].
  - replace (now + (remaining - now)) with remaining in * by lia. rewrite app_length. split; [lia|].
    rewrite IH. replace (Z.to_nat (Z.of_nat (length a) + remaining))
      with (length a + Z.to_nat remaining)%nat by lia.
    rewrite firstn_app_2. reflexivity.
Qed.

Lemma step_positive : forall v, In v all_steps -> 1 <= v.
Proof. intros v I. repeat (destruct I as [<-|I]; [lia|]). destruct I. Qed.

Lemma makes_some : forall sun fuel r now cs, 0 <= r <= Z.of_nat fuel -> r <= Z.of_nat (length cs) ->
  step_limit sun r -> takes (text_lines sun) r now ->
  makes (text_lines sun) now (r - now) cs (firstn (Z.to_nat r) cs).
Proof.
  intros sun. induction fuel as [|fuel IH]; intros r now cs R C L T.
  - assert (r = 0) by lia. subst r. destruct (takes_value _ _ _ T) as ([->|(I & B)] & _).
    + apply makes_nothing; [apply is_primary|apply is_for_nothing].
    + apply step_positive in I. lia.
  - destruct (takes_value _ _ _ T) as ([->|(I & B)] & M).
    + assert (r = 0).
      { destruct (Z.eq_dec r 0) as [E|E]; [exact E|].
        specialize (M 1 ltac:(cbn; auto 12) ltac:(lia)). lia. }
      subst r. apply makes_nothing; [apply is_primary|apply is_for_nothing].
    + pose proof (step_positive _ I) as P.
      destruct (takes_some sun (r - now)) as (v & V).
      assert (LA : length (firstn (Z.to_nat now) cs) = Z.to_nat now) by (rewrite firstn_length; slia).
      assert (Q : makes (text_lines sun) (Z.of_nat (length (firstn (Z.to_nat now) cs))) (r - now)
        (firstn (Z.to_nat now) cs ++ skipn (Z.to_nat now) cs)
        (firstn (Z.to_nat now) cs ++ firstn (Z.to_nat (r - now)) (skipn (Z.to_nat now) cs))).
      { rewrite LA. rewrite <- LA at 1. apply (makes_characters _ _ v).
        - apply is_primary.
        - rewrite LA, Z2Nat.id by lia. apply step_characters; [exact I|].
          intro S. specialize (L S). lia.
        - exact V.
        - apply IH; [lia| |intro S; specialize (L S); lia|exact V].
          rewrite skipn_length. slia. }
      rewrite firstn_skipn, firstn_add, LA, Z2Nat.id in Q by lia.
      replace (Z.to_nat now + Z.to_nat (r - now))%nat with (Z.to_nat r) in Q by lia. exact Q.
Qed.

(** *** Sun's compiler *)

Lemma singles_length : forall xs : list str, xs <> [] ->
  Z.of_nat (length (comma_separated (map (fun x => [x]) xs))) = 2 * Z.of_nat (length xs) - 1.
Proof.
  induction xs as [|y xs IH]; intros N; [congruence|]. cbn [map comma_separated].
  destruct xs as [|z xs]; [reflexivity|]. cbn [map] in *. rewrite app_length. cbn [length] in *.
  specialize (IH ltac:(discriminate)). lia.
Qed.

Lemma chars_length : forall xs : list str,
  length (concat (map (fun x => [text "char"; x; comma]) xs)) = (3 * length xs)%nat.
Proof. induction xs as [|y xs IH]; [reflexivity|]. cbn [map concat app length]. lia. Qed.
Lemma arguments_length : forall xs : list str,
  length (concat (map (fun x => [x; comma]) xs)) = (2 * length xs)%nat.
Proof. induction xs as [|y xs IH]; [reflexivity|]. cbn [map concat app length]. lia. Qed.

Lemma for_characters_length : forall ls k, for_characters ls k -> 0 < k ->
  exists l, In l ls /\ 7 * k < Z.of_nat (length (tokens l)).
Proof.
  intros ls k (l & xs & I & _ & _ & L & T) K. exists l. split; [exact I|]. rewrite T.
  assert (N : xs <> []) by (intros ->; cbn in L; lia). pose proof (singles_length xs N) as S.
  rewrite !app_length, chars_length, arguments_length. cbn [length]. lia.
Qed.

Lemma sun_lengths : forallb (fun l => Z.of_nat (length (tokens l)) <? 600) (text_lines true) = true.
Proof. vm_compute. reflexivity. Qed.

Lemma sun_characters : forall k, for_characters (text_lines true) k -> k < 128.
Proof.
  intros k F. destruct (Z.lt_ge_cases k 128) as [B|B]; [exact B|]. exfalso.
  destruct (for_characters_length _ _ F ltac:(lia)) as (l & I & L).
  pose proof sun_lengths as H. rewrite forallb_forall in H. specialize (H l I).
  apply Z.ltb_lt in H. lia.
Qed.

Lemma literal_chars : forall (lit : str) k, Z.of_nat (length lit) <= k ->
  firstn (length lit) (map (fun i => nth (Z.to_nat i) lit 0) (up_to k)) = lit.
Proof.
  intros lit k K. unfold up_to. rewrite map_map.
  rewrite (map_ext _ (fun i => nth i lit 0)) by (intro i; rewrite Nat2Z.id; reflexivity).
  replace (Z.to_nat k) with (length lit + (Z.to_nat k - length lit))%nat by slia.
  rewrite seq_app, map_app.
  assert (E : map (fun i => nth i lit 0) (seq 0 (length lit)) = lit).
  { clear K k. induction lit as [|c lit IH]; [reflexivity|]. cbn [length seq map nth].
    apply f_equal2; [reflexivity|]. rewrite <- seq_shift, map_map. exact IH. }
  rewrite E. rewrite firstn_app, firstn_all, Nat.sub_diag. cbn [firstn]. apply app_nil_r.
Qed.

Lemma call_spec : forall sun n k lit out, n <= k ->
  call_gives (text_lines sun) n lit (up_to k) out <->
  Z.of_nat (length lit) <= n /\ step_limit sun (Z.of_nat (length lit)) /\ out = lit.
Proof.
  intros sun n k lit out K. split.
  - intros (L & now & T & M). pose proof (makes_out _ _ _ _ _ M) as (_ & O). split; [exact L|].
    replace (now + (Z.of_nat (length lit) - now)) with (Z.of_nat (length lit)) in O by lia.
    rewrite Nat2Z.id in O. split.
    + intros ->. destruct (Z.lt_ge_cases (Z.of_nat (length lit)) 128) as [B|B]; [exact B|]. exfalso.
      destruct (takes_value _ _ _ T) as (_ & G).
      specialize (G 128 ltac:(cbn; auto 12) B).
      inversion M as [cs P N E|r now' a cs out' P F T' M' E1 E2]; [lia|].
      rewrite E1 in F. apply sun_characters in F. lia.
    + rewrite O. apply (literal_chars lit). lia.
  - intros (L & S & ->). split; [exact L|]. destruct (takes_some sun (Z.of_nat (length lit))) as (now & T).
    exists now. split; [exact T|].
    pose proof (makes_some sun (length lit) (Z.of_nat (length lit)) now
      (map (fun i => nth (Z.to_nat i) lit 0) (up_to k)) ltac:(lia)) as X.
    rewrite Nat2Z.id, (literal_chars lit k) in X by lia. apply X; [|exact S|exact T].
    rewrite map_length. unfold up_to. rewrite map_length, seq_length. slia.
Qed.
