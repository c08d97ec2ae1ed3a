(** Property C76: the header of strings written by tools/string_headers.py.  Including it
    defines BOOST_METAPARSE_V1_STRING, which expands to a type that is the string of the
    literal. *)

From Coq Require Import ZArith List Bool Lia.
From Verif Require Import Base Messages Spec Strings Generate Headers SpecGenerate SpecHeaders
  Properties_Messages Proofs_Macro Proofs_Generate Proofs_Headers Proofs_Expansion
  Proofs_Expansion2 Proofs_Expansion3.
Import ListNotations.
Open Scope Z_scope.

(** The highest limit *)
Definition highest (max step : Z) : Z := step * ((max + step - 2) / step).
(** Tokens the preprocessor leaves as they are *)
Definition untouched (ms : list macro) (x : list str) : Prop :=
  Forall (fun t => ~ defined ms t /\ t <> cat) x.
Definition the_macro : str := text "BOOST_METAPARSE_V1_STRING".

Lemma before_nodup : forall sun n, NoDup (map macro_id (macros_before sun n)).
Proof.
  intros sun n. pose proof (first_nodup sun n) as N. unfold first_macros in N.
  rewrite !map_app in N. apply NoDup_remove in N as (N & _). rewrite app_nil_r in N.
  apply NoDup_remove in N as (N & _). rewrite app_nil_r in N. exact N.
Qed.

Lemma no_cat : forall sun n limits m, ~ defined (macros sun n limits m) cat.
Proof. intros sun n limits m D. apply macro_names in D as [D|D]; discriminate D. Qed.

Lemma header_exists : forall max step, 0 < step -> 1 < max -> exists t,
  string_header max step = Some t
  /\ source_lines t = header_lines (length_limits max step) (highest max step).
Proof.
  intros max step S M.
  destruct (header_text (length_limits max step) (highest max step)
    (length_limits_good max step S) (length_limits_max max step S M)) as (t & T & L).
  exists t. split; [|exact L]. apply T. now apply limits_ints.
Qed.

Lemma limit_for_least : forall max step n, 0 < step -> 1 < max -> n <= highest max step ->
  exists j, 0 < j /\ limit_for (length_limits max step) n = j * step
    /\ n <= j * step /\ (j - 1) * step < Z.max n 1.
Proof.
  intros max step n S M N.
  destruct (limit_for_spec _ _ n (length_limits_max max step S M) N) as (I & B).
  unfold limit_for in *.
  destruct (py_min (filter (fun l => n <=? l) (length_limits max step))) as [l|] eqn:E.
  2: { apply (length_limits_good max step S) in I. lia. }
  pose proof (proj1 (length_limits_In max step l S) I) as (j & J & -> & U).
  exists j. split; [exact J|]. split; [reflexivity|]. split; [exact B|].
  apply py_min_spec in E as (_ & E).
  destruct (Z.eq_dec j 1) as [->|D]; [lia|].
  destruct (Z.lt_ge_cases ((j - 1) * step) n) as [L|L]; [lia|]. exfalso.
  assert (X : In ((j - 1) * step) (filter (fun l => n <=? l) (length_limits max step))).
  { apply filter_In. split; [|now apply Z.leb_le]. apply length_limits_In; [exact S|].
    exists (j - 1). nia. }
  apply E in X. nia.
Qed.

(** ** Strings *)

Theorem C76_header : forall max step sun n,
  0 < step -> 1 < max -> 0 <= n <= highest max step ->
  exists t ms ls k,
    string_header max step = Some t
    /\ (forall o, scan (macros_before sun n) (source_lines t) o <-> o = Finished ms ls)
    /\ (forall x, defined ms x ->
          begins (text "BOOST_METAPARSE_") x = true \/ x = text "__SUNPRO_CC")
    /\ (exists j, k = j * step /\ n <= k /\ (j - 1) * step < Z.max n 1)
    /\ (forall x, argument x -> untouched ms x -> forall out,
          expands ms (the_macro :: lparen :: x ++ [rparen]) out
          <-> out = make_string_call n x (up_to k))
    /\ (forall lit out, call_gives ls n lit (up_to k) out
          <-> Z.of_nat (length lit) <= n /\ (sun = true -> Z.of_nat (length lit) < 128)
              /\ out = lit).
Proof.
  intros max step sun n S M N.
  destruct (header_exists max step S M) as (t & T & L).
  set (limits := length_limits max step) in *. set (m := highest max step) in *.
  assert (G : good_limits limits) by exact (length_limits_good max step S).
  assert (P : py_max limits = Some m) by exact (length_limits_max max step S M).
  exists t, (macros sun n limits m), (text_lines sun), (limit_for limits n).
  split; [exact T|]. split; [|split; [|split; [|split]]].
  - pose proof (header_scan sun n limits m G P (proj2 N)) as H. rewrite L. intro o. split.
    + intro O. symmetry. apply (scan_one _ _ _ H (before_nodup sun n) _ O).
    + intros ->. exact H.
  - apply macro_names.
  - destruct (limit_for_least max step n S M (proj2 N)) as (j & _ & E & B & C).
    exists j. fold limits in E. rewrite E. auto.
  - intros x A U out.
    pose proof (expands_string sun n limits m G P N x A U) as E. split.
    + intro O. symmetry. eapply expands_one; [exact (macros_nodup sun n limits m G)|apply no_cat|exact E|exact O].
    + intros ->. exact E.
  - intros lit out. apply call_spec. apply (limit_for_spec limits m n P (proj2 N)).
Qed.

(** ** Limits that are too large, or not there *)

Theorem C76_too_large : forall max step sun n, 0 < step -> 1 < max -> highest max step < n ->
  exists t, string_header max step = Some t
    /\ forall o, scan (macros_before sun n) (source_lines t) o
       <-> o = Stopped (text "BOOST_METAPARSE_LIMIT_STRING_SIZE is greater than "
              ++ print_number (highest max step)
              ++ text ". To increase the limit run tools/string_headers.py of Boost.Metaparse against your Boost headers.").
Proof.
  intros max step sun n S M N. destruct (header_exists max step S M) as (t & T & L).
  exists t. split; [exact T|]. rewrite L. intro o.
  pose proof (header_too_large sun n (length_limits max step) _ N) as H. split.
  - intro O. symmetry. apply (scan_one _ _ _ H (before_nodup sun n) _ O).
  - intros ->. exact H.
Qed.

Definition include_guard : str := text "BOOST_METAPARSE_V1_CPP11_IMPL_STRING_HPP".

Theorem C76_no_limit : forall max step ms, 0 < step -> 1 < max -> NoDup (map macro_id ms) ->
  ~ defined ms include_guard -> ~ defined ms limit_macro ->
  exists t, string_header max step = Some t
    /\ forall o, scan ms (source_lines t) o
       <-> o = Stopped (text "BOOST_METAPARSE_LIMIT_STRING_SIZE not defined").
Proof.
  intros max step ms S M D G N. destruct (header_exists max step S M) as (t & T & L).
  exists t. split; [exact T|]. rewrite L. intro o.
  pose proof (header_no_limit ms (length_limits max step) (highest max step) G N) as H. split.
  - intro O. symmetry. apply (scan_one _ _ _ H D _ O).
  - intros ->. exact H.
Qed.

(** Included again, the header does nothing. *)
Theorem C76_again : forall max step ms, 0 < step -> 1 < max -> NoDup (map macro_id ms) ->
  defined ms include_guard ->
  exists t, string_header max step = Some t
    /\ forall o, scan ms (source_lines t) o <-> o = Finished ms [].
Proof.
  intros max step ms S M D G. destruct (header_exists max step S M) as (t & T & L).
  exists t. split; [exact T|]. rewrite L. intro o.
  assert (H : scan ms (header_lines (length_limits max step) (highest max step)) (Finished ms [])).
  { unfold header_lines. fold (body_lines (length_limits max step) (highest max step)).
    apply (scan_skipped ms _ _ []); [now apply cond_ifndef_not|apply body_closed|constructor]. }
  split.
  - intro O. symmetry. apply (scan_one _ _ _ H D _ O).
  - intros ->. exact H.
Qed.

(** ** What does not hold *)

(** The script does not accept every positive maximum. *)
Theorem C76_positive_refuted : exists max, 0 < max /\ forall step, 0 < step ->
  string_header max step = None.
Proof.
  exists 1. split; [lia|]. intros step S. unfold string_header, generate_string.
  rewrite limits_ints by exact S. rewrite length_limits_nil by lia. reflexivity.
Qed.

(** On Sun's compiler there is no string of 128 characters, whatever the limit. *)
Theorem C76_sun_refuted : exists lit, forall max step n,
  0 < step -> 1 < max -> Z.of_nat (length lit) <= n <= highest max step ->
  exists t ms ls k,
    string_header max step = Some t
    /\ scan (macros_before true n) (source_lines t) (Finished ms ls)
    /\ expands ms (tokens (text "BOOST_METAPARSE_V1_STRING(x)"))
         (make_string_call n [text "x"] (up_to k))
    /\ forall out, ~ call_gives ls n lit (up_to k) out.
Proof.
  exists (repeat 97 128). intros max step n S M N. rewrite repeat_length in N.
  destruct (C76_header max step true n S M ltac:(lia)) as (t & ms & ls & k & T & O & D0 & _ & E & C).
  exists t, ms, ls, k. split; [exact T|]. split; [now apply O|]. split.
  - change (tokens (text "BOOST_METAPARSE_V1_STRING(x)"))
      with (the_macro :: lparen :: [text "x"] ++ [rparen]).
    apply E; [|constructor; [|constructor]|reflexivity].
    + apply argument_token; try discriminate. constructor.
    + split; [|discriminate].
      intro D. apply D0 in D as [D|D]; discriminate D.
  - intros out G. apply C in G as (_ & G & _). specialize (G eq_refl). rewrite repeat_length in G. lia.
Qed.

(** ** Examples *)

(** Limits up to 4 in steps of 2; the limit 3 *)
Example C76_header_case :
  0 < 2 /\ 1 < 5 /\ highest 5 2 = 4
  /\ (exists t, string_header 5 2 = Some t
      /\ In (text "#define BOOST_METAPARSE_V1_I3 BOOST_METAPARSE_V1_INDEX_STR4") (source_lines t)
      /\ In (text "#define BOOST_METAPARSE_V1_INDEX_STR4(s) BOOST_METAPARSE_V1_INDEX_STR2(s),BOOST_METAPARSE_V1_STRING_AT((s), 2),BOOST_METAPARSE_V1_STRING_AT((s), 3)") (source_lines t))
  /\ make_string_call 3 [text """ab"""] (up_to 4) =
     tokens (text "::boost::metaparse::v1::impl::make_string<::boost::metaparse::v1::impl::take(sizeof(")
     ++ [text """ab"""] ++ tokens (text ")-1),sizeof(") ++ [text """ab"""]
     ++ tokens (text ")-1-::boost::metaparse::v1::impl::take(sizeof(") ++ [text """ab"""]
     ++ tokens (text ")-1),")
     ++ tokens (text "::boost::metaparse::v1::impl::string_at<3>((") ++ [text """ab"""] ++ tokens (text "),0),")
     ++ tokens (text "::boost::metaparse::v1::impl::string_at<3>((") ++ [text """ab"""] ++ tokens (text "),1),")
     ++ tokens (text "::boost::metaparse::v1::impl::string_at<3>((") ++ [text """ab"""] ++ tokens (text "),2),")
     ++ tokens (text "::boost::metaparse::v1::impl::string_at<3>((") ++ [text """ab"""] ++ tokens (text "),3)")
     ++ tokens (text ">::type").
Proof.
  split; [lia|]. split; [lia|]. split; [reflexivity|]. split.
  - destruct (header_exists 5 2 eq_refl eq_refl) as (t & T & L). exists t. split; [exact T|].
    rewrite L. unfold header_lines.
    split; right; apply in_or_app; left; right; do 9 (apply in_or_app; right); apply in_or_app.
    + left. apply (in_map (index_line (length_limits 5 2)) _ 3). vm_compute. auto 10.
    + right. right. left. vm_compute. reflexivity.
  - vm_compute. reflexivity.
Qed.

Print Assumptions C76_header.
Print Assumptions C76_too_large.
Print Assumptions C76_no_limit.
Print Assumptions C76_again.
Print Assumptions C76_positive_refuted.
Print Assumptions C76_sun_refuted.
