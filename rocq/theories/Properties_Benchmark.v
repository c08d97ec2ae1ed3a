(** Properties proved about the benchmark tools. *)

From Coq Require Import ZArith List Bool Lia.
From Verif Require Import Base Messages Spec Benchmark SpecBenchmark Proofs_Benchmark
  Properties_Messages.
Import ListNotations.
Open Scope Z_scope.

(** ** C68: the generated benchmarks compile the strings they should *)

(** Every byte is written in a way that denotes it, in a string literal and in a
    character literal. *)
Theorem C68_format_character : forall c, 0 <= c < 256 ->
  string_body (format_character c) [c]
  /\ char_literal ([39] ++ format_character c ++ [39]) c.
Proof.
  intros c B. destruct (format_cases c) as [(E & P)|[(e & E & P)|E]]; rewrite E.
  - destruct P as (? & ? & ? & ?). split; [apply body_plain|apply lit_plain]; auto. constructor.
  - split; [apply body_escape|apply lit_escape]; auto. constructor.
  - split.
    + apply (body_hex [lower_hex (c / 16); lower_hex (c mod 16)] c [] []).
      * discriminate.
      * apply two_digits. exact B.
      * cbn. auto.
      * constructor.
    + apply (lit_hex [lower_hex (c / 16); lower_hex (c mod 16)] c); [discriminate|].
      apply two_digits. exact B.
Qed.
Print Assumptions C68_format_character.

Example C68_format_character_case :
  format_character 97 = text "a" /\ format_character 34 = text "\"""
  /\ format_character 10 = text "\n" /\ format_character 44 = text "\x2c"
  /\ string_body (text "\x2c") [44] /\ char_literal (text "'\x2c'") 44.
Proof.
  repeat (split; [reflexivity|]). exact (C68_format_character 44 ltac:(lia)).
Qed.

(** Writing two characters next to each other can denote something else: the
    digits of a hexadecimal escape do not end. *)
Theorem C68_format_character_refuted : exists c d,
  0 <= c < 256 /\ 0 <= d < 256
  /\ ~ string_body (format_character c ++ format_character d) [c; d].
Proof.
  exists 1, 97. split; [lia|]. split; [lia|].
  change (format_character 1 ++ format_character 97) with [92; 120; 48; 49; 97].
  intros H.
  assert (G : forall s cs, string_body s cs -> s = [92; 120; 48; 49; 97] -> cs <> [1; 97]).
  { intros s cs B. destruct B as [|c w cs A1 A2 A3 B|e c w cs E B|ds n w cs N X Y B];
      intros Q; try discriminate.
    - congruence.
    - injection Q as -> _. inversion E.
    - injection Q as Q. intros R. injection R as -> ->.
      assert (D : forall c, In c [48; 49; 97] -> exists d, hex_digit c d).
      { intros c [<-|[<-|[<-|[]]]].
        - exists 0. apply (hex_decimal 0). lia.
        - exists 1. apply (hex_decimal 1). lia.
        - exists 10. apply (hex_lower 10). lia. }
      destruct w as [|v w]; [inversion B|].
      apply Y. apply D. rewrite <- Q. apply in_or_app. right. left. reflexivity. }
  exact (G _ _ H eq_refl eq_refl).
Qed.
Print Assumptions C68_format_character_refuted.

(** This is why [random_chars] leaves out characters written like that: a random
    string has exactly the requested number of characters, and each of them is a
    character of the statistics. *)
Theorem C68_random_string : forall m rnd, counts m ->
  Forall (fun i => 0 <= i < total_count (plain_characters m)) rnd ->
  exists w cs, random_string m rnd = Some w /\ simple_macro_string w cs
    /\ macro_string w cs /\ length cs = length rnd
    /\ Forall (fun c => exists n, In (c, n) m /\ 0 < n) cs.
Proof.
  intros m rnd C F. destruct (random_chars_ok m rnd C F) as (l & cs & E & B & L & K).
  unfold random_string. rewrite E. eexists. exists cs. split; [reflexivity|].
  split; [exists (concat l); split; [reflexivity|exact B]|].
  split; [exists (concat l); split; [reflexivity|apply simple_is_body; exact B]|]. auto.
Qed.
Print Assumptions C68_random_string.

Definition sample : list (char * Z) := [(97, 3); (44, 5); (34, 1); (10, 2)].

Lemma sample_counts : counts sample.
Proof.
  split.
  - cbn. repeat (constructor; [cbn; intuition discriminate|]). constructor.
  - intros c n H. cbn in H. repeat (destruct H as [H|H]; [injection H as <- <-; lia|]).
    destruct H.
Qed.

Example C68_random_string_case :
  total_count (plain_characters sample) = 6
  /\ random_string sample [0; 2; 3; 5] = Some (text "BOOST_METAPARSE_STRING(""aa\""\n"")").
Proof. split; reflexivity. Qed.

(** Every index below the sum of the counts selects a character, and every
    character is selected by as many of them as it occurs. *)
Theorem C68_nth_char : forall m, counts m ->
  (forall i, 0 <= i < total m -> exists c n, nth_char m i = Some c /\ In (c, n) m /\ 0 < n)
  /\ (forall c n, In (c, n) m ->
       length (filter (fun i => match nth_char m i with
                                | Some d => d =? c
                                | None => false
                                end) (numbers_below (total m)))
       = Z.to_nat n).
Proof.
  intros m C. split.
  - intros i H. apply nth_char_in; auto.
  - intros c n I. exact (chosen_count m c n C I).
Qed.
Print Assumptions C68_nth_char.

Example C68_nth_char_case :
  map (nth_char sample) (numbers_below (total sample))
  = [Some 97; Some 97; Some 97; Some 44; Some 44; Some 44; Some 44; Some 44; Some 34;
     Some 10; Some 10].
Proof. reflexivity. Qed.

(** The statistics of a directory tree are the numbers of occurrences of the
    characters in all of its files. *)
Theorem C68_statistics : forall root,
  counts (generate_statistics root)
  /\ forall c, entry (generate_statistics root) c
                     (Z.of_nat (occurrences c (contents root))).
Proof.
  intros root.
  assert (X : forall c, NoDup (map fst (generate_statistics root))
    /\ entry (generate_statistics root) c (Z.of_nat (occurrences c (contents root)))).
  { intros c. destruct (entry_count root [] c 0) as (A & B); [constructor|right; auto|].
    split; auto. }
  split; [|intros c; apply X]. split; [exact (proj1 (X 0))|].
  intros c n I. destruct (X c) as (N & [E|(_ & E)]); [|destruct (E n I)].
  assert (U : forall (m : list (char * Z)), NoDup (map fst m) ->
    forall a b, In (c, a) m -> In (c, b) m -> a = b).
  { induction m as [|(d, k) m IH]; intros ND a b Ha Hb; [destruct Ha|].
    cbn in ND. inversion ND; subst.
    assert (Q : forall q, In (d, q) m -> False).
    { intros q Hq. apply H1. apply in_map_iff. exists (d, q). auto. }
    destruct Ha as [Ha|Ha], Hb as [Hb|Hb].
    - congruence.
    - injection Ha as -> ->. destruct (Q _ Hb).
    - injection Hb as -> ->. destruct (Q _ Ha).
    - eauto. }
  rewrite (U _ N _ _ I E). lia.
Qed.
Print Assumptions C68_statistics.

Example C68_statistics_case :
  generate_statistics (Dir [File (text "aab"); Dir [File (text "b!")]; Other])
  = [(97, 2); (98, 2); (33, 1)].
Proof. reflexivity. Qed.

(** ** C69: the two kinds of string benchmarks *)

(** The benchmarks of [string<'a','b'>] have the same strings in the same places
    as those of the macro they are generated from, however many there are. *)
Theorem C69_manual_mode : forall l tail base, source simple_macro_string l tail base ->
  exists out, convert_from Man base = Some out /\ source template_string l tail out.
Proof.
  intros l tail base H. apply (convert_source l tail base H).
  apply source_length in H. lia.
Qed.
Print Assumptions C69_manual_mode.

Example C69_manual_mode_case :
  convert_from Man (text "typedef BOOST_METAPARSE_STRING(""a\"""") s; BOOST_METAPARSE_STRING("""") t;")
  = Some (text "typedef ::boost::metaparse::string<'a','\""'> s; ::boost::metaparse::string<> t;").
Proof. reflexivity. Qed.

(** The hypothesis holds for files with random strings in them. *)
Example C69_manual_mode_nonempty :
  source simple_macro_string [(text "typedef ", [97; 34])] (text " s;")
    (text "typedef " ++ text "BOOST_METAPARSE_STRING(""a\"""")" ++ text " s;").
Proof.
  assert (N : forall s, find_prefix bmp_prefix s = None -> no_string s).
  { intros s F (a & b & ->). change (text "BOOST_METAPARSE_STRING(""") with bmp_prefix in F.
    revert F. induction a as [|c a IH]; cbn [app].
    - change (bmp_prefix ++ b) with ([] ++ bmp_prefix ++ b).
      rewrite (no_early [] b) by (intros (x & y & Q); destruct x; discriminate). discriminate.
    - cbn [find_prefix]. destruct (starts _ _); [discriminate|].
      destruct (find_prefix bmp_prefix (a ++ bmp_prefix ++ b)) as [(u, v)|]; [discriminate|auto]. }
  apply source_string.
  - apply N. reflexivity.
  - exists (text "a\"""). split; [reflexivity|].
    apply simple_plain; try discriminate. apply simple_escape; constructor.
  - constructor. apply N. reflexivity.
Qed.

(** The other mode leaves the file alone, and both always finish. *)
Theorem C69_modes_terminate : forall base,
  convert_from Bmp base = Some base /\ exists out, convert_from Man base = Some out.
Proof.
  intros base. split; [reflexivity|]. cbn [convert_from].
  pose proof (convert_loop_ends (S (length base)) base ltac:(lia)) as H.
  destruct (convert_loop (S (length base)) base); [eauto|congruence].
Qed.
Print Assumptions C69_modes_terminate.

(** In general the conversion is wrong: it cuts a hexadecimal escape into
    characters, and leaves an apostrophe unescaped. *)
Theorem C69_manual_mode_refuted : exists cs base out,
  source macro_string [([], cs)] [] base /\ convert_from Man base = Some out
  /\ ~ source template_string [([], cs)] [] out.
Proof.
  exists [39], (text "BOOST_METAPARSE_STRING(""'"")"),
    (text "::boost::metaparse::string<'''>").
  assert (Nil : no_string []) by (intros (x & y & Q); destruct x; discriminate).
  split; [|split; [reflexivity|]].
  - apply (source_string macro_string [] (text "BOOST_METAPARSE_STRING(""'"")") [39] [] [] []).
    + exact Nil.
    + exists (text "'"). split; [reflexivity|]. apply body_plain; try discriminate. constructor.
    + constructor. exact Nil.
  - intros H. inversion H as [|before w cs l tail s N (b & -> & A) R X Y Z0]; subst.
    inversion R; subst.
    assert (E : b = [39; 39; 39]).
    { rewrite app_nil_r in Z0. apply (app_inv_tail (text ">")). exact Z0. }
    subst b. inversion A as [|w c L|]; subst. inversion L; subst; congruence.
Qed.
Print Assumptions C69_manual_mode_refuted.

Theorem C69_hexadecimal_refuted : exists cs base out,
  source macro_string [([], cs)] [] base /\ ~ In 39 base /\ convert_from Man base = Some out
  /\ ~ source template_string [([], cs)] [] out.
Proof.
  exists [44], (text "BOOST_METAPARSE_STRING(""\x2c"")"),
    (text "::boost::metaparse::string<'\x','2','c'>").
  assert (Nil : no_string []) by (intros (x & y & Q); destruct x; discriminate).
  split; [|split; [|split; [reflexivity|]]].
  - apply (source_string macro_string [] (text "BOOST_METAPARSE_STRING(""\x2c"")") [44] [] [] []).
    + exact Nil.
    + exists (text "\x2c"). split; [reflexivity|].
      apply (body_hex [50; 99] 44 [] []); [discriminate| |exact I|constructor].
      apply (hex_more 0 50 2); [exact (hex_decimal 2 ltac:(lia))|].
      apply (hex_more 2 99 12); [exact (hex_lower 12 ltac:(lia))|]. constructor.
    + constructor. exact Nil.
  - intros H. vm_compute in H. intuition discriminate.
  - intros H. inversion H as [|before w cs l tail s N (b & -> & A) R X Y Z0]; subst.
    inversion R; subst.
    assert (E : b = text "'\x','2','c'").
    { rewrite app_nil_r in Z0. apply (app_inv_tail (text ">")). exact Z0. }
    subst b. inversion A as [|w c L|]; subst. inversion L; subst.
    destruct ds as [|d ds]; [congruence|].
    match goal with E : _ = 39 :: _ |- _ => injection E as -> _ | E : (d :: ds) ++ _ = _ |- _ => injection E as -> _ end.
    match goal with E : hex_number _ _ _ |- _ => inversion E; subst end.
    assert (X : forall c d, hex_digit c d -> 48 <= c) by (intros x y []; lia).
    match goal with E : hex_digit _ _ |- _ => apply X in E; lia end.
Qed.
Print Assumptions C69_hexadecimal_refuted.

Example C69_hexadecimal_cut :
  convert_from Man (text "BOOST_METAPARSE_STRING(""\x2c"")")
  = Some (text "::boost::metaparse::string<'\x','2','c'>").
Proof. reflexivity. Qed.

(** [to_upper] gives an upper case letter for every lower case one. *)
Theorem C69_to_upper : forall s, Forall (fun c => 97 <= c <= 122) s ->
  to_upper s = Some (map (fun c => c - 32) s).
Proof.
  induction 1 as [|c s H F IH]; [reflexivity|]. cbn [to_upper map]. rewrite IH.
  unfold to_upper_char.
  replace ((-128 <=? c) && (c <=? -96)) with false
    by (symmetry; apply andb_false_iff; right; apply Z.leb_gt; lia).
  replace ((-95 <=? c) && (c <=? 127)) with true
    by (symmetry; apply andb_true_iff; split; apply Z.leb_le; lia).
  reflexivity.
Qed.
Print Assumptions C69_to_upper.

(** It has a value for every string of (signed) characters. *)
Theorem C69_to_upper_total : forall s, Forall (fun c => -128 <= c <= 127) s ->
  exists r, to_upper s = Some r /\ length r = length s
    /\ Forall (fun c => -128 <= c <= 127) r.
Proof.
  induction 1 as [|c s H F (r & IH & L & R)]; [exists []; auto|].
  cbn [to_upper]. rewrite IH. unfold to_upper_char.
  destruct ((-128 <=? c) && (c <=? -96)) eqn:A.
  - apply andb_true_iff in A as (A1 & A2). apply Z.leb_le in A1, A2.
    eexists. split; [reflexivity|]. split; [cbn; auto|]. constructor; auto. lia.
  - destruct ((-95 <=? c) && (c <=? 127)) eqn:B.
    + apply andb_true_iff in B as (B1 & B2). apply Z.leb_le in B1, B2.
      eexists. split; [reflexivity|]. split; [cbn; auto|]. constructor; auto. lia.
    + exfalso. apply andb_false_iff in A as [A|A], B as [B|B];
        rewrite Z.leb_gt in A, B; lia.
Qed.
Print Assumptions C69_to_upper_total.

(** Other characters are not kept, and different ones become equal. *)
Theorem C69_to_upper_refuted :
  to_upper (text "A") = Some (text "!")
  /\ exists a b, a <> b /\ to_upper [a] = to_upper [b] /\ to_upper [a] <> None.
Proof.
  split; [reflexivity|]. exists 127, (-128). split; [discriminate|].
  split; [reflexivity|discriminate].
Qed.
Print Assumptions C69_to_upper_refuted.

Example C69_to_upper_case : to_upper (text "hello") = Some (text "HELLO").
Proof. reflexivity. Qed.

(** ** C70: printed durations *)

(** [format_time] prints a well-formed duration that is shorter than the given one
    by at most one second. *)
Theorem C70_format_time : forall k ticks, 0 < k -> 0 <= ticks ->
  exists l, duration (format_time k ticks) l /\ proper l
    /\ 0 <= ticks - k * seconds l <= k.
Proof.
  intros k ticks K T. exists (time_parts [week; day; hour; minute; 1] k ticks).
  assert (P := format_parts_proper k ticks K T).
  split; [|split; [exact P|]].
  - unfold format_time.
    assert (U : forall n u, In (n, u) (time_parts [week; day; hour; minute; 1] k ticks) ->
      In u [week; day; hour; minute; 1]) by (intros n u; apply time_parts_units).
    revert P U. generalize (time_parts [week; day; hour; minute; 1] k ticks).
    induction l as [|(n, u) l IH]; intros P U; [constructor|].
    cbn [proper] in P. destruct P as (N & _ & _ & P).
    assert (W := unit_name_word n u N (U n u (or_introl eq_refl))).
    destruct (C44_numbers_are_decimal n) as (D & _).
    destruct (D ltac:(lia)) as (D1 & D2).
    specialize (IH P (fun n u I => U n u (or_intror I))).
    destruct l as [|p l].
    + cbn [map join_spaces]. unfold format_part. cbn [fst snd]. apply (duration_last _ n); auto.
    + change (join_spaces (map format_part ((n, u) :: p :: l)))
        with (format_part (n, u) ++ [32] ++ join_spaces (map format_part (p :: l))).
      remember (join_spaces (map format_part (p :: l))) as t eqn:Et. clear Et.
      unfold format_part. cbn [fst snd].
      replace ((print_int n ++ [32] ++ unit_name u ++ (if n >? 1 then [115] else []))
               ++ [32] ++ t)
        with (print_int n ++ 32 :: (unit_name u ++ (if n >? 1 then [115] else []))
                ++ 32 :: t) by (rewrite <- !app_assoc; reflexivity).
      apply (duration_more _ n); auto.
  - destruct (time_parts_sum [week; day; hour; minute; 1] k ticks K T) as (A & B).
    + repeat (constructor; [reflexivity|]). constructor.
    + split; [exact A|]. specialize (B 1 ltac:(cbn; tauto)). lia.
Qed.
Print Assumptions C70_format_time.

Example C70_format_time_case :
  format_time 1 93784 = text "1 day 2 hours 3 minutes 4 seconds"
  /\ format_time 10 1234567 = text "1 day 10 hours 17 minutes 36 seconds".
Proof. split; reflexivity. Qed.

(** A whole second can be lost even if the duration is a number of seconds. *)
Theorem C70_exact_refuted : exists ticks, 0 <= ticks
  /\ forall l, duration (format_time 1 ticks) l -> seconds l <> ticks.
Proof.
  exists 1. split; [lia|]. change (format_time 1 1) with (@nil char).
  assert (G : forall s l, duration s l -> s = [] -> seconds l <> 1).
  { intros s l D. destruct D as [|ds n w u|ds n w u t p l]; intros E.
    - discriminate.
    - destruct ds; discriminate.
    - destruct ds; discriminate. }
  intros l D. exact (G _ _ D eq_refl).
Qed.
Print Assumptions C70_exact_refuted.

(** The numbers can be as large as the bounds of [proper]: a unit can be full
    instead of becoming one of the next. *)
Example C70_bounds_reached :
  format_time 1 60 = text "60 seconds" /\ format_time 1 61 = text "1 minute"
  /\ format_time 1 3600 = text "60 minutes" /\ format_time 1 86400 = text "24 hours"
  /\ format_time 1 604800 = text "7 days".
Proof. repeat split; reflexivity. Qed.
