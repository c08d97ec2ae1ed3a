(** What is generated from the templates of the benchmarks (C80) and what is
    plotted for them (C81). *)

From Coq Require Import ZArith List Bool Lia Permutation.
From Verif Require Import Base Messages Benchmark Generate Spec SpecBenchmark SpecGenerate BenchmarkRun SpecBenchRun
  Proofs_BenchRun.
Import ListNotations.
Open Scope Z_scope.

(** ** C80: the comments of a template *)

(** The template is read the way its comments say, the first line of each kind
    counting; otherwise one of the readings fails. *)
Theorem C80_headings : forall t h, says (t_content t) h <->
  t_range t = Some (h_numbers h)
  /\ t_modes t = Some (map (fun w => match w with Macro => Bmp | Manual => Man end) (h_ways h))
  /\ t_property t (text "x_axis_label") = Some (h_label h)
  /\ t_property t (text "desc") = Some (h_desc h).
Proof. exact reading. Qed.
Print Assumptions C80_headings.

(** The templates are the files ending in [.cpp], each under its own name. *)
Theorem C80_templates : forall src t,
  (In t (templates_in src) <-> In (t_name t ++ text ".cpp", t_content t) src)
  /\ (NoDup (map fst src) -> NoDup (map t_name (templates_in src))).
Proof. intros src t. split; [apply templates_of_directory | apply template_names]. Qed.
Print Assumptions C80_templates.

Example C80_templates_case :
  map t_name (templates_in [(text "a.cpp", text "x"); (text "README", text "y"); (text "b.cpp.cpp", [])])
  = [text "a"; text "b.cpp"].
Proof. vm_compute. reflexivity. Qed.

(** At most one heading *)
Theorem C80_one_heading : forall content h h', says content h -> says content h' -> h = h'.
Proof. exact says_unique. Qed.
Print Assumptions C80_one_heading.

(** Exactly the templates with a heading can be used, whatever the files written
    before. *)
Theorem C80_generates : forall inst t out,
  (exists out', generate_template inst t out = Some out') <-> exists h, says (t_content t) h.
Proof. exact generates_iff. Qed.
Print Assumptions C80_generates.

(** A line cannot be read in two ways. *)
Theorem C80_lines : forall l,
  (forall r r', range_line l r -> range_line l r' -> r = r')
  /\ (forall v v', property_line (text "modes") l v -> property_line (text "modes") l v' -> v = v').
Proof.
  intros l. split.
  - intros r r' H H'. apply match_range_iff in H, H'. congruence.
  - intros v v' H H'. apply match_property_iff in H, H'; try (cbn; unfold blank_char; intros [|]; discriminate). congruence.
Qed.
Print Assumptions C80_lines.

Definition line_end : str := [10].
(** src/number.cpp, with a shorter range *)
Definition number_template : template :=
  {| t_name := text "number";
     t_content := text "// Copyright" ++ line_end ++ line_end ++ text "// n in [0..7), step 2" ++ [13; 10]
       ++ text "// x_axis_label: Number of strings" ++ line_end
       ++ text "//desc:Increasing number of strings" ++ line_end
       ++ text "   // modes:  BOOST_METAPARSE_STRING,  manual" ++ line_end ++ text "// n in [5..6), step 1" |}.
Definition number_heading : heading :=
  {| h_numbers := [0; 2; 4; 6]; h_ways := [Macro; Manual];
     h_label := text "Number of strings"; h_desc := text "Increasing number of strings" |}.
Example C80_number : says (t_content number_template) number_heading.
Proof. apply (proj2 (C80_headings number_template number_heading)). repeat split; vm_compute; reflexivity. Qed.

(** A range without a step, or with the step 0, is not usable. *)
Example C80_no_range : forall h,
  ~ says (text "// n in [0..7)" ++ line_end ++ text "// modes: manual" ++ line_end ++ text "// x_axis_label: a" ++ line_end ++ text "// desc: b") h
  /\ ~ says (text "// n in [0..7), step 0" ++ line_end ++ text "// modes: manual" ++ line_end ++ text "// x_axis_label: a" ++ line_end ++ text "// desc: b") h.
Proof.
  intros h. split; intros S.
  - apply (C80_headings {| t_name := []; t_content := _ |} h) in S as (R & _). vm_compute in R. discriminate R.
  - apply (C80_headings {| t_name := []; t_content := _ |} h) in S as (R & _). vm_compute in R. discriminate R.
Qed.

(** ** C81: the files and the diagrams *)

(** Templates with different names and with a heading *)
Definition templates (ths : list (template * heading)) : Prop :=
  NoDup (map (fun th => t_name (fst th)) ths)
  /\ Forall (fun th => says (t_content (fst th)) (snd th) /\ NoDup (h_ways (snd th))) ths.

Definition confusable (ths : list (template * heading)) : Prop :=
  exists th, In th ths /\ ~ plain_name (t_name (fst th)).

(** Every template gets a file for every number and way, nothing is written twice,
    and the configurations list the files. *)
Theorem C81_generated : forall inst ths, templates ths ->
  exists out, generate_main inst (map fst ths) [] = Some out
  /\ map fst out = flat_map (fun th => source_files (t_name (fst th)) (snd th) ++ [t_name (fst th) ++ text ".json"]) ths
  /\ NoDup (map fst out)
  /\ (forall t h n w, In (t, h) ths -> In n (h_numbers h) -> In w (h_ways h) ->
       exists c, dict_get (source_file (t_name t) n (way_id w)) out = Some (Source c)
         /\ convert_from (match w with Macro => Bmp | Manual => Man end) (inst (t_name t) n) = Some c)
  /\ (forall t h, In (t, h) ths ->
       exists c, dict_get (t_name t ++ text ".json") out = Some (Config c)
         /\ c_name c = t_name t /\ c_label c = h_label h /\ c_desc c = h_desc h
         /\ c_modes c = map (fun w => (way_id w, way_description w)) (h_ways h)
         /\ c_files c = map (fun n => (print_number n,
              map (fun w => (way_id w, source_file (t_name t) n (way_id w))) (h_ways h))) (h_numbers h)).
Proof.
  intros inst ths (N & F). destruct (generated inst ths N F) as (G & ND). exists (flat_map (template_files inst) ths).
  split; [exact G|]. split; [apply all_keys|]. split; [exact ND|]. split.
  - intros t h n w I J K. exists (converted (mode_of w) (inst (t_name t) n)). split; [|apply converts].
    apply get_in; [exact ND|]. apply in_flat_map. exists (t, h). split; [exact I|]. apply in_or_app. left.
    apply in_flat_map. exists n. split; [exact J|]. apply in_map_iff. exists w. auto.
  - intros t h I. exists (the_config t h). split; [|repeat split].
    apply get_in; [exact ND|]. apply in_flat_map. exists (t, h). split; [exact I|]. apply in_or_app. right. left. reflexivity.
Qed.
Print Assumptions C81_generated.

Lemma same_refl : forall c, same_config c c.
Proof.
  intros c. split; [|repeat split; reflexivity]. exists (c_files c). split; [reflexivity|].
  induction (c_files c); constructor; auto.
Qed.

Lemma not_confusable : forall ths, templates ths -> ~ confusable ths -> NoDup (names ths) /\ Forall well_headed ths
  /\ (forall th, In th ths -> ~ ~ plain_name (t_name (fst th))).
Proof.
  intros ths (N & F) C. split; [exact N|]. split; [exact F|]. intros th I X. apply C. exists th. auto.
Qed.

Lemma plain_dec : forall name, {plain_name name} + {~ plain_name name}.
Proof.
  intros name. unfold plain_name. destruct (contains (text "bmp") name) eqn:B; [right; intros (X & _); apply X, Proofs_Snippets.contains_iff; exact B|].
  destruct (contains (text "slt") name) eqn:S; [right; intros (_ & X); apply X, Proofs_Snippets.contains_iff; exact S|].
  left. split; apply contains_false; assumption.
Qed.

Lemma all_headed : forall ths, templates ths -> ~ confusable ths -> Forall headed ths.
Proof.
  intros ths T C. apply not_confusable in C as (_ & F & P); auto. rewrite Forall_forall in *. intros th I. split; [apply F; exact I|].
  destruct (plain_dec (t_name (fst th))) as [D|D]; [exact D|]. exfalso. exact (P th I D).
Qed.

(** With string literal templates: whatever the order of the files and of the
    entries of the configurations, every diagram has the measured curves, the
    numbers ascending, and an additional curve for the macro. *)
Theorem C81_plotted_with : forall inst run m m' ths out files,
  (forall f, run f false = Some (m f)) -> (forall f, run f true = Some (m' f)) ->
  templates ths -> ~ confusable ths -> Forall (fun th => h_numbers (snd th) <> []) ths ->
  generate_main inst (map fst ths) [] = Some out -> Permutation (cpp_files out) files ->
  exists b cs, benchmark run files = Some b /\ configs_in out = Some cs
  /\ progress (length files) (Z.of_nat (length (b_result b))) (b_printed b)
  /\ Forall2 (fun th c => c_label c = h_label (snd th) /\ c_desc c = h_desc (snd th) /\ c_name c = t_name (fst th) /\
       forall c', same_config c c' -> exists curves, plotted c' (b_result b) = Some curves
         /\ Permutation (curves_with m m' (t_name (fst th)) (snd th)) curves) ths cs.
Proof.
  intros inst run m m' ths out files R R' T C Ne G P. pose proof (all_headed _ T C) as H. destruct T as (N & F).
  destruct (generated inst ths N F) as (G' & _). rewrite G in G'. injection G' as ->. rewrite cpp_files_of in P.
  destruct (plot_with run m m' ths files R R' N H Ne P) as (b & E & Fi & Pl). exists b. eexists. split; [exact E|].
  split; [apply configs_of|]. split; [exact Fi|]. clear - Pl H.
  assert (X : forall th, In th ths -> forall c', same_config (the_config (fst th) (snd th)) c' -> exists curves, plotted c' (b_result b) = Some curves
         /\ Permutation (curves_with m m' (t_name (fst th)) (snd th)) curves).
  { intros (t & h) I c' S. cbn [fst snd] in *. rewrite Forall_forall in H. rewrite curves_with_is by apply (H _ I). apply (Pl t h c' I S). }
  clear Pl H. induction ths as [|th ths IH]; constructor.
  - repeat split; try reflexivity. apply X. left. reflexivity.
  - apply IH. intros th' I. apply X. right. exact I.
Qed.
Print Assumptions C81_plotted_with.

(** Without: exactly the curves of the ways *)
Theorem C81_plotted_without : forall inst run m ths out files,
  (forall f, run f false = Some (m f)) -> (forall f, run f true = None) ->
  templates ths -> ~ confusable ths ->
  generate_main inst (map fst ths) [] = Some out -> Permutation (cpp_files out) files ->
  exists b cs, benchmark run files = Some b /\ configs_in out = Some cs
  /\ progress (length files) (Z.of_nat (length (b_result b))) (b_printed b)
  /\ Forall2 (fun th c => c_label c = h_label (snd th) /\ c_desc c = h_desc (snd th) /\ c_name c = t_name (fst th) /\
       forall c', same_config c c' -> exists curves, plotted c' (b_result b) = Some curves
         /\ Permutation (map (way_curve m (t_name (fst th)) (snd th)) (h_ways (snd th))) curves) ths cs.
Proof.
  intros inst run m ths out files R R' T C G P. pose proof (all_headed _ T C) as H. destruct T as (N & F).
  destruct (generated inst ths N F) as (G' & _). rewrite G in G'. injection G' as ->. rewrite cpp_files_of in P.
  destruct (plot_without run m ths files R R' N H P) as (b & E & Fi & Pl). exists b. eexists. split; [exact E|].
  split; [apply configs_of|]. split; [exact Fi|]. clear - Pl. induction ths as [|(t & h) ths IH]; constructor.
  - cbn [fst snd]. repeat split; try reflexivity. intros c' S. apply (Pl t h c' (or_introl eq_refl) S).
  - apply IH. intros t' h' c' I. apply Pl. right. exact I.
Qed.
Print Assumptions C81_plotted_without.

(** Measurements for the examples *)
Definition some_time (f : str) : Z := Z.of_nat (length f).
Definition with_literals (f : str) (l : bool) : option Z := Some (if l then 100 else some_time f).

Definition single : list (template * heading) := [(number_template, number_heading)].
Example C81_single : templates single /\ ~ confusable single /\ Forall (fun th => h_numbers (snd th) <> []) single.
Proof.
  split; [|split].
  - split; [repeat constructor; intros []|]. constructor; [|constructor]. split; [exact C80_number|].
    repeat constructor; cbn; [intros [E|[]]; discriminate E | intros []].
  - intros (th & [<-|[]] & X). apply X. split; apply contains_false; vm_compute; reflexivity.
  - constructor; [discriminate | constructor].
Qed.

Definition piped (ts : list template) (run : str -> bool -> option Z) : option (list (option (list curve)) * list (Z * Z)) :=
  bind (generate_main (fun _ _ => []) ts []) (fun out =>
  bind (benchmark run (cpp_files out)) (fun b =>
  bind (configs_in out) (fun cs => Some (map (fun c => plotted c (b_result b)) cs, b_printed b)))).

Example C81_run : piped [number_template] with_literals = Some
  ([Some [(text "Using BOOST_METAPARSE_STRING", [(0, 16); (2, 16); (4, 16); (6, 16)]);
          (text "Generating strings manually", [(0, 16); (2, 16); (4, 16); (6, 16)]);
          (text "Using BOOST_METAPARSE_STRING with string literal templates", [(0, 100); (2, 100); (4, 100); (6, 100)])]],
   [(2, 12); (3, 12); (5, 12); (6, 12); (8, 12); (9, 12); (11, 12); (12, 12)]).
Proof. vm_compute. reflexivity. Qed.

(** When string literal templates work for the first file only, plotting fails,
    and more is done than there was to do. *)
Definition first_only (f : str) (l : bool) : option Z :=
  if l then (if contains (text "_0_") f then Some 100 else None) else Some (some_time f).
Theorem C81_flaky_refuted : exists run ts, (forall f, run f false <> None)
  /\ piped ts run = Some ([None], [(2, 12); (3, 12); (4, 8); (5, 8); (6, 8); (7, 8); (8, 8); (9, 8)]).
Proof.
  exists first_only, [number_template]. split; [intros f; discriminate | vm_compute; reflexivity].
Qed.
Print Assumptions C81_flaky_refuted.

(** A range without numbers: plotting fails when another template has string
    literals. *)
Definition plain_template (name range : str) : template :=
  {| t_name := name;
     t_content := text "// n in [" ++ range ++ text "), step 1" ++ line_end ++ text "// x_axis_label: n" ++ line_end
       ++ text "// desc: d" ++ line_end ++ text "// modes: BOOST_METAPARSE_STRING, manual" |}.
Theorem C81_empty_refuted : exists t, (exists h, says (t_content t) h /\ NoDup (h_ways h))
  /\ exists p, piped [number_template; t] with_literals = Some ([Some p; None], [(2, 12); (3, 12); (5, 12); (6, 12); (8, 12); (9, 12); (11, 12); (12, 12)]).
Proof.
  exists (plain_template (text "none") (text "4..4")). split.
  - exists {| h_numbers := []; h_ways := [Macro; Manual]; h_label := text "n"; h_desc := text "d" |}. split.
    + apply (proj2 (C80_headings (plain_template (text "none") (text "4..4")) _)). repeat split; vm_compute; reflexivity.
    + repeat constructor; cbn; [intros [E|[]]; discriminate E | intros []].
  - exists [(text "Using BOOST_METAPARSE_STRING", [(0, 16); (2, 16); (4, 16); (6, 16)]);
            (text "Generating strings manually", [(0, 16); (2, 16); (4, 16); (6, 16)]);
            (literal_legend, [(0, 100); (2, 100); (4, 100); (6, 100)])].
    vm_compute. reflexivity.
Qed.
Print Assumptions C81_empty_refuted.

(** The names matter.  A name with [slt] in it: plotting fails without string
    literal templates.  Names that differ by [bmp] and [slt] only: the diagrams
    show measurements of other files. *)
Definition no_literals (f : str) (l : bool) : option Z := if l then None else Some (some_time f).
Definition macro_legend : str := text "Using BOOST_METAPARSE_STRING".
Definition manual_legend : str := text "Generating strings manually".
Theorem C81_names_refuted :
  piped [plain_template (text "slt") (text "1..2")] no_literals = Some ([None], [(1, 2); (2, 2)])
  /\ piped [plain_template (text "slt") (text "1..2"); plain_template (text "bmp") (text "1..2")] with_literals
     = Some ([Some [(macro_legend, [(1, some_time (text "slt_1_bmp.cpp"))]); (manual_legend, [(1, 100)]); (literal_legend, [(1, 100)])];
              Some [(macro_legend, [(1, some_time (text "bmp_1_bmp.cpp"))]);
                    (manual_legend, [(1, some_time (text "bmp_1_man.cpp"))]); (literal_legend, [(1, 100)])]],
             [(2, 7); (3, 7); (4, 7); (5, 7)]).
Proof. split; vm_compute; reflexivity. Qed.
Print Assumptions C81_names_refuted.
