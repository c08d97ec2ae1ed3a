(** Proofs about the headers of a whole guide and about the pages with what was defined
    before each section. *)

From Coq Require Import ZArith List Bool Lia.
From Verif Require Import Base Messages Spec Benchmark SpecBenchmark Proofs_Benchmark
  Properties_Messages Generate SpecGenerate Proofs_Generate.
Import ListNotations.
Open Scope Z_scope.

Ltac slia := unfold str, char in *; lia.

(** ** Names of sections *)

Lemma earlier_irrefl : forall a, ~ earlier a a.
Proof.
  induction a as [|x a IH]; intro H; inversion H; subst; [lia|auto].
Qed.

Lemma in_order_nodup : forall ns, in_order ns -> NoDup ns.
Proof.
  intros ns H. induction H as [|n ns F H IH]; constructor; auto.
  intro I. rewrite Forall_forall in F. exact (earlier_irrefl _ (F n I)).
Qed.

Lemma names_nodup : forall ns, NoDup ns -> Forall number_ok ns -> NoDup (map name ns).
Proof.
  intros ns H. induction H as [|n ns N H IH]; intro F; [constructor|].
  inversion F as [|? ? O F']; subst. cbn [map]. constructor; auto.
  intro I. apply in_map_iff in I as (m & E & M). apply N.
  rewrite Forall_forall in F'. rewrite <- (name_inj m n (F' m M) O E). exact M.
Qed.

Definition name_char (c : char) : Prop := digit_char c \/ c = 95.

Lemma separated_all : forall (P : char -> Prop) sep ws, Forall P sep ->
  Forall (Forall P) ws -> Forall P (separated sep ws).
Proof.
  intros P sep ws S F. induction F as [|w ws W F IH]; [constructor|].
  destruct ws as [|v ws]; [exact W|].
  change (separated sep (w :: v :: ws)) with (w ++ sep ++ separated sep (v :: ws)).
  apply Forall_app. split; [exact W|]. apply Forall_app. split; [exact S|exact IH].
Qed.

Lemma name_chars : forall n, number_ok n -> Forall name_char (name n).
Proof.
  intros n (P & _). unfold name. apply separated_all.
  - constructor; [now right|constructor].
  - apply Forall_forall. intros w W. apply in_map_iff in W as (k & <- & K).
    rewrite Forall_forall in P. eapply Forall_impl; [|exact (proj1 (print_digits k (P k K)))].
    intros c C. now left.
Qed.

Lemma name_name_ok : forall n, number_ok n -> name_ok (name n).
Proof.
  intros n O. pose proof (name_chars n O) as F. unfold name_ok. splits.
  - eapply Forall_impl; [|exact F]. intros c [C|C]; unfold digit_char in *; slia.
  - apply name_not_nil. exact O.
  - intro I. rewrite Forall_forall in F. apply F in I. destruct I as [I|I];
      unfold digit_char in *; slia.
Qed.

(** ** The commands of a guide *)

Lemma guide_commands : forall g, forallb good_block g = true ->
  Forall (fun c => forallb one_line (pieces c) = true) (commands g).
Proof.
  intros g H. apply Forall_forall. intros c I. unfold commands in I.
  apply in_concat in I as (l & L & I). apply in_map_iff in L as (b & <- & B).
  rewrite forallb_forall in H. apply H in B.
  assert (G : forall c, good_command c = true -> forallb one_line (pieces c) = true).
  { intros d D. unfold good_command in D. apply andb_true_iff in D as (D & _).
    apply andb_true_iff in D as (D & _). exact D. }
  destruct b as [ | |d items| ]; cbn in I; try contradiction.
  cbn in B. apply andb_true_iff in B as (B1 & B2).
  destruct I as [<-|I]; [apply G; exact B1|].
  unfold items_commands in I. apply in_concat in I as (l & L & I).
  apply in_map_iff in L as (i & <- & J). rewrite forallb_forall in B2. apply B2 in J.
  destruct i as [e|]; cbn in I; [|contradiction]. destruct I as [<-|[]]. apply G. exact J.
Qed.

Lemma plain_commands : forall g, good_guide g ->
  forallb plain_definition (commands g) = true -> good_commands (commands g).
Proof.
  intros g (G & _) P. apply guide_commands in G. unfold good_commands.
  rewrite Forall_forall in *. intros c C. split; [exact (G c C)|].
  apply plain_stored. rewrite forallb_forall in P. exact (P c C).
Qed.

Lemma tagged_snd : forall g s, map snd (tagged_commands s g) = commands g.
Proof.
  induction g as [|b g IH]; intro s; [reflexivity|]. unfold commands in *.
  cbn [tagged_commands map concat]. rewrite map_app, map_map, IH. cbn [snd].
  rewrite map_id. reflexivity.
Qed.

Lemma section_in : forall t l c, In c (section_commands t l) -> In c (map snd l).
Proof.
  intros t l c H. unfold section_commands in H. apply in_map_iff in H as (d & <- & D).
  apply filter_In in D as (D & _). apply in_map. exact D.
Qed.

Lemma numbers_app : forall a b, numbers (a ++ b) = numbers a ++ numbers b.
Proof. intros. unfold numbers. rewrite map_app, concat_app. reflexivity. Qed.

Lemma commands_app : forall a b, commands (a ++ b) = commands a ++ commands b.
Proof. intros. unfold commands. rewrite map_app, concat_app. reflexivity. Qed.

Lemma numbers_heading : forall n title g, numbers (Heading n title :: g) = n :: numbers g.
Proof. reflexivity. Qed.

(** ** The headers of a guide *)

Definition all_names (g : list block) : list str := map name (numbers g).

Lemma sections_nodup : forall g, good_guide g -> in_order (numbers g) ->
  NoDup ([] :: all_names g).
Proof.
  intros g (G & _) O. apply guide_numbers in G. constructor.
  - intro I. apply in_map_iff in I as (n & E & N). rewrite Forall_forall in G.
    exact (name_not_nil n (G n N) E).
  - apply names_nodup; auto. apply in_order_nodup. exact O.
Qed.

Lemma guide_headers : forall g, good_guide g -> in_order (numbers g) ->
  gen_headers (all_names g) (tagged [] g) = headers [] (all_names g) (tagged [] g).
Proof.
  intros g G O. pose proof (sections_nodup g G O) as N. inversion N; subst.
  unfold gen_headers. rewrite gen_headers_list; auto.
Qed.

Theorem headers_of_guide : forall g, good_guide g -> in_order (numbers g) ->
  forallb plain_definition (commands g) = true ->
  forall before n title after D, g = before ++ Heading n title :: after ->
  (forall k, In k (numbers g) -> ~ In (guard k) D) ->
  exists t D', In (header_file n, t) (gen_headers (all_names g) (tagged [] g))
    /\ preprocess (gen_headers (all_names g) (tagged [] g)) D (source_lines t) D'
         (source_of (in_metashell D) (commands before))
    /\ preprocess (gen_headers (all_names g) (tagged [] g)) D' (source_lines t) D' [].
Proof.
  intros g G O P before n title after D E GD.
  pose proof (sections_nodup g G O) as N.
  pose proof (guide_numbers g (proj1 G)) as OK.
  rewrite (guide_headers g G O). set (fs := headers [] (all_names g) (tagged [] g)).
  set (cmds := fun t => section_commands t (tagged_commands [] g)).
  assert (C1 : forall t, defs_of t (tagged [] g) = map def_text (cmds t)).
  { intro t. rewrite tagged_tagged. apply defs_of_commands. }
  assert (C2 : forall t, good_commands (cmds t)).
  { intro t. pose proof (plain_commands g G P) as F. unfold good_commands in *.
    rewrite Forall_forall in *. intros c C. apply F. rewrite <- (tagged_snd g []).
    eapply section_in. exact C. }
  assert (A : all_names g = all_names before ++ name n :: all_names after).
  { unfold all_names. rewrite E, numbers_app, numbers_heading, map_app. reflexivity. }
  assert (NO : Forall name_ok (all_names g)).
  { apply Forall_forall. intros s S. apply in_map_iff in S as (k & <- & K).
    apply name_name_ok. rewrite Forall_forall in OK. auto. }
  assert (W : all_names before ++ name n :: all_names after
              = (all_names before ++ [name n]) ++ all_names after)
    by (rewrite <- app_assoc; reflexivity).
  destruct (header_pp fs (tagged [] g) cmds C1 C2 (all_names before) (name n) D)
    as (gs & F & I & R).
  - intros a t b X. unfold fs. rewrite A, W, X, <- app_assoc. apply headers_in.
  - inversion N as [|? ? _ N']; subst. rewrite A, W in N'.
    clear - N'. induction (all_names before ++ [name n]) as [|x l IH]; [constructor|].
    inversion N' as [|? ? M N]; subst. constructor; [|apply IH; exact N].
    intro J. apply M. apply in_or_app. now left.
  - rewrite A, W in NO. apply Forall_app in NO as (NO & _). exact NO.
  - intros t T. assert (T' : In t (all_names g)).
    { rewrite A, W. apply in_or_app. now left. }
    apply in_map_iff in T' as (k & <- & K). exact (GD k K).
  - assert (K : In (header_name (name n), header_text (name n) (last (all_names before) []) (tagged [] g)) fs).
    { unfold fs. rewrite A. apply headers_in. }
    eexists. exists (gs ++ D). split; [exact K|]. split.
    + replace (commands before) with (concat (map cmds ([] :: all_names before))); [exact R|].
      unfold cmds. rewrite E in *. apply (commands_before before n title after). exact N.
    + rewrite A in NO. apply Forall_app in NO as (NB & NN). inversion NN as [|? ? (S & _) _]; subst.
      apply (header_again fs (tagged [] _) cmds C1 C2).
      * exact S.
      * destruct (all_names before) as [|x l] using rev_ind; [constructor|].
        rewrite last_last. apply Forall_app in NB as (_ & NB). inversion NB as [|? ? (X & _) _]. exact X.
      * apply in_or_app. now left.
Qed.

Lemma headers_distinct : forall g, good_guide g -> in_order (numbers g) ->
  map fst (gen_headers (all_names g) (tagged [] g)) = map header_file (numbers g)
  /\ NoDup (map fst (gen_headers (all_names g) (tagged [] g))).
Proof.
  intros g G O. rewrite (guide_headers g G O), headers_names. split.
  - unfold all_names. rewrite map_map. reflexivity.
  - pose proof (sections_nodup g G O) as N. inversion N as [|? ? _ N']; subst.
    clear - N'. induction N' as [|x l M N IH]; [constructor|]. cbn [map]. constructor; auto.
    intro I. apply in_map_iff in I as (y & E & Y). apply header_name_inj in E. subst. auto.
Qed.

(** ** The pages *)

Definition page_name (s : str) : str := text "before_" ++ s ++ text ".qbk".

Fixpoint pages (so_far : str) (sections : list str) (defs : list (str * str)) : files :=
  match sections with
  | [] => []
  | s :: r =>
      match so_far with [] => [] | _ => [(page_name s, before_text s so_far)] end
      ++ pages (so_far ++ snippets_of s defs) r defs
  end.
Fixpoint paged (so_far : str) (sections : list str) (defs : list (str * str)) : list str :=
  match sections with
  | [] => []
  | s :: r =>
      match so_far with [] => [] | _ => [s] end
      ++ paged (so_far ++ snippets_of s defs) r defs
  end.

Lemma page_name_inj : forall a b, page_name a = page_name b -> a = b.
Proof. intros a b H. apply app_inv_head, app_inv_tail in H. exact H. Qed.

Lemma docs_before_list : forall sections so_far defs fs wd,
  NoDup sections -> (forall s, In s sections -> ~ In (page_name s) (map fst fs)) ->
  docs_before so_far sections defs fs wd
  = (fs ++ pages so_far sections defs, wd ++ paged so_far sections defs).
Proof.
  induction sections as [|s sections IH]; intros so_far defs fs wd N F.
  - cbn. rewrite !app_nil_r. reflexivity.
  - cbn [docs_before pages paged]. inversion N as [|? ? NI N']; subst.
    destruct so_far as [|c so_far].
    + cbn [app]. apply IH; auto. intros t T. apply F. now right.
    + generalize dependent (c :: so_far). intro so.
      change (literal "before_" ++ s ++ literal ".qbk") with (page_name s).
      rewrite set_new by (apply F; now left). rewrite IH; auto.
      * rewrite <- !app_assoc. reflexivity.
      * intros t T I. rewrite map_app in I. apply in_app_or in I as [I|[I|[]]].
        -- apply (F t); auto. now right.
        -- cbn in I. apply page_name_inj in I. subst. auto.
Qed.

Lemma pages_names : forall sections so_far defs,
  map fst (pages so_far sections defs) = map page_name (paged so_far sections defs).
Proof.
  induction sections as [|s sections IH]; intros so_far defs; [reflexivity|].
  cbn [pages paged]. rewrite !map_app, IH. destruct so_far; reflexivity.
Qed.

Lemma paged_in : forall sections so_far defs s,
  In s (paged so_far sections defs) -> In s sections.
Proof.
  induction sections as [|t sections IH]; intros so_far defs s H; [exact H|].
  cbn [paged] in H. apply in_app_or in H as [H|H].
  - destruct so_far; cbn in H; [contradiction|]. destruct H as [->|[]]. now left.
  - right. eapply IH. exact H.
Qed.

Lemma paged_nodup : forall sections so_far defs, NoDup sections ->
  NoDup (paged so_far sections defs).
Proof.
  induction sections as [|t sections IH]; intros so_far defs N; [constructor|].
  inversion N as [|? ? M N']; subst. cbn [paged].
  destruct so_far; cbn [app]; [apply IH; exact N'|].
  constructor; [|apply IH; exact N']. intro I. apply M. eapply paged_in. exact I.
Qed.

Lemma pages_split : forall pre post so_far defs,
  pages so_far (pre ++ post) defs
  = pages so_far pre defs
    ++ pages (so_far ++ concat (map (fun s => snippets_of s defs) pre)) post defs.
Proof.
  induction pre as [|s pre IH]; intros post so_far defs.
  - cbn. rewrite app_nil_r. reflexivity.
  - cbn [app pages map concat]. rewrite IH, <- !app_assoc. reflexivity.
Qed.

Lemma paged_split : forall pre post so_far defs,
  paged so_far (pre ++ post) defs
  = paged so_far pre defs
    ++ paged (so_far ++ concat (map (fun s => snippets_of s defs) pre)) post defs.
Proof.
  induction pre as [|s pre IH]; intros post so_far defs.
  - cbn. rewrite app_nil_r. reflexivity.
  - cbn [app paged map concat]. rewrite IH, <- !app_assoc. reflexivity.
Qed.

(** The page of a section *)
Lemma page_here : forall pre s post defs, NoDup (pre ++ s :: post) ->
  let so_far := concat (map (fun t => snippets_of t defs) pre) in
  (so_far = [] -> ~ In s (paged [] (pre ++ s :: post) defs))
  /\ (so_far <> [] -> In (page_name s, before_text s so_far) (pages [] (pre ++ s :: post) defs)
                     /\ In s (paged [] (pre ++ s :: post) defs)).
Proof.
  intros pre s post defs N so_far. rewrite pages_split, paged_split. cbn [app]. fold so_far. split.
  - intros -> I. apply in_app_or in I as [I|I].
    + apply paged_in in I. apply NoDup_remove_2 in N. apply N. apply in_or_app. now left.
    + cbn [paged app] in I. apply paged_in in I. apply NoDup_remove_2 in N.
      apply N. apply in_or_app. now right.
  - intro Z. cbn [pages paged]. destruct so_far as [|c so]; [congruence|].
    split; apply in_or_app; right; now left.
Qed.

(** ** What is shown *)

Definition shown (t : str) : list str := filter visible (map trim (lines_of t)).
Definition indented (l : str) : Prop := l = [] \/ begins (text "  ") l = true.

Lemma shown_app : forall a b, shown (a ++ 10 :: b) = shown a ++ shown b.
Proof. intros. unfold shown. rewrite lines_newline, map_app, filter_app. reflexivity. Qed.

Lemma shown_nl : forall a, shown (a ++ nl) = shown a.
Proof. intro a. etransitivity; [apply (shown_app a [])|]. apply app_nil_r. Qed.

Lemma snippet_lines : forall x,
  lines_of (make_code_snippet x) = map (fun l => text "  " ++ l) (lines_of x).
Proof. intro x. apply prefix_lines_lines. repeat constructor; discriminate. Qed.

Lemma snippet_shown : forall x, shown (make_code_snippet x) = shown x.
Proof.
  intro x. unfold shown. rewrite snippet_lines, map_map. apply (f_equal (filter visible)). apply map_ext. intro l.
  apply trim_white_begin. repeat constructor.
Qed.

Lemma snippet_indented : forall x, Forall indented (lines_of (make_code_snippet x)).
Proof.
  intro x. rewrite snippet_lines. apply Forall_forall. intros l L.
  apply in_map_iff in L as (k & <- & _). right. reflexivity.
Qed.

(** A text of whole lines *)
Definition whole (t : str) : Prop := t = [] \/ exists a, t = a ++ nl.

Lemma whole_app : forall a b, whole a -> whole b -> whole (a ++ b).
Proof.
  intros a b A [->|(x & ->)].
  - rewrite app_nil_r. exact A.
  - right. exists (a ++ x). rewrite <- app_assoc. reflexivity.
Qed.

Lemma whole_shown : forall a b, whole a -> shown (a ++ b) = shown a ++ shown b.
Proof.
  intros a b [->|(x & ->)]; [reflexivity|]. rewrite <- app_assoc. cbn [app nl].
  rewrite shown_app, shown_nl. reflexivity.
Qed.

Lemma whole_indented : forall a b, whole a -> Forall indented (lines_of a) ->
  Forall indented (lines_of b) -> Forall indented (lines_of (a ++ b)).
Proof.
  intros a b [->|(x & ->)] A B; [exact B|]. rewrite <- app_assoc. cbn [app nl].
  unfold nl in A. rewrite lines_newline in *. apply Forall_app in A as (A & _).
  apply Forall_app. auto.
Qed.

Definition piece_text (d : str) : str := make_code_snippet (remove_metashell_protection d) ++ nl.

Lemma join_pieces : forall ds,
  let t := join nl (map piece_text ds) in
  whole t /\ shown t = concat (map (fun d => shown (remove_metashell_protection d)) ds)
  /\ Forall indented (lines_of t) /\ (t = [] <-> ds = []).
Proof.
  intros ds. cbv zeta. induction ds as [|d ds IH].
  - cbn. splits; try tauto; [left; reflexivity|]. constructor; [left; reflexivity|constructor].
  - assert (W : whole (piece_text d)) by (right; eexists; reflexivity).
    assert (H : shown (piece_text d) = shown (remove_metashell_protection d)).
    { unfold piece_text. rewrite shown_nl. apply snippet_shown. }
    assert (F : Forall indented (lines_of (piece_text d))).
    { unfold piece_text, nl. rewrite lines_newline. apply Forall_app.
      split; [apply snippet_indented|]. constructor; [left; reflexivity|constructor]. }
    assert (NE : forall r : str, piece_text d ++ r <> []).
    { intros r X. apply app_eq_nil in X as (X & _). apply app_eq_nil in X as (_ & X). discriminate. }
    destruct IH as (I1 & I2 & I3 & I4). destruct ds as [|e ds].
    + cbn [map join concat]. rewrite app_nil_r. splits; auto.
      split; [|discriminate]. intro X. exfalso. apply (NE []). rewrite app_nil_r. exact X.
    + cbn [map join] in *. set (r := join nl (piece_text e :: map piece_text ds)) in *.
      assert (W1 : whole nl) by (right; exists []; reflexivity).
      splits.
      * apply whole_app; auto. apply whole_app; auto.
      * rewrite whole_shown, H by exact W. cbn [map concat] in *. f_equal.
        rewrite whole_shown by exact W1. exact I2.
      * apply whole_indented; auto. apply whole_indented; auto.
        constructor; [left; reflexivity|]. constructor; [left; reflexivity|constructor].
      * split; [|discriminate]. intro X. exfalso. exact (NE _ X).
Qed.

(** ** What a command adds *)

Lemma skipn_app_exact : forall (a b : str), skipn (length a) (a ++ b) = b.
Proof. intros. rewrite skipn_app, skipn_all, Nat.sub_diag. reflexivity. Qed.

Lemma remove_protected : forall l,
  remove_metashell_protection
    (literal "#ifdef __METASHELL" ++ nl ++ l ++ nl ++ literal "#endif") = l ++ nl.
Proof.
  intro l. unfold remove_metashell_protection.
  set (p := literal "#ifdef __METASHELL" ++ nl). set (q := literal "#endif").
  replace (literal "#ifdef __METASHELL" ++ nl ++ l ++ nl ++ q) with (p ++ (l ++ nl) ++ q)
    by (unfold p; rewrite <- !app_assoc; reflexivity).
  rewrite starts_app.
  assert (E : ends q (p ++ (l ++ nl) ++ q) = true).
  { unfold ends. rewrite app_assoc, rev_app_distr. apply starts_app. }
  rewrite E. cbn [andb].
  rewrite app_assoc.
  replace (length ((p ++ l ++ nl) ++ q) - length q)%nat with (length (p ++ l ++ nl))%nat
    by (rewrite (app_length (p ++ l ++ nl) q); lia).
  rewrite firstn_app, firstn_all, Nat.sub_diag. cbn [firstn]. rewrite app_nil_r.
  apply skipn_app_exact.
Qed.

Lemma starts_firsts : forall p q s : str, starts p s = true -> hd 32 p <> hd 32 q ->
  p <> [] -> q <> [] -> starts q s = false.
Proof.
  intros p q s P N NP NQ. apply starts_inv in P as (r & ->).
  destruct p as [|c p]; [congruence|]. destruct q as [|d q]; [congruence|].
  cbn in *. destruct (d =? c) eqn:E; [|reflexivity]. apply Z.eqb_eq in E. congruence.
Qed.

Lemma command_shown : forall c, forallb one_line (pieces c) = true -> stored c ->
  starts (literal "//") (def_text c) = negb (defines c)
  /\ (defines c = true ->
      shown (remove_metashell_protection (def_text c)) = command_source true c
      /\ command_source true c <> []).
Proof.
  intros c H S. pose proof (def_text_cases c H) as T. destruct S as [c D|c D N I|c D N C].
  - rewrite D in *. split; [|discriminate]. rewrite T, query_not_protected.
    unfold query_text. change strip with trim.
    match goal with |- context [literal "// query:" ++ ?r] =>
      destruct (trim_begin (literal "// query:") r eq_refl eq_refl) as (r' & -> & _) end.
    reflexivity.
  - assert (PC : pieces c = [fst c]) by (unfold pieces; rewrite N; reflexivity).
    assert (V : filter visible (map trim (pieces c)) = [trim (fst c)]).
    { rewrite PC. cbn [map filter]. destruct (trim (fst c)); [discriminate I|reflexivity]. }
    assert (SG : filter significant (map trim (pieces c)) = [trim (fst c)]).
    { rewrite PC. cbn [map filter]. unfold significant.
      apply starts_inv in I as (r & ->). reflexivity. }
    assert (SR : strip (raw c) = trim (fst c)).
    { pose proof (raw_glued c H) as G. rewrite V in G.
      destruct (glued_first _ _ G _ _ eq_refl) as [(_ & E)|(E & _)]; [exact E|congruence]. }
    pose proof (glued_lines _ _ (raw_glued c H)) as GL. rewrite V, SR in GL.
    specialize (GL ltac:(discriminate)).
    assert (CS : command_source true c = [trim (fst c)]).
    { unfold command_source. rewrite D. exact SG. }
    rewrite D, SR in T. rewrite CS, D. unfold protect_metashell in T. rewrite T.
    destruct (starts (literal "#include <metashell") (trim (fst c))) eqn:M.
    + split; [reflexivity|]. intros _. split; [|discriminate].
      rewrite remove_protected, shown_nl. unfold shown. rewrite GL. cbn [filter].
      destruct (trim (fst c)); [discriminate I|reflexivity].
    + split; [apply (starts_firsts _ _ _ I); discriminate|]. intros _. split; [|discriminate].
      unfold remove_metashell_protection.
      assert (X : starts (literal "#ifdef __METASHELL" ++ nl) (trim (fst c)) = false).
      { apply starts_inv in I as (r & ->). reflexivity. }
      rewrite X. cbn [andb]. unfold shown. rewrite GL. cbn [filter].
      destruct (trim (fst c)); [discriminate I|reflexivity].
  - assert (NI : starts (literal "#include <metashell") (strip (raw c)) = false)
      by (apply no_directive_first; auto).
    rewrite D in T. unfold protect_metashell in T. rewrite NI in T. rewrite T, D.
    pose proof (raw_glued c H) as G.
    assert (NV : filter visible (map trim (pieces c)) <> []).
    { intro E. unfold defines, one_liner in D. rewrite E in D. discriminate D. }
    assert (SG : filter significant (map trim (pieces c)) = filter visible (map trim (pieces c))).
    { apply filter_ext_in. intros p P. apply in_map_iff in P as (q & <- & Q).
      unfold significant. change (begins (text "//") (trim q)) with (starts (text "//") (trim q)).
      rewrite (C q Q). apply andb_true_r. }
    assert (CS : command_source true c = filter visible (map trim (pieces c))).
    { unfold command_source. rewrite D. exact SG. }
    rewrite CS. split.
    + destruct (filter visible (map trim (pieces c))) as [|p ps] eqn:E; [congruence|].
      assert (I : In p (filter visible (map trim (pieces c)))) by (rewrite E; now left).
      apply filter_In in I as (I & V). apply in_map_iff in I as (q & <- & Q). specialize (C q Q).
      destruct (glued_first _ _ G _ _ eq_refl) as [(_ & ->)|(_ & r & ->)]; [exact C|].
      destruct (trim q) as [|x [|y l]]; [discriminate V| |exact C].
      cbn. destruct x as [|x|x]; try reflexivity. repeat (destruct x; try reflexivity).
    + intros _. split; [|exact NV].
      unfold remove_metashell_protection.
      assert (X : starts (literal "#ifdef __METASHELL" ++ nl) (strip (raw c)) = false)
        by (apply no_directive_first; auto).
      rewrite X. cbn [andb]. unfold shown. rewrite (glued_lines _ _ G NV).
      apply filter_all. intros p P. apply filter_In in P. apply P.
Qed.

(** ** The page of a section of a guide *)

Lemma filter_map_defs : forall cs, good_commands cs ->
  filter (fun d => negb (starts (literal "//") d)) (map def_text cs)
  = map def_text (filter defines cs).
Proof.
  intros cs F. induction F as [|c cs (H & S) F IH]; [reflexivity|]. cbn [map filter].
  rewrite (proj1 (command_shown c H S)), negb_involutive.
  destruct (defines c); cbn [map]; rewrite IH; reflexivity.
Qed.

Lemma source_of_defining : forall cs, source_of true cs = source_of true (filter defines cs).
Proof.
  induction cs as [|c cs IH]; [reflexivity|]. unfold source_of in *. cbn [map concat filter].
  destruct (defines c) eqn:D; cbn [map concat]; rewrite IH; [reflexivity|].
  unfold command_source at 1. rewrite D. reflexivity.
Qed.

Lemma source_none : forall cs, good_commands cs ->
  (source_of true cs = [] <-> filter defines cs = []).
Proof.
  intros cs F. split.
  - induction F as [|c cs (H & S) F IH]; intro E; [reflexivity|].
    unfold source_of in E. cbn [map concat] in E. apply app_eq_nil in E as (E1 & E2).
    cbn [filter]. destruct (defines c) eqn:D; [|apply IH; exact E2].
    exfalso. apply (proj2 (proj2 (command_shown c H S) D)). exact E1.
  - intro E. rewrite source_of_defining, E. reflexivity.
Qed.

Lemma snippets_facts : forall t defs cs, defs_of t defs = map def_text cs -> good_commands cs ->
  whole (snippets_of t defs) /\ shown (snippets_of t defs) = source_of true cs
  /\ Forall indented (lines_of (snippets_of t defs))
  /\ (snippets_of t defs = [] <-> source_of true cs = []).
Proof.
  intros t defs cs E G. unfold snippets_of. rewrite E, filter_map_defs by exact G.
  change (fun d => make_code_snippet (remove_metashell_protection d) ++ nl) with piece_text.
  destruct (join_pieces (map def_text (filter defines cs))) as (A & B & C & D).
  splits; auto.
  - etransitivity; [exact B|]. rewrite map_map, source_of_defining. unfold source_of. f_equal. apply map_ext_in.
    intros c I. apply filter_In in I as (I & DC). unfold good_commands in G.
    rewrite Forall_forall in G. destruct (G c I) as (H & S).
    apply (proj2 (command_shown c H S) DC).
  - etransitivity; [exact D|]. rewrite source_none by exact G. split.
    + intro X. apply map_eq_nil in X. exact X.
    + intros ->. reflexivity.
Qed.

Lemma so_far_facts : forall ts defs cmds,
  (forall t, defs_of t defs = map def_text (cmds t)) -> (forall t, good_commands (cmds t)) ->
  let so_far := concat (map (fun t => snippets_of t defs) ts) in
  let source := source_of true (concat (map cmds ts)) in
  whole so_far /\ shown so_far = source /\ Forall indented (lines_of so_far)
  /\ (so_far = [] <-> source = []).
Proof.
  intros ts defs cmds E G. cbv zeta. induction ts as [|t ts IH]; cbn [map concat].
  - splits; [left; reflexivity|reflexivity| |split; reflexivity].
    constructor; [left; reflexivity|constructor].
  - destruct (snippets_facts t defs (cmds t) (E t) (G t)) as (A1 & A2 & A3 & A4).
    destruct IH as (B1 & B2 & B3 & B4). rewrite source_of_app. splits.
    + apply whole_app; auto.
    + rewrite whole_shown by exact A1. rewrite A2, B2. reflexivity.
    + apply whole_indented; auto.
    + split; intro X; apply app_eq_nil in X as (X & Y).
      * rewrite (proj1 A4 X), (proj1 B4 Y). reflexivity.
      * rewrite (proj2 A4 X), (proj2 B4 Y). reflexivity.
Qed.

Lemma numbered_split : forall g, exists p, g = p ++ numbered_part g /\ numbers p = [].
Proof.
  induction g as [|b g (p & E & N)]; [exists []; auto|]. destruct b as [l|n title|c is|l ls].
  2: exists []; auto.
  all: cbn [numbered_part].
  - exists (Prose l :: p). split; [rewrite E at 1; reflexivity|exact N].
  - exists (Session c is :: p). split; [rewrite E at 1; reflexivity|exact N].
  - exists (Listing l ls :: p). split; [rewrite E at 1; reflexivity|exact N].
Qed.

Lemma numbered_heading : forall g, numbered_part g = []
  \/ exists n title r, numbered_part g = Heading n title :: r.
Proof.
  induction g as [|b g IH]; [auto|]. destruct b as [l|n title|c is|l ls]; cbn [numbered_part]; auto.
  right. eauto.
Qed.

Lemma section_unnumbered : forall p s t, numbers p = [] -> s <> t ->
  section_commands t (tagged_commands s p) = [].
Proof.
  intros p s t N D. apply section_none. intro I. apply tagged_sections in I. rewrite N in I.
  destruct I as [I|[]]. congruence.
Qed.

Lemma numbered_commands : forall a n title b,
  NoDup ([] :: map name (numbers (a ++ Heading n title :: b))) ->
  concat (map (fun t => section_commands t (tagged_commands [] (a ++ Heading n title :: b)))
            (map name (numbers a)))
  = commands (numbered_part a).
Proof.
  intros a n title b N. destruct (numbered_split a) as (p & E & NP).
  assert (NA : numbers a = numbers (numbered_part a)).
  { rewrite E at 1. rewrite numbers_app, NP. reflexivity. }
  assert (NN : numbers (a ++ Heading n title :: b)
               = numbers (numbered_part a ++ Heading n title :: b)).
  { rewrite !numbers_app, NA. reflexivity. }
  rewrite NN in N. pose proof (commands_before (numbered_part a) n title b N) as C.
  rewrite <- C. rewrite NA. cbn [map concat].
  assert (Z : section_commands [] (tagged_commands [] (numbered_part a ++ Heading n title :: b)) = []).
  { destruct (numbered_heading a) as [X|(k & tk & r & X)]; rewrite X in *.
    - apply section_none. cbn [app tagged_commands block_commands map block_numbers last].
      intro I. apply tagged_sections in I. cbn [app] in N. rewrite numbers_heading in N.
      inversion N as [|? ? M _]; subst. apply M. exact I.
    - apply section_none. cbn [app tagged_commands block_commands map block_numbers last].
      intro I. apply tagged_sections in I. cbn [app] in N. rewrite numbers_heading in N.
      inversion N as [|? ? M _]; subst. apply M. exact I. }
  rewrite Z. cbn [app]. f_equal. apply map_ext_in. intros t T.
  replace (a ++ Heading n title :: b) with (p ++ numbered_part a ++ Heading n title :: b)
    by (rewrite app_assoc, <- E; reflexivity).
  rewrite tagged_app, NP. cbn [map last]. rewrite section_app, section_unnumbered; auto.
  intro X. subst t. inversion N as [|? ? M _]; subst. apply M. rewrite numbers_app, map_app.
  apply in_or_app. now left.
Qed.

Lemma dotted_name : forall n, number_ok n -> replace 95 46 (name n) = dotted n.
Proof.
  intros n (P & _). unfold replace, name, dotted. induction P as [|k n K P IH]; [reflexivity|].
  assert (D : map (fun c => if c =? 95 then 46 else c) (print_number k) = print_number k).
  { etransitivity; [|apply map_id]. apply map_ext_in. intros c C.
    pose proof (proj1 (print_digits k K)) as F. rewrite Forall_forall in F. apply F in C.
    unfold digit_char in C. destruct (c =? 95) eqn:E; [|reflexivity]. apply Z.eqb_eq in E. slia. }
  destruct n as [|m n]; [exact D|].
  change (separated [95] (map print_number (k :: m :: n)))
    with (print_number k ++ 95 :: separated [95] (map print_number (m :: n))).
  change (separated [46] (map print_number (k :: m :: n)))
    with (print_number k ++ 46 :: separated [46] (map print_number (m :: n))).
  rewrite map_app. apply (f_equal2 (@app Z)); [exact D|]. apply (f_equal (cons 46)). exact IH.
Qed.

Lemma dotted_no_newline : forall n, number_ok n -> no_newline (dotted n).
Proof.
  intros n (P & _). unfold dotted. apply separated_all.
  - constructor; [discriminate|constructor].
  - apply Forall_forall. intros w W. apply in_map_iff in W as (k & <- & K).
    rewrite Forall_forall in P. eapply Forall_impl; [|exact (proj1 (print_digits k (P k K)))].
    intros c C. unfold digit_char in C. slia.
Qed.

Lemma before_page : forall n so_far source, number_ok n -> whole so_far ->
  shown so_far = source -> Forall indented (lines_of so_far) ->
  is_page n source (before_text (name n) so_far).
Proof.
  intros n so_far source O W S F. unfold is_page.
  assert (E : before_text (name n) so_far
    = (text "[#before_" ++ name n ++ text "]") ++ 10 ::
      (text "['Definitions before section " ++ dotted n ++ text ".]") ++ 10 :: 10 :: so_far ++ 10 :: []).
  { unfold before_text. rewrite dotted_name by exact O. rewrite <- !app_assoc. reflexivity. }
  destruct (name_name_ok n O) as (N1 & _).
  pose proof (dotted_no_newline n O) as N2.
  assert (A : no_newline (text "[#before_" ++ name n ++ text "]")).
  { apply no_newline_app; [repeat constructor; discriminate|].
    apply no_newline_app; [exact N1|repeat constructor; discriminate]. }
  assert (B : no_newline (text "['Definitions before section " ++ dotted n ++ text ".]")).
  { apply no_newline_app; [repeat constructor; discriminate|].
    apply no_newline_app; [exact N2|repeat constructor; discriminate]. }
  exists (lines_of (10 :: so_far ++ nl)). splits.
  - rewrite E, lines_newline, (lines_no_newline _ A), lines_newline, (lines_no_newline _ B).
    reflexivity.
  - rewrite (lines_newline [] (so_far ++ nl) : lines_of (10 :: so_far ++ nl) = _).
    apply Forall_app. split; [constructor; [left; reflexivity|constructor]|].
    apply whole_indented; auto.
    constructor; [left; reflexivity|]. constructor; [left; reflexivity|constructor].
  - change (shown (10 :: so_far ++ nl) = source).
    etransitivity; [apply (shown_app [] (so_far ++ nl))|]. etransitivity; [apply shown_nl|].
    exact S.
Qed.

Definition page_sections (g : list block) : list str := paged [] (all_names g) (tagged [] g).

Lemma docs_of_guide : forall g qbk, good_guide g -> in_order (numbers g) ->
  what_we_have_so_far_docs qbk (tagged [] g) (all_names g)
  = (pages [] (all_names g) (tagged [] g), notes (page_sections g) false qbk).
Proof.
  intros g qbk G O. unfold what_we_have_so_far_docs.
  pose proof (sections_nodup g G O) as N. inversion N; subst.
  rewrite docs_before_list by auto. reflexivity.
Qed.

Lemma pages_distinct : forall g, good_guide g -> in_order (numbers g) ->
  NoDup (map fst (pages [] (all_names g) (tagged [] g))).
Proof.
  intros g G O. pose proof (sections_nodup g G O) as N. inversion N as [|? ? _ N']; subst.
  rewrite pages_names. pose proof (paged_nodup _ [] (tagged [] g) N') as P.
  clear - P. induction P as [|x l M N IH]; [constructor|]. cbn [map]. constructor; auto.
  intro I. apply in_map_iff in I as (y & E & Y). apply page_name_inj in E. subst. auto.
Qed.

Theorem pages_of_guide : forall g, good_guide g -> in_order (numbers g) ->
  forallb plain_definition (commands g) = true ->
  forall before n title after, g = before ++ Heading n title :: after ->
  (source_of true (commands (numbered_part before)) = [] ->
     ~ In (page_file n) (map fst (pages [] (all_names g) (tagged [] g)))
     /\ ~ In (name n) (page_sections g))
  /\ (source_of true (commands (numbered_part before)) <> [] ->
      In (name n) (page_sections g)
      /\ exists t, In (page_file n, t) (pages [] (all_names g) (tagged [] g))
        /\ is_page n (source_of true (commands (numbered_part before))) t).
Proof.
  intros g G O P before n title after E.
  pose proof (sections_nodup g G O) as N.
  pose proof (guide_numbers g (proj1 G)) as OK.
  set (cmds := fun t => section_commands t (tagged_commands [] g)).
  assert (C1 : forall t, defs_of t (tagged [] g) = map def_text (cmds t)).
  { intro t. rewrite tagged_tagged. apply defs_of_commands. }
  assert (C2 : forall t, good_commands (cmds t)).
  { intro t. pose proof (plain_commands g G P) as F. unfold good_commands in *.
    rewrite Forall_forall in *. intros c C. apply F. rewrite <- (tagged_snd g []).
    eapply section_in. exact C. }
  assert (A : all_names g = all_names before ++ name n :: all_names after).
  { unfold all_names. rewrite E, numbers_app, numbers_heading, map_app. reflexivity. }
  assert (On : number_ok n).
  { rewrite Forall_forall in OK. apply OK. rewrite E, numbers_app, numbers_heading.
    apply in_or_app. right. now left. }
  destruct (so_far_facts (all_names before) (tagged [] g) cmds C1 C2) as (F1 & F2 & F3 & F4).
  assert (CN : concat (map cmds (all_names before)) = commands (numbered_part before)).
  { unfold cmds. rewrite E in *. apply (numbered_commands before n title after). exact N. }
  rewrite CN in *.
  inversion N as [|? ? _ N']; subst x l. rewrite A in N'.
  destruct (page_here (all_names before) (name n) (all_names after) (tagged [] g) N') as (H1 & H2).
  unfold page_sections. rewrite A. split.
  - intro Z. apply F4 in Z. specialize (H1 Z). split; [|exact H1].
    rewrite pages_names. intro I. apply in_map_iff in I as (y & Y & I).
    apply page_name_inj in Y. subst. auto.
  - intro Z. destruct H2 as (H2 & H3); [intro X; apply Z, F4, X|]. split; [exact H3|].
    eexists. split; [exact H2|]. apply before_page; auto.
Qed.

(** ** The notes *)

Definition mark_line (S : list str) (l : str) : list str :=
  l :: match is_section l with
       | Some n =>
           let section_number := drop_last (replace 46 95 n) in
           if mem section_number S
           then [note_prefix ++ section_number ++ literal " here].]" ++ nl] else []
       | None => []
       end.

Lemma fresh_line : forall l, fresh l = true ->
  starts note_prefix l = false
  /\ str_eqb (strip l) (literal "[section Definitions before each section]") = false.
Proof.
  intros l H. unfold fresh in H. apply andb_true_iff in H as (A & B).
  apply negb_true_iff in A. split; [exact A|]. unfold str_eqb.
  change (strip l) with (trim l). change (literal "[section Definitions before each section]")
    with contents_heading.
  destruct (list_eq_dec Z.eq_dec (trim l) contents_heading); [discriminate|reflexivity].
Qed.

Lemma notes_fresh : forall S ls rest, forallb fresh ls = true ->
  notes S false (ls ++ rest) = concat (map (mark_line S) ls) ++ notes S false rest.
Proof.
  induction ls as [|l ls IH]; intros rest H; [reflexivity|]. cbn [forallb] in H.
  apply andb_true_iff in H as (H & HS). destruct (fresh_line l H) as (A & B).
  cbn [app notes map concat]. rewrite B, A, IH by exact HS. unfold mark_line.
  cbn [app]. rewrite <- app_assoc. reflexivity.
Qed.

(** *** Numbers of one digit *)

Definition dots (n : list Z) : str := concat (map (fun k => [48 + k; 46]) n).

Lemma print_small : forall k, 0 <= k <= 9 -> print_number k = [48 + k].
Proof.
  intros k H.
  assert (D : k = 0 \/ k = 1 \/ k = 2 \/ k = 3 \/ k = 4 \/ k = 5 \/ k = 6 \/ k = 7 \/ k = 8 \/ k = 9)
    by lia.
  repeat (destruct D as [->|D]; [reflexivity|]). subst. reflexivity.
Qed.

Lemma dots_dotted : forall n, Forall (fun k => 0 <= k <= 9) n -> n <> [] ->
  dotted n ++ [46] = dots n.
Proof.
  intros n F N. induction F as [|k n K F IH]; [congruence|]. destruct n as [|m n].
  - unfold dotted, dots. cbn. rewrite print_small by exact K. reflexivity.
  - unfold dotted in *. cbn [map separated] in *. rewrite print_small by exact K.
    change (dots (k :: m :: n)) with ([48 + k; 46] ++ dots (m :: n)).
    rewrite <- IH by discriminate. reflexivity.
Qed.

Lemma digit_dots_dots : forall n f r, Forall (fun k => 0 <= k <= 9) n -> (length n <= f)%nat ->
  digit_dots f (dots n ++ 32 :: r) = dots n.
Proof.
  intros n f r F. revert f. induction F as [|k n K F IH]; intros f L.
  - cbn. destruct f as [|f]; [reflexivity|]. cbn. destruct r as [|d r]; [reflexivity|].
    destruct d as [|d|d]; try reflexivity. repeat (destruct d; try reflexivity).
  - destruct f as [|f]; [cbn in L; lia|].
    change (dots (k :: n) ++ 32 :: r) with ((48 + k) :: 46 :: dots n ++ 32 :: r).
    cbn [digit_dots].
    assert (D : is_ascii_digit (48 + k) = true).
    { unfold is_ascii_digit. apply andb_true_iff. split; apply Z.leb_le; lia. }
    rewrite D, IH by (cbn in L; lia). reflexivity.
Qed.

Lemma section_small : forall n title, Forall (fun k => 0 <= k <= 9) n -> n <> [] ->
  is_section (text "[section " ++ dotted n ++ text ". " ++ title ++ eol) = Some (dotted n ++ [46]).
Proof.
  intros n title F N. unfold is_section.
  set (l := text "[section " ++ dotted n ++ text ". " ++ title ++ eol).
  assert (E : l = text "[section " ++ dots n ++ 32 :: title ++ eol).
  { unfold l. rewrite <- dots_dotted by auto. rewrite <- app_assoc. reflexivity. }
  change (starts (literal "[section ") l) with true. cbv iota.
  assert (X : digit_dots (length l) (skipn 9 l) = dots n).
  { rewrite E. change (skipn 9 (text "[section " ++ dots n ++ 32 :: title ++ eol))
      with (dots n ++ 32 :: title ++ eol).
    apply digit_dots_dots; [exact F|]. rewrite !app_length.
    assert (length n <= length (dots n))%nat.
    { clear. unfold dots. induction n; cbn [map concat app length]; slia. }
    slia. }
  rewrite X, dots_dotted by auto. destruct n; [congruence|]. reflexivity.
Qed.

Lemma section_number_name : forall n, number_ok n ->
  drop_last (replace 46 95 (dotted n ++ [46])) = name n.
Proof.
  intros n (P & _). pose proof (replace_separated n P) as E. unfold replace in *.
  rewrite map_app. etransitivity; [apply (removelast_last (map _ (dotted n)) 95)|]. exact E.
Qed.

Lemma starts_line : forall w l, ~ In 10 w -> starts w (l ++ [10]) = true -> starts w l = true.
Proof.
  induction w as [|c w IH]; intros l N H; [reflexivity|].
  destruct l as [|d l].
  - cbn in H. apply andb_true_iff in H as (H & _). apply Z.eqb_eq in H. subst.
    exfalso. apply N. now left.
  - cbn in *. apply andb_true_iff in H as (H & H'). rewrite H. apply IH; auto.
Qed.

Lemma digit_dots_first : forall f c s, digit_dots f (c :: s) <> [] -> is_ascii_digit c = true.
Proof.
  intros [|f] c s H; [exfalso; apply H; reflexivity|]. destruct s as [|k s]; [exfalso; apply H; reflexivity|].
  cbn [digit_dots] in H. destruct (is_ascii_digit c); [reflexivity|]. exfalso. apply H.
  destruct k as [|k|k]; try reflexivity. repeat (destruct k; try reflexivity).
Qed.

Lemma section_none_prose : forall l, unnumbered l = true -> is_section (l ++ eol) = None.
Proof.
  intros l U. unfold is_section. destruct (starts (literal "[section ") (l ++ eol)) eqn:S; auto.
  apply starts_line in S; [|cbn; intuition discriminate].
  apply starts_inv in S as (r & ->).
  destruct (digit_dots (length ((literal "[section " ++ r) ++ eol))
              (skipn 9 ((literal "[section " ++ r) ++ eol))) as [|d ds] eqn:E; [reflexivity|].
  exfalso. change (skipn 9 ((literal "[section " ++ r) ++ eol)) with (r ++ eol) in E.
  destruct r as [|c r].
  - cbn in E. discriminate E.
  - assert (D : is_ascii_digit c = true).
    { eapply (digit_dots_first _ c (r ++ eol)). change (c :: r ++ eol) with ((c :: r) ++ eol).
      rewrite E. discriminate. }
    unfold is_ascii_digit in D. apply andb_true_iff in D as (D1 & D2).
    apply Z.leb_le in D1, D2.
    unfold unnumbered in U. change (begins (text "[section") (literal "[section " ++ c :: r)) with true in U.
    change (skip_white (skipn 8 (literal "[section " ++ c :: r))) with (skip_white (c :: r)) in U.
    cbn [skip_white] in U.
    assert (W : white c = false).
    { unfold white. apply orb_false_iff. split; [apply Z.eqb_neq; slia|].
      apply andb_false_iff. right. apply Z.leb_gt. slia. }
    rewrite W in U. apply Z.leb_le in D1, D2. rewrite D1, D2 in U. discriminate U.
Qed.

Lemma section_none_code : forall l, starts (text "  ") l = true -> is_section l = None.
Proof. intros l H. apply starts_inv in H as (r & ->). reflexivity. Qed.

Lemma prompts_code : forall ls p, starts (text "  ") p = true ->
  Forall (fun l => starts (text "  ") l = true) (prompts p ls).
Proof.
  assert (A : forall p x, starts (text "  ") p = true -> starts (text "  ") (p ++ x) = true).
  { intros p x H. apply starts_inv in H as (r & ->). rewrite <- app_assoc. apply starts_app. }
  induction ls as [|l ls IH]; intros p P; [constructor|]. cbn [prompts].
  destruct ls as [|k ls]; [constructor; [apply A; exact P|constructor]|].
  constructor; [apply A; exact P|]. apply IH. reflexivity.
Qed.

Lemma marks_code : forall S ls, Forall (fun l => starts (text "  ") l = true) ls ->
  concat (map (mark_line S) ls) = ls.
Proof.
  intros S ls F. induction F as [|l ls H F IH]; [reflexivity|]. cbn [map concat].
  unfold mark_line at 1. rewrite section_none_code by exact H. cbn [app]. rewrite IH. reflexivity.
Qed.

Lemma mark_heading : forall S n title, number_ok n -> Forall (fun k => k <= 9) n ->
  concat (map (mark_line S) (SpecGenerate.block_lines (Heading n title)))
  = SpecGenerate.block_lines (Heading n title) ++ (if mem (name n) S then [note n ++ eol] else []).
Proof.
  intros S n title O F. cbn [SpecGenerate.block_lines map concat app]. rewrite app_nil_r.
  unfold mark_line. rewrite section_small.
  - cbv zeta. rewrite section_number_name by exact O. unfold note. rewrite <- !app_assoc. reflexivity.
  - destruct O as (P & _). rewrite Forall_forall in *. intros k K. split; auto.
  - apply O.
Qed.

Lemma mark_block : forall S b, good_block b = true ->
  match b with Heading _ _ => False | _ => True end ->
  concat (map (mark_line S) (SpecGenerate.block_lines b)) = SpecGenerate.block_lines b.
Proof.
  intros S b G H. destruct b as [l|n title|c items|l ls]; [|contradiction| |].
  - cbn [SpecGenerate.block_lines map concat app]. cbn in G. apply andb_true_iff in G as (_ & U).
    unfold mark_line. rewrite section_none_prose by exact U. reflexivity.
  - apply marks_code. cbn [SpecGenerate.block_lines]. apply Forall_app. split.
    + apply prompts_code. reflexivity.
    + clear. induction items as [|i items IH]; [constructor|]. cbn [map concat].
      apply Forall_app. split; [|exact IH]. destruct i; cbn [item_lines].
      * apply prompts_code. reflexivity.
      * constructor; [reflexivity|constructor].
  - apply marks_code. cbn [SpecGenerate.block_lines]. apply Forall_forall. intros x X.
    apply in_map_iff in X as (y & <- & _). reflexivity.
Qed.

Lemma mem_in : forall s l, mem s l = true <-> In s l.
Proof.
  intros s l. unfold mem. rewrite existsb_exists. split.
  - intros (x & I & E). apply str_eqb_eq in E. subst. exact I.
  - intro I. exists s. split; [exact I|apply str_eqb_refl].
Qed.

Theorem notes_of_guide : forall g, good_guide g -> in_order (numbers g) ->
  forallb plain_definition (commands g) = true ->
  Forall (Forall (fun k => k <= 9)) (numbers g) ->
  forallb fresh (guide_lines g) = true ->
  notes (page_sections g) false (guide_lines g) = guide_lines (with_notes [] g).
Proof.
  intros g G O P S F.
  assert (M : forall after before, g = before ++ after ->
    notes (page_sections g) false (guide_lines after) = guide_lines (with_notes before after)).
  { induction after as [|b after IH]; intros before E; [reflexivity|].
    assert (GB : good_block b = true).
    { destruct G as (G & _). rewrite forallb_forall in G. apply G. rewrite E.
      apply in_or_app. right. now left. }
    assert (FB : forallb fresh (SpecGenerate.block_lines b) = true).
    { apply forallb_forall. intros l L. rewrite forallb_forall in F. apply F.
      unfold guide_lines. apply in_concat. eexists. split; [|exact L]. apply in_map.
      rewrite E. apply in_or_app. right. now left. }
    assert (IH' := IH (before ++ [b])).
    rewrite <- app_assoc in IH'. specialize (IH' E).
    change (guide_lines (b :: after)) with (SpecGenerate.block_lines b ++ guide_lines after).
    rewrite notes_fresh by exact FB. cbn [with_notes]. rewrite IH'.
    unfold guide_lines at 2. cbn [map concat]. rewrite map_app, concat_app, app_assoc.
    apply (f_equal2 (@app str)); [|reflexivity].
    destruct b as [l|n title|c is|l ls];
      try (cbn [map concat]; rewrite app_nil_r; apply mark_block; auto; exact Logic.I).
    assert (On : In n (numbers g)).
    { rewrite E, numbers_app, numbers_heading. apply in_or_app. right. now left. }
    pose proof (guide_numbers g (proj1 G)) as OK. rewrite Forall_forall in OK, S.
    rewrite mark_heading by auto. f_equal.
    destruct (pages_of_guide g G O P before n title after E) as (H1 & H2).
    destruct (source_of true (commands (numbered_part before))) as [|x y].
    - destruct (H1 eq_refl) as (_ & H). destruct (mem (name n) (page_sections g)) eqn:X; [|reflexivity].
      apply mem_in in X. contradiction.
    - destruct H2 as (H & _); [discriminate|]. apply mem_in in H. rewrite H. reflexivity. }
  apply (M g []). reflexivity.
Qed.

(** *** Once more *)

Lemma notes_skip : forall S ls rest, Forall (fun l => str_eqb (strip l) (literal "[endsect]") = false) ls ->
  notes S true (ls ++ rest) = notes S true rest.
Proof.
  intros S ls rest F. induction F as [|l ls H F IH]; [reflexivity|]. cbn [app notes].
  rewrite H. exact IH.
Qed.

Definition page_list (S : list str) : list str :=
  nl :: map (fun s => literal "[include before_" ++ s ++ literal ".qbk]" ++ nl) S ++ [nl].

Lemma page_list_lines : forall S,
  Forall (fun l => str_eqb (strip l) (literal "[endsect]") = false) (page_list S).
Proof.
  intro S. constructor; [reflexivity|]. apply Forall_app. split.
  - apply Forall_forall. intros l L. apply in_map_iff in L as (s & <- & _).
    change strip with trim.
    match goal with |- context [literal "[include before_" ++ ?r] =>
      destruct (trim_begin (literal "[include before_") r eq_refl eq_refl) as (r' & -> & _) end.
    apply str_eqb_neq. discriminate.
  - constructor; [reflexivity|constructor].
Qed.

Lemma notes_contents : forall S l x,
  str_eqb (strip l) (literal "[section Definitions before each section]") = true ->
  notes S false (l :: x) = l :: page_list S ++ notes S true x.
Proof.
  intros S l x E. cbn [notes]. rewrite E. unfold page_list. cbn [app].
  rewrite <- app_assoc. reflexivity.
Qed.

Lemma notes_idempotent : forall S x b, notes S b (notes S b x) = notes S b x.
Proof.
  intros S. induction x as [|l x IH]; intro b; [reflexivity|]. destruct b.
  - cbn [notes]. destruct (str_eqb (strip l) (literal "[endsect]")) eqn:E; [|apply IH].
    cbn [notes]. rewrite E, IH. reflexivity.
  - destruct (str_eqb (strip l) (literal "[section Definitions before each section]")) eqn:E.
    + rewrite !notes_contents by exact E. rewrite notes_skip by apply page_list_lines.
      rewrite IH. reflexivity.
    + cbn [notes]. rewrite E. destruct (starts note_prefix l) eqn:P; [apply IH|].
      cbn [notes]. rewrite E, P. f_equal.
      destruct (is_section l) as [n|] eqn:I; [|cbn [app]; apply IH]. cbv zeta.
      destruct (mem (drop_last (replace 46 95 n)) S) eqn:M; [|cbn [app]; apply IH].
      cbn [app]. f_equal. cbn [notes].
      set (k := note_prefix ++ drop_last (replace 46 95 n) ++ literal " here].]" ++ nl).
      assert (N1 : starts note_prefix k = true) by apply starts_app.
      assert (N2 : str_eqb (strip k) (literal "[section Definitions before each section]") = false).
      { change strip with trim. unfold k.
        match goal with |- context [note_prefix ++ ?r] =>
          destruct (trim_begin note_prefix r eq_refl eq_refl) as (r' & -> & _) end.
        apply str_eqb_neq. discriminate. }
      rewrite N2, N1. apply IH.
Qed.

(** *** What is kept *)

Lemma str_eqb_dec : forall a b, str_eqb a b = if list_eq_dec Z.eq_dec a b then true else false.
Proof. reflexivity. Qed.

Lemma handwritten_skip : forall ls rest,
  Forall (fun l => str_eqb (strip l) (literal "[endsect]") = false) ls ->
  handwritten true (ls ++ rest) = handwritten true rest.
Proof.
  intros ls rest F. induction F as [|l ls H F IH]; [reflexivity|]. cbn [app handwritten].
  rewrite str_eqb_dec in H. change (strip l) with (trim l) in H.
  change (literal "[endsect]") with (text "[endsect]") in H.
  destruct (list_eq_dec Z.eq_dec (trim l) (text "[endsect]")); [discriminate|exact IH].
Qed.

Lemma handwritten_kept : forall S x b, handwritten b (notes S b x) = handwritten b x.
Proof.
  intros S. induction x as [|l x IH]; intro b; [reflexivity|]. destruct b.
  - cbn [notes handwritten]. rewrite str_eqb_dec. change (strip l) with (trim l).
    change (literal "[endsect]") with (text "[endsect]").
    destruct (list_eq_dec Z.eq_dec (trim l) (text "[endsect]")) as [E|E]; [|apply IH].
    cbn [handwritten].
    destruct (list_eq_dec Z.eq_dec (trim l) (text "[endsect]")); [|contradiction].
    rewrite IH. reflexivity.
  - destruct (str_eqb (strip l) (literal "[section Definitions before each section]")) eqn:E.
    + rewrite notes_contents by exact E. cbn [handwritten].
      rewrite str_eqb_dec in E. change (strip l) with (trim l) in E.
      change (literal "[section Definitions before each section]") with contents_heading in E.
      destruct (list_eq_dec Z.eq_dec (trim l) contents_heading); [|discriminate].
      rewrite handwritten_skip by apply page_list_lines. rewrite IH. reflexivity.
    + cbn [notes handwritten]. rewrite E. rewrite str_eqb_dec in E.
      change (strip l) with (trim l) in E.
      change (literal "[section Definitions before each section]") with contents_heading in E.
      destruct (list_eq_dec Z.eq_dec (trim l) contents_heading) as [X|X] eqn:XE; [discriminate|].
      change (begins note_begin l) with (starts note_prefix l).
      destruct (starts note_prefix l) eqn:P; [apply IH|].
      cbn [handwritten]. rewrite XE.
      change (begins note_begin l) with (starts note_prefix l). rewrite P. f_equal.
      destruct (is_section l) as [n|]; [|cbn [app]; apply IH]. cbv zeta.
      destruct (mem (drop_last (replace 46 95 n)) S); [|cbn [app]; apply IH].
      set (k := note_prefix ++ drop_last (replace 46 95 n) ++ literal " here].]" ++ nl).
      cbn [app handwritten].
      assert (N1 : starts note_prefix k = true) by apply starts_app.
      change (begins note_begin k) with (starts note_prefix k). rewrite N1.
      destruct (list_eq_dec Z.eq_dec (trim k) contents_heading) as [N2|N2]; [exfalso|apply IH].
      revert N2. unfold k.
      match goal with |- context [note_prefix ++ ?r] =>
        destruct (trim_begin note_prefix r eq_refl eq_refl) as (r' & -> & _) end.
      discriminate.
Qed.
