(** Proofs about the snippets of a guide and the links to them. *)

From Coq Require Import ZArith List Bool Lia.
From Verif Require Import Base Messages Spec Benchmark SpecBenchmark Proofs_Benchmark
  Properties_Messages Generate SpecGenerate Proofs_Generate Proofs_Snippets Proofs_Pages.
Import ListNotations.
Open Scope Z_scope.

(** ** The handwritten lines are kept *)

Lemma blank_visible : forall l, blank l = negb (visible (trim l)).
Proof. intro l. unfold blank. change (strip l) with (trim l). destruct (trim l); reflexivity. Qed.

Lemma authored_skip : forall ls rest, Forall (fun l => is_end l = false) ls ->
  authored true (ls ++ rest) = authored true rest.
Proof.
  intros ls rest F. induction F as [|l ls H F IH]; [reflexivity|]. cbn [app authored].
  change (within (text "endsect") l) with (is_end l). rewrite H. exact IH.
Qed.

Lemma authored_line : forall l x,
  authored false (l :: x)
  = if blank l then authored false x
    else if is_header l then l :: authored true x
    else if is_link l then authored false x else l :: authored false x.
Proof. intros l x. cbn [authored]. rewrite <- blank_visible. reflexivity. Qed.

Lemma authored_run : forall base, base_ok base -> forall x s s' out sns,
  run base s x = Some (s', out, sns) -> authored (s_ex s) out = authored (s_ex s) x.
Proof.
  intros base BO. induction x as [|l x IH]; intros s s' out sns R.
  { cbn in R. injection R as <- <- <-. reflexivity. }
  cbn [run] in R. destruct (step base s l) as [((s1, o), sn)|] eqn:E; [|discriminate].
  destruct (run base s1 x) as [((s2, o'), sns')|] eqn:Q; [|discriminate].
  injection R as <- <- <-. specialize (IH _ _ _ _ Q). clear Q.
  unfold step in E. destruct (blank l && s_skip s) eqn:BL.
  { injection E as <- <- <-. apply andb_true_iff in BL as (BL & _). cbn [app].
    destruct (s_ex s).
    - rewrite IH. cbn [authored]. change (within (text "endsect") l) with (is_end l).
      destruct (is_end l) eqn:N; [|reflexivity]. apply end_not_blank in N. congruence.
    - rewrite IH, authored_line, BL. reflexivity. }
  destruct (s_ex s) eqn:X.
  { destruct (is_end l) eqn:N; injection E as <- <- <-; cbn [s_ex] in IH.
    - rewrite block_end_split, <- app_assoc.
      rewrite authored_skip by (apply block_lines; exact BO). cbn [app authored].
      change (within (text "endsect") l) with (is_end l). rewrite N, IH. reflexivity.
    - cbn [app]. rewrite IH. cbn [authored]. change (within (text "endsect") l) with (is_end l).
      rewrite N. reflexivity. }
  rewrite (authored_line l x). destruct (is_header l) eqn:H.
  { injection E as <- <- <-. cbn [s_ex app] in *. rewrite authored_line, H, IH.
    rewrite (header_not_blank l H). reflexivity. }
  destruct (is_link l) eqn:L.
  { injection E as <- <- <-. cbn [s_ex app] in *. rewrite (link_not_blank l L). exact IH. }
  assert (One : o = [l] -> s_ex s1 = false ->
    authored false (o ++ o') = if blank l then authored false x else l :: authored false x).
  { intros -> Z. rewrite Z in IH. cbn [app]. rewrite authored_line, H, L, IH. reflexivity. }
  destruct (s_cpp s); destruct (is_code l); try (injection E as <- <- <-; apply One; reflexivity).
  destruct (1 <? length (s_code s))%nat; [|injection E as <- <- <-; apply One; reflexivity].
  destruct (make_copy_paste_friendly (s_code s)) as [lines|]; [|discriminate].
  injection E as <- <- <-. cbn [s_ex app] in *.
  assert (T : authored false (link_line base (s_n s) :: nl :: o') = authored false x).
  { rewrite authored_line, link_is_link, link_not_header by apply BO.
    rewrite (link_not_blank _ (link_is_link base (s_n s))). rewrite authored_line. exact IH. }
  rewrite authored_line, H, L, T. reflexivity.
Qed.

Lemma authored_kept : forall base x fs y, base_ok base ->
  extract_code_snippets x base = Some (fs, y) -> authored false y = authored false x.
Proof.
  intros base x fs y BO H. rewrite extract_run in H.
  destruct (run base s_start x) as [((s, o), sns)|] eqn:R; [|discriminate].
  injection H as <- <-. exact (authored_run base BO x s_start s o sns R).
Qed.

(** ** What there is to paste *)

Definition prompt_pieces (prompt : str) (ps : list str) : list str :=
  map (skipn 2) (prompts prompt ps).

Lemma skip_white_end : forall (a b : str), skip_white a <> [] -> skip_white (a ++ b) = skip_white a ++ b.
Proof.
  induction a as [|c a IH]; intros b N; [exfalso; apply N; reflexivity|].
  cbn [app skip_white] in *.
  destruct (white c); [apply IH; exact N|reflexivity].
Qed.

Lemma skip_white_back : forall a : str, skip_white (a ++ [92; 10]) = skip_white a ++ [92; 10].
Proof.
  induction a as [|c a IH]; [reflexivity|]. cbn [app skip_white]. destruct (white c); auto.
Qed.

Lemma strip_unfinished : forall a : str,
  strip_not_finished_line (a ++ [92; 10]) = skip_white a.
Proof.
  intros a. unfold strip_not_finished_line.
  assert (E : strip (a ++ [92; 10]) = skip_white a ++ [92]).
  { change strip with trim. unfold trim. rewrite skip_white_back, rev_app_distr.
    change (rev (92 :: rev (skip_white a)) = skip_white a ++ [92]).
    cbn [rev]. rewrite rev_involutive. reflexivity. }
  rewrite E. unfold ends. rewrite rev_app_distr.
  change (starts (rev [92]) (rev [92] ++ rev (skip_white a))) with true.
  unfold drop_last. apply removelast_last.
Qed.

Lemma skip_white_idem : forall a : str, skip_white (skip_white a) = skip_white a.
Proof.
  induction a as [|c a IH]; [reflexivity|]. cbn [skip_white]. destruct (white c) eqn:W; [exact IH|].
  cbn [skip_white]. rewrite W. reflexivity.
Qed.

Lemma skip_white_twice : forall a b : str, skip_white a = a ->
  skip_white (a ++ skip_white b) = a ++ skip_white b.
Proof.
  intros a b H. destruct a as [|c a]; [apply skip_white_idem|].
  cbn [app skip_white] in *. destruct (white c) eqn:W; [|reflexivity].
  exfalso. assert (L : (length (skip_white a) <= length a)%nat).
  { clear. induction a as [|c a IH]; cbn; [lia|]. destruct (white c); cbn; lia. }
  rewrite H in L. cbn in L. lia.
Qed.

Definition joined (cur : str) (ps : list str) : str := skip_white cur ++ concat (map skip_white ps).

(** The lines a command continues on *)
Lemma paste_more : forall ps r cur code, ps <> [] ->
  visible (trim (last ps [])) = true ->
  make_copy_paste_friendly_from (r ++ [cur ++ [92; 10]])
    (map (skipn 2) (prompts (text "  ...> ") ps) ++ code)
  = make_copy_paste_friendly_from (r ++ [joined cur ps ++ eol]) code.
Proof.
  induction ps as [|p ps IH]; intros r cur code N V; [congruence|].
  assert (Step : forall w k, make_copy_paste_friendly_from (r ++ [cur ++ [92; 10]])
      ((text "...> " ++ w) :: k) = make_copy_paste_friendly_from (r ++ [skip_white cur ++ skip_white w]) k).
  { intros w k. cbn [make_copy_paste_friendly_from].
    change (starts (literal "> ") (text "...> " ++ w)) with false.
    change (starts (literal "...> ") (text "...> " ++ w)) with true. cbv iota.
    change (skipn 5 (text "...> " ++ w)) with w.
    destruct (r ++ [cur ++ [92; 10]]) eqn:E; [destruct r; discriminate|]. rewrite <- E. clear E.
    rewrite removelast_last, last_last, strip_unfinished. reflexivity. }
  destruct ps as [|q ps].
  - etransitivity; [exact (Step (p ++ eol) code)|].
    unfold joined. cbn [map concat last] in *. rewrite app_nil_r, <- app_assoc.
    assert (W : skip_white p <> []).
    { intro X. unfold trim in V. rewrite X in V. discriminate V. }
    change (p ++ eol) with (p ++ [10]). rewrite skip_white_end by exact W. reflexivity.
  - etransitivity; [exact (Step (p ++ [92; 10]) (map (skipn 2) (prompts (text "  ...> ") (q :: ps)) ++ code))|].
    rewrite skip_white_back, app_assoc.
    etransitivity; [exact (IH r (skip_white cur ++ skip_white p) code ltac:(discriminate) V)|].
    unfold joined. cbn [map concat]. rewrite skip_white_twice by apply skip_white_idem.
    rewrite <- !app_assoc. reflexivity.
Qed.

Lemma paste_command : forall c r code, finished c = true ->
  make_copy_paste_friendly_from r (map (skipn 2) (command_lines c) ++ code)
  = make_copy_paste_friendly_from (r ++ [paste_line c]) code.
Proof.
  intros (p, ps) r code F. unfold command_lines, pieces. cbn [fst snd].
  assert (Step : forall w k, make_copy_paste_friendly_from r ((text "> " ++ w) :: k)
    = make_copy_paste_friendly_from (r ++ [w]) k) by reflexivity.
  destruct ps as [|q ps].
  - exact (Step (p ++ eol) code).
  - etransitivity; [exact (Step (p ++ [92; 10]) (map (skipn 2) (prompts (text "  ...> ") (q :: ps)) ++ code))|].
    etransitivity; [exact (paste_more (q :: ps) r p code ltac:(discriminate) F)|]. reflexivity.
Qed.

Lemma paste_commands : forall cs r, forallb finished cs = true ->
  make_copy_paste_friendly_from r (map (skipn 2) (concat (map command_lines cs)))
  = Some (r ++ map paste_line cs).
Proof.
  induction cs as [|c cs IH]; intros r F.
  - cbn. rewrite app_nil_r. reflexivity.
  - cbn [forallb] in F. apply andb_true_iff in F as (F & FS). cbn [map concat].
    rewrite map_app, paste_command, IH by auto. rewrite <- app_assoc. reflexivity.
Qed.

(** ** The run over a guide *)

Lemma plain_step : forall base cpp code n l, unlinked l = true ->
  step base (Build_st cpp code n false false) l
  = if cpp then
      if is_code l then
        Some (Build_st true (if is_prompt l then code ++ [skipn 2 l] else code) n false false, [l], None)
      else if (1 <? length code)%nat then
        match make_copy_paste_friendly code with
        | Some lines => Some (Build_st false code (S n) false false, [l; link_line base n; nl], Some lines)
        | None => None
        end
      else Some (Build_st false code n false false, [l], None)
    else if is_code l
    then Some (Build_st true [skipn 2 l] n false false, [l], None)
    else Some (Build_st false code n false false, [l], None).
Proof.
  intros base cpp code n l U. unfold unlinked in U. apply andb_true_iff in U as (A & B).
  apply negb_true_iff in A, B. unfold step. cbn [s_cpp s_code s_n s_ex s_skip].
  rewrite andb_false_r. change (is_header l) with (within examples_heading l).
  change (is_link l) with (within link_text l). rewrite A, B. reflexivity.
Qed.

(** Lines of code after the first one *)
Lemma run_code : forall base n ls code, forallb unlinked ls = true ->
  Forall (fun l => is_code l = true) ls ->
  run base (Build_st true code n false false) ls
  = Some (Build_st true (code ++ map (skipn 2) (filter is_prompt ls)) n false false, ls, []).
Proof.
  induction ls as [|l ls IH]; intros code U C.
  - cbn. rewrite app_nil_r. reflexivity.
  - cbn [forallb] in U. apply andb_true_iff in U as (U & US). inversion C as [|? ? C1 C2]; subst.
    cbn [run filter]. rewrite plain_step, C1 by exact U. rewrite IH by auto.
    destruct (is_prompt l); cbn [map]; [rewrite <- app_assoc|]; reflexivity.
Qed.

Lemma prompts_prompt : forall ps p, is_prompt (p ++ []) = true ->
  (forall x, is_prompt (p ++ x) = true) ->
  Forall (fun l => is_prompt l = true) (prompts p ps).
Proof.
  induction ps as [|q ps IH]; intros p _ P; [constructor|]. cbn [prompts].
  destruct ps as [|k ps]; (constructor; [apply P|]); [constructor|].
  apply IH; [reflexivity|]. intro x. reflexivity.
Qed.

Lemma command_prompts : forall c, Forall (fun l => is_prompt l = true) (command_lines c).
Proof. intro c. apply prompts_prompt; [reflexivity|]. intro x. reflexivity. Qed.

Lemma starts_no_newline : forall w l, ~ In 10 w -> starts w (l ++ eol) = true -> starts w l = true.
Proof. exact starts_line. Qed.

Lemma no_prompt_line : forall l, no_prompt l = true -> is_prompt (text "  " ++ l ++ eol) = false.
Proof.
  intros l H. unfold no_prompt in H. apply andb_true_iff in H as (A & B).
  apply negb_true_iff in A, B.
  change (is_prompt (text "  " ++ l ++ eol))
    with (starts (text "> ") (l ++ eol) || starts (text "...> ") (l ++ eol)).
  apply orb_false_iff. split.
  - destruct (starts (text "> ") (l ++ eol)) eqn:E; [|reflexivity].
    apply starts_line in E; [|cbn; intuition discriminate].
    change (starts (text "> ") l) with (begins (text "> ") l) in E. congruence.
  - destruct (starts (text "...> ") (l ++ eol)) eqn:E; [|reflexivity].
    apply starts_line in E; [|cbn; intuition discriminate].
    change (starts (text "...> ") l) with (begins (text "...> ") l) in E. congruence.
Qed.

Lemma items_prompts : forall items, forallb good_item items = true ->
  filter is_prompt (concat (map item_lines items))
  = concat (map command_lines (items_commands items)).
Proof.
  induction items as [|i items IH]; intro G; [reflexivity|]. cbn [forallb] in G.
  apply andb_true_iff in G as (G & GS). unfold items_commands in *. cbn [map concat].
  rewrite filter_app, map_app, concat_app, IH by exact GS. f_equal.
  destruct i as [c|l]; cbn [item_lines map concat].
  - rewrite app_nil_r. apply filter_all. intros x X.
    pose proof (command_prompts c) as F. rewrite Forall_forall in F. auto.
  - cbn in G. apply andb_true_iff in G as (_ & G). cbn [filter].
    rewrite no_prompt_line by exact G. reflexivity.
Qed.

(** The code after a block *)
Definition code_after (code : list str) (b : block) : list str :=
  match b with
  | Session c items => map (skipn 2) (concat (map command_lines (block_commands b)))
  | Listing l ls => [l ++ eol]
  | _ => code
  end.

Lemma command_lines_cons : forall c, exists l ls, command_lines c = l :: ls.
Proof.
  intros (p, ps). unfold command_lines, pieces. cbn [fst snd]. destruct ps; cbn [prompts]; eauto.
Qed.

Lemma run_listing : forall base code n b, good_block b = true -> quiet b = true ->
  is_listing b = true ->
  forallb unlinked (SpecGenerate.block_lines b) = true ->
  run base (Build_st false code n false false) (SpecGenerate.block_lines b)
  = Some (Build_st true (code_after code b) n false false, SpecGenerate.block_lines b, []).
Proof.
  intros base code n b G Q L U. destruct b as [l|k title|c items|l ls]; try discriminate L.
  - cbn [SpecGenerate.block_lines] in *. cbn in G. apply andb_true_iff in G as (_ & GI).
    destruct (command_lines_cons c) as (l & ls & E).
    assert (P : Forall (fun l => is_prompt l = true) (l :: ls)) by (rewrite <- E; apply command_prompts).
    inversion P as [|? ? P1 P2]; subst.
    cbn [code_after block_commands map concat]. rewrite E in *. cbn [app forallb] in *.
    apply andb_true_iff in U as (U1 & U2). cbn [run].
    rewrite plain_step, (is_prompt_code l P1) by exact U1. rewrite run_code.
    + rewrite filter_app, items_prompts by exact GI.
      rewrite (filter_all _ is_prompt ls) by (rewrite Forall_forall in P2; exact P2).
      cbn [map]. reflexivity.
    + exact U2.
    + apply Forall_app. split.
      * eapply Forall_impl; [|exact P2]. intros x X. apply is_prompt_code. exact X.
      * clear - GI. induction items as [|i items IH]; [constructor|]. cbn [map concat forallb] in *.
        apply andb_true_iff in GI as (_ & GI). apply Forall_app. split; [|apply IH; exact GI].
        destruct i; cbn [item_lines].
        -- eapply Forall_impl; [|apply command_prompts]. intros x X. apply is_prompt_code. exact X.
        -- constructor; [reflexivity|constructor].
  - cbn [SpecGenerate.block_lines good_block map code_after forallb] in *.
    apply andb_true_iff in U as (U1 & U2).
    cbn [run]. rewrite plain_step by exact U1.
    change (is_code (text "  " ++ l ++ eol)) with true. cbv iota.
    rewrite run_code.
    + rewrite filter_none.
      * cbn [map]. rewrite app_nil_r. reflexivity.
      * intros x X. apply in_map_iff in X as (y & <- & Y). cbn [quiet] in Q.
        rewrite forallb_forall in Q. apply no_prompt_line, Q, Y.
    + exact U2.
    + apply Forall_forall. intros x X. apply in_map_iff in X as (y & <- & Y). reflexivity.
Qed.

Lemma prompts_length : forall ps p, length (prompts p ps) = length ps.
Proof.
  induction ps as [|q ps IH]; intro p; [reflexivity|]. cbn [prompts].
  destruct ps as [|k ps]; [reflexivity|]. cbn [length]. rewrite IH. reflexivity.
Qed.

Lemma session_length : forall cs,
  length (map (skipn 2) (concat (map command_lines cs))) = length (concat (map pieces cs)).
Proof.
  intro cs. etransitivity; [apply map_length|].
  induction cs as [|c cs IH]; [reflexivity|]. cbn [map concat].
  etransitivity; [apply app_length|]. etransitivity; [|symmetry; apply app_length].
  apply f_equal2; [apply prompts_length|exact IH].
Qed.

Lemma long_session_code : forall code b, is_listing b = true ->
  (1 <? length (code_after code b))%nat = long_session b.
Proof.
  intros code b L. unfold long_session. destruct b as [l|k title|c items|l ls]; try discriminate L.
  - unfold code_after. rewrite session_length. reflexivity.
  - reflexivity.
Qed.

Lemma text_line : forall b, good_block b = true -> is_listing b = false ->
  exists l, SpecGenerate.block_lines b = [l] /\ is_code l = false
    /\ block_commands b = [] /\ long_session b = false.
Proof.
  intros b G L. destruct b as [l|k title|c items|l ls]; try discriminate L;
    cbn [SpecGenerate.block_lines]; eexists; splits; try reflexivity.
  cbn in G. apply andb_true_iff in G as (G & _). apply andb_true_iff in G as (_ & G).
  unfold is_code.
  destruct (starts (literal "  ") (l ++ eol)) eqn:E; [exfalso|reflexivity].
  apply starts_line in E; [|cbn; intuition discriminate].
  apply starts_inv in E as (r & ->). discriminate G.
Qed.

Lemma linked_cons : forall b g, linked_sessions (b :: g)
  = (if long_session b && negb (match g with [] => true | _ => false end)
     then [block_commands b] else []) ++ linked_sessions g.
Proof.
  intros b [|k g]; cbn [linked_sessions].
  - rewrite andb_false_r. reflexivity.
  - rewrite andb_true_r. reflexivity.
Qed.

Lemma run_guide : forall base g cpp code n cs,
  forallb good_block g = true -> forallb quiet g = true -> apart g = true ->
  (cpp = true -> match g with b :: _ => is_listing b = false | [] => True end) ->
  forallb unlinked (guide_lines g) = true -> forallb finished (commands g) = true ->
  (cpp && (1 <? length code)%nat = true ->
     make_copy_paste_friendly code = Some (map paste_line cs)) ->
  exists s', run base (Build_st cpp code n false false) (guide_lines g)
    = Some (s', with_links base n (cpp && (1 <? length code)%nat) g,
            map (map paste_line)
              ((if cpp && (1 <? length code)%nat && negb (match g with [] => true | _ => false end)
                then [cs] else [])
               ++ linked_sessions g)).
Proof.
  intros base g. induction g as [|b g IH]; intros cpp code n cs G Q A C U F M.
  { cbn. eexists. rewrite andb_false_r. reflexivity. }
  cbn [forallb] in G, Q. apply andb_true_iff in G as (GB & G).
  apply andb_true_iff in Q as (QB & Q).
  assert (A' : apart g = true /\ (is_listing b = true ->
    match g with k :: _ => is_listing k = false | [] => True end)).
  { cbn [apart] in A. destruct g as [|k g]; [split; [reflexivity|intros _; exact Logic.I]|].
    apply andb_true_iff in A as (A1 & A2). split; [exact A2|]. intro L. rewrite L in A1.
    destruct (is_listing k); [discriminate|reflexivity]. }
  destruct A' as (A1 & A2).
  unfold guide_lines in U. cbn [map concat] in U. rewrite forallb_app in U.
  apply andb_true_iff in U as (U1 & U2).
  unfold commands in F. cbn [map concat] in F. rewrite forallb_app in F.
  apply andb_true_iff in F as (F1 & F2).
  unfold guide_lines. cbn [map concat]. rewrite run_app. rewrite linked_cons, andb_true_r.
  destruct (is_listing b) eqn:L.
  - assert (cpp = false) as ->.
    { destruct cpp; [|reflexivity]. specialize (C eq_refl). congruence. }
    rewrite run_listing by auto. cbn [andb app].
    destruct (IH true (code_after code b) n (block_commands b)) as (s' & R); auto.
    { cbn [andb]. intro H. rewrite long_session_code in H by exact L.
      destruct b as [l|k title|c items|l ls]; try discriminate L; [|discriminate H].
      apply paste_commands. exact F1. }
    fold (guide_lines g). rewrite R. exists s'. cbn [andb with_links].
    rewrite long_session_code by exact L. reflexivity.
  - destruct (text_line b GB L) as (l & EL & CL & EC & LS).
    rewrite EL in *. cbn [forallb] in U1. apply andb_true_iff in U1 as (U1 & _).
    cbn [run]. rewrite plain_step, CL by exact U1. rewrite LS. cbn [andb app].
    cbn [with_links]. rewrite EL, LS.
    destruct cpp; cbn [andb] in *.
    + destruct (1 <? length code)%nat eqn:K.
      * rewrite (M eq_refl).
        destruct (IH false code (S n) cs) as (s' & R); auto; try discriminate.
        fold (guide_lines g). rewrite R. exists s'. cbn [andb app opt_list map]. reflexivity.
      * destruct (IH false code n cs) as (s' & R); auto; try discriminate.
        fold (guide_lines g). rewrite R. exists s'. reflexivity.
    + destruct (IH false code n cs) as (s' & R); auto; try discriminate.
      fold (guide_lines g). rewrite R. exists s'. reflexivity.
Qed.

(** ** The files *)

Lemma numbered_inj : forall base i j,
  numbered base i ++ literal ".qbk" = numbered base j ++ literal ".qbk" -> i = j.
Proof.
  intros base i j H. apply app_inv_tail in H. unfold numbered in H.
  apply app_inv_head in H. apply (app_inv_head [95]) in H. apply print_int_inj in H. lia.
Qed.

Lemma snippet_same : forall base i cs,
  (numbered base i ++ literal ".qbk", snippet_text base i (map paste_line cs))
  = snippet base i cs.
Proof. intros. unfold snippet, snippet_text. rewrite map_map. reflexivity. Qed.

Lemma snippets_names : forall base css i f, In f (map fst (snippets base i css)) ->
  exists j, (i <= j)%nat /\ f = numbered base j ++ literal ".qbk".
Proof.
  induction css as [|cs css IH]; intros i f H; [destruct H|]. cbn [snippets map] in H.
  destruct H as [<-|H].
  - exists i. split; [lia|reflexivity].
  - apply IH in H as (j & L & E). exists j. split; [lia|exact E].
Qed.

Lemma snippets_distinct : forall base css i, NoDup (map fst (snippets base i css)).
Proof.
  induction css as [|cs css IH]; intro i; [constructor|]. cbn [snippets map]. constructor; auto.
  intro H. apply snippets_names in H as (j & L & E). apply (numbered_inj base i j) in E. lia.
Qed.

Lemma snippet_files_list : forall base css i fs,
  (forall j, (i <= j)%nat -> ~ In (numbered base j ++ literal ".qbk") (map fst fs)) ->
  snippet_files base i (map (map paste_line) css) fs = fs ++ snippets base i css.
Proof.
  induction css as [|cs css IH]; intros i fs N; cbn [map snippet_files snippets].
  - rewrite app_nil_r. reflexivity.
  - rewrite set_new by (apply N; lia). rewrite snippet_same. rewrite IH.
    + rewrite <- app_assoc. reflexivity.
    + intros j L I. rewrite map_app in I. apply in_app_or in I as [I|[I|[]]].
      * apply (N j); [lia|exact I].
      * apply (numbered_inj base i j) in I. lia.
Qed.

Theorem links_of_guide : forall base g, good_guide g -> forallb quiet g = true ->
  forallb unlinked (guide_lines g) = true -> forallb finished (commands g) = true ->
  extract_code_snippets (guide_lines g) base
  = Some (snippets base 0 (linked_sessions g), with_links base 0 false g).
Proof.
  intros base g (G & A) Q U F. rewrite extract_run.
  destruct (run_guide base g false [] 0 [] G Q A) as (s' & R); auto; try discriminate.
  cbn [andb] in R. unfold s_start. rewrite R. rewrite snippet_files_list by (intros j _ []).
  reflexivity.
Qed.

(** What is pasted is what was typed in, but for whitespace. *)
Lemma dense_skip : forall s, dense (skip_white s) = dense s.
Proof.
  induction s as [|c s IH]; [reflexivity|]. cbn [skip_white]. destruct (white c) eqn:W.
  - rewrite IH. unfold dense. cbn [filter]. rewrite W. reflexivity.
  - reflexivity.
Qed.

Lemma dense_app : forall a b, dense (a ++ b) = dense a ++ dense b.
Proof. intros. unfold dense. apply filter_app. Qed.

Lemma paste_dense : forall c, dense (paste_line c) = dense (concat (pieces c)).
Proof.
  intros (p, ps). unfold paste_line, pieces. cbn [fst snd]. rewrite dense_app.
  change (dense eol) with (@nil char). rewrite app_nil_r. destruct ps as [|q ps].
  - cbn [concat]. rewrite app_nil_r. reflexivity.
  - induction (p :: q :: ps) as [|x l IH]; [reflexivity|]. cbn [map concat].
    rewrite !dense_app, dense_skip, IH. reflexivity.
Qed.

(** ** Everything that is generated from a guide *)

Lemma note_block : forall n, number_ok n -> good_block (Prose (note n)) = true.
Proof.
  intros n O. cbn [good_block]. apply andb_true_iff. split; [apply andb_true_iff; split|]; try reflexivity.
  unfold one_line, note. rewrite !forallb_app. apply andb_true_iff. split; [reflexivity|].
  apply andb_true_iff. split; [|reflexivity]. apply forallb_forall. intros c C.
  pose proof (name_chars n O) as F. rewrite Forall_forall in F. apply F in C.
  apply negb_true_iff. apply orb_false_iff. split; apply Z.eqb_neq;
    destruct C as [C|C]; unfold digit_char in *; unfold str, char in *; lia.
Qed.

Lemma occurs_nil : forall p : str, p <> [] -> ~ occurs p [].
Proof.
  intros p N (a & b & E). symmetry in E. apply app_eq_nil in E as (_ & E).
  apply app_eq_nil in E as (E & _). contradiction.
Qed.

Lemma occurs_cuts : forall p a b : str, p <> [] -> Forall (fun c => ~ In c p) a ->
  occurs p (a ++ b) -> occurs p b.
Proof.
  intros p a b N F. induction F as [|c a C F IH]; intro H; [exact H|].
  apply (occurs_cut p [] c (a ++ b)) in H; [|exact C]. destruct H as [H|H]; [|auto].
  exfalso. exact (occurs_nil p N H).
Qed.

Lemma note_without : forall (p : str) n, number_ok n -> p <> [] ->
  (forall c, In c p -> ~ name_char c) ->
  within p note_begin = false -> within p (text " here].]" ++ eol) = false ->
  within p (note n ++ eol) = false.
Proof.
  intros p n O N P A B. destruct (within p (note n ++ eol)) eqn:E; [exfalso|reflexivity].
  apply contains_iff in E. unfold note in E. rewrite <- !app_assoc in E.
  replace (note_begin ++ name n ++ text " here].]" ++ eol)
    with ((removelast note_begin) ++ 95 :: name n ++ text " here].]" ++ eol) in E
    by reflexivity.
  apply occurs_cut in E; [|intro X; apply (P 95 X); now right].
  destruct E as [E|E].
  - apply Bool.diff_false_true. rewrite <- A. apply contains_iff.
    destruct E as (u & v & E). exists u, (v ++ [95]).
    replace note_begin with (removelast note_begin ++ [95]) by reflexivity.
    rewrite E, <- !app_assoc. reflexivity.
  - apply occurs_cuts in E; [|exact N|].
    + apply Bool.diff_false_true. rewrite <- B. apply contains_iff. exact E.
    + pose proof (name_chars n O) as F. eapply Forall_impl; [|exact F].
      intros c C X. exact (P c X C).
Qed.

Lemma note_unlinked : forall n, number_ok n -> unlinked (note n ++ eol) = true.
Proof.
  intros n O. unfold unlinked.
  assert (D : forall p : str, forallb (fun c => negb ((48 <=? c) && (c <=? 57)) && negb (c =? 95)) p = true ->
    forall c, In c p -> ~ name_char c).
  { intros p H c C. rewrite forallb_forall in H. apply H in C. apply andb_true_iff in C as (C1 & C2).
    apply negb_true_iff in C1, C2. apply Z.eqb_neq in C2. apply andb_false_iff in C1.
    intros [X|X]; unfold digit_char in *; [|contradiction].
    destruct C1 as [C1|C1]; apply Z.leb_gt in C1; unfold str, char in *; lia. }
  rewrite !note_without; try reflexivity; try exact O; try discriminate;
    apply D; reflexivity.
Qed.

Lemma with_notes_in : forall g before b, In b (with_notes before g) ->
  In b g \/ exists n title, In (Heading n title) g /\ b = Prose (note n).
Proof.
  induction g as [|k g IH]; intros before b H; [destruct H|]. cbn [with_notes] in H.
  destruct H as [<-|H]; [left; now left|]. apply in_app_or in H as [H|H].
  - destruct k as [l|n title|c is|l ls]; try contradiction.
    destruct (source_of true (commands (numbered_part before))); [destruct H|].
    destruct H as [<-|[]]. right. exists n, title. split; [now left|reflexivity].
  - apply IH in H as [H|(n & title & I & E)]; [left; now right|].
    right. exists n, title. split; [now right|exact E].
Qed.

Lemma with_notes_commands : forall g before, commands (with_notes before g) = commands g.
Proof.
  induction g as [|k g IH]; intros before; [reflexivity|]. cbn [with_notes].
  unfold commands in *. cbn [map concat]. rewrite map_app, concat_app, IH. f_equal.
  destruct k as [l|n title|c is|l ls]; try reflexivity.
  destruct (source_of true (concat (map block_commands (numbered_part before)))); reflexivity.
Qed.

Lemma with_notes_apart : forall g before, apart g = true -> apart (with_notes before g) = true.
Proof.
  induction g as [|k g IH]; intros before A; [reflexivity|].
  assert (A' : apart g = true).
  { destruct g; [reflexivity|]. cbn [apart] in A. apply andb_true_iff in A. apply A. }
  cbn [with_notes].
  destruct k as [l|n title|c is|l ls]; cbn [app].
  - specialize (IH (before ++ [Prose l]) A'). cbn [apart].
    destruct (with_notes (before ++ [Prose l]) g); [reflexivity|]. exact IH.
  - destruct (source_of true (commands (numbered_part before))).
    + cbn [app]. specialize (IH (before ++ [Heading n title]) A'). cbn [apart].
      destruct (with_notes (before ++ [Heading n title]) g); [reflexivity|]. exact IH.
    + cbn [app]. specialize (IH (before ++ [Heading n title]) A'). cbn [apart is_listing andb negb].
      destruct (with_notes (before ++ [Heading n title]) g); [reflexivity|]. exact IH.
  - specialize (IH (before ++ [Session c is]) A'). cbn [apart].
    destruct g as [|k g]; [reflexivity|]. cbn [with_notes] in *.
    cbn [apart] in A. apply andb_true_iff in A as (A & _). rewrite A. exact IH.
  - specialize (IH (before ++ [Listing l ls]) A'). cbn [apart].
    destruct g as [|k g]; [reflexivity|]. cbn [with_notes] in *.
    cbn [apart] in A. apply andb_true_iff in A as (A & _). rewrite A. exact IH.
Qed.

Lemma with_notes_linked : forall g before,
  linked_sessions (with_notes before g) = linked_sessions g.
Proof.
  induction g as [|k g IH]; intros before; [reflexivity|]. cbn [with_notes].
  rewrite !linked_cons.
  destruct k as [l|n title|c is|l ls]; cbn [app].
  - rewrite IH. reflexivity.
  - destruct (source_of true (commands (numbered_part before))); cbn [app].
    + rewrite IH. reflexivity.
    + rewrite linked_cons, IH. reflexivity.
  - rewrite IH. destruct g as [|k g]; [reflexivity|]. cbn [with_notes]. reflexivity.
  - rewrite IH. reflexivity.
Qed.

Theorem everything : forall base g, good_guide g -> in_order (numbers g) ->
  forallb plain_definition (commands g) = true ->
  Forall (Forall (fun k => k <= 9)) (numbers g) ->
  forallb fresh (guide_lines g) = true ->
  forallb quiet g = true ->
  forallb unlinked (guide_lines g) = true -> forallb finished (commands g) = true ->
  generate_all (guide_lines g) base
  = Some (gen_headers (all_names g) (tagged [] g), pages [] (all_names g) (tagged [] g),
          snippets base 0 (linked_sessions g), with_links base 0 false (with_notes [] g)).
Proof.
  intros base g G O P S F Q U D. unfold generate_all. rewrite (parse_guide g G O).
  fold (all_names g). rewrite (docs_of_guide g _ G O), (notes_of_guide g G O P S F).
  rewrite links_of_guide.
  - rewrite with_notes_linked. reflexivity.
  - destruct G as (G & A). split; [|apply with_notes_apart; exact A].
    apply forallb_forall. intros b B. apply with_notes_in in B as [B|(n & title & I & ->)].
    + rewrite forallb_forall in G. auto.
    + apply note_block. rewrite forallb_forall in G. apply G in I. apply (good_numbers _ _ I).
  - apply forallb_forall. intros b B. apply with_notes_in in B as [B|(n & title & I & ->)].
    + rewrite forallb_forall in Q. auto.
    + reflexivity.
  - apply forallb_forall. intros l L. unfold guide_lines in L. apply in_concat in L as (ls & LS & L).
    apply in_map_iff in LS as (b & <- & B). apply with_notes_in in B as [B|(n & title & I & ->)].
    + rewrite forallb_forall in U. apply U. unfold guide_lines. apply in_concat.
      eexists. split; [apply in_map; exact B|exact L].
    + cbn in L. destruct L as [<-|[]]. apply note_unlinked.
      destruct G as (G & _). rewrite forallb_forall in G. apply G in I. apply (good_numbers _ _ I).
  - rewrite with_notes_commands. exact D.
Qed.

Lemma good_base_ok : forall base, good_base base = true -> base_ok base.
Proof.
  intros base H. unfold good_base in H. apply andb_true_iff in H as (A & B).
  apply negb_true_iff in A, B. split.
  - intro I. apply in_split in I as (u & v & ->).
    assert (X : within (text "[") (u ++ 91 :: v) = true)
      by (apply contains_iff; exists u, v; reflexivity).
    congruence.
  - intro O. apply contains_iff in O. change (contains (text "endsect") base)
      with (within (text "endsect") base) in O. congruence.
Qed.
