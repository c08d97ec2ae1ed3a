(** C93: white space between tokens does not matter. *)

From Coq Require Import ZArith List Bool Lia.
From Verif Require Import Base Util Combinators Variadic Parsers Deep Calculator Functions Examples MetaHs Grammar
  Spec SpecCalc SpecExamples SpecDeep SpecRules SpecLayout Proofs_Pos Proofs_Parsers2 Proofs_Deep Proofs_Rules Proofs_Layout
  Properties_Positions Properties_Deep Properties_Rules.
Import ListNotations.
Open Scope Z_scope.

Local Definition c98 := default_config Std98.
Local Definition c11 := default_config Std11.

Lemma acc_place : forall kind_of s ps t q s' ps' t' q', acc (same_from_token kind_of) s ps t q s' ps' t' q' ->
  same_from_token kind_of t t' /\ same_place kind_of s ps q s' ps' q'
  /\ (exists w, s' = w ++ t' /\ walk ps' w q').
Proof.
  intros kind_of s ps t q s' ps' t' q' (A & w & w' & -> & -> & -> & ->). split; [exact A|]. split.
  - exists w, t, w', t'. repeat (split; [try reflexivity; apply walk_iff; reflexivity|]). apply A.
  - exists w'. split; [reflexivity|]. apply walk_iff. reflexivity.
Qed.
Lemma rej_place : forall kind_of s ps q s' ps' q', rej (same_tokens kind_of) s ps q s' ps' q' ->
  same_place kind_of s ps q s' ps' q'.
Proof.
  intros kind_of s ps q s' ps' q' (w & t & w' & t' & -> & -> & -> & -> & A). exists w, t, w', t'.
  repeat (split; [try reflexivity; apply walk_iff; reflexivity|]). exact A.
Qed.

Section Layout.
Variable cfg : config.
Variable env : program.
Variable kind_of : char -> kind.
Variable role_of : nat -> role.
Hypothesis spaces : spaces_known kind_of.
Hypothesis kept : roles_kept kind_of role_of env.
Hypothesis FE : program_every (fits cfg) env.

Definition like e (rel : str -> str -> Prop) : Prop := forall s ps o, gives (cfg_std cfg) env e s ps o ->
  forall s' ps', rel s s' ->
  exists o', gives (cfg_std cfg) env e s' ps' o'
    /\ related (same_from_token kind_of) (same_tokens kind_of) s ps s' ps' o o'.

Lemma like_accepted : forall e rel, every (fits cfg) e -> like e rel ->
  forall s s' ps ps', rel s s' -> forall n v t q, eval cfg env n e s ps = Accept v t q ->
    exists t' q', (exists N, forall n', (N <= n')%nat -> eval cfg env n' e s' ps' = Accept v t' q')
      /\ same_from_token kind_of t t' /\ same_place kind_of s ps q s' ps' q'
      /\ (exists w, s' = w ++ t' /\ walk ps' w q').
Proof.
  intros e rel Fe L s s' ps ps' S n v t q E.
  assert (G : gives (cfg_std cfg) env e s ps (Accept v t q)).
  { rewrite (C64_the_rules_are_exact cfg env e FE Fe); [eauto|]. left. unfold is_accept. eauto. }
  destruct (L _ _ _ G s' ps' S) as (o' & D & t' & q' & -> & A).
  exists t', q'. split; [apply (C64_found_eventually cfg env e FE Fe _ _ _ D)|]. apply acc_place. exact A.
Qed.
Lemma like_rejected : forall e rel, every (fits cfg) e -> like e rel ->
  forall s s' ps ps', rel s s' -> forall n m q, eval cfg env n e s ps = Reject m q ->
    exists m' q', (exists N, forall n', (N <= n')%nat -> eval cfg env n' e s' ps' = Reject m' q')
      /\ same_place kind_of s ps q s' ps' q'.
Proof.
  intros e rel Fe L s s' ps ps' S n m q E.
  assert (G : gives (cfg_std cfg) env e s ps (Reject m q)).
  { rewrite (C64_the_rules_are_exact cfg env e FE Fe); [eauto|]. right. unfold is_reject. eauto. }
  destruct (L _ _ _ G s' ps' S) as (o' & D & m' & q' & -> & A).
  exists m', q'. split; [apply (C64_found_eventually cfg env e FE Fe _ _ _ D)|]. apply rej_place. exact A.
Qed.
Lemma tokens_like : forall e, tokens_only kind_of role_of e -> like e (same_from_token kind_of).
Proof. intros e T. exact (tokens_simulates (cfg_std cfg) env kind_of spaces role_of kept e T). Qed.
Lemma spaces_like : forall e, tokens_only kind_of role_of e ->
  like (PLastOf [PRepeated PSpace; e]) (same_tokens kind_of).
Proof. intros e T. exact (spaces_first_simulates (cfg_std cfg) env kind_of spaces role_of kept e T). Qed.

Lemma like_entire : forall e rel me, like e rel -> like (PEntireInput e me) rel.
Proof.
  intros e rel me L s ps o G s' ps' S. inversion G; subst;
  match goal with H : gives _ _ e _ _ _ |- _ => destruct (L _ _ _ H s' ps' S) as (o' & D & R) end.
  - destruct R as (t' & q' & -> & A). pose proof (proj1 (same_at_ends kind_of _ _ (proj1 A)) eq_refl) as ->.
    eexists. split; [apply g_entire_input; exact D|]. exists [], q'. auto.
  - destruct R as (t' & q' & -> & A). destruct t' as [|d t'].
    + pose proof (proj2 (same_at_ends kind_of _ _ (proj1 A)) eq_refl). discriminate.
    + eexists. split; [eapply g_entire_input_more; exact D|]. exists me, q'. split; [reflexivity|].
      destruct A as (A & w & w' & -> & -> & -> & ->). exists w, (c :: s'0), w', (d :: t').
      repeat (split; [reflexivity|]). apply A.
  - destruct R as (m1 & q' & -> & A). eexists. split; [eapply g_entire_input_fails; exact D|]. exists m1, q'. auto.
Qed.
End Layout.

(** Every text has exactly one list of tokens, ... *)
Theorem C93_tokens : forall kind_of s, exists ts, split kind_of s ts
  /\ forall ts', split kind_of s ts' -> ts' = ts.
Proof.
  intros kind_of s. destruct (split_ex kind_of s) as (ts & S). exists ts. split; auto.
  intros ts' S'. symmetry. eapply split_unique; eauto.
Qed.
Print Assumptions C93_tokens.

(** ... which does not change when white space is put anywhere but inside a word. *)
Theorem C93_inserted : forall kind_of u sp t, Forall (of_kind kind_of Space) sp ->
  between_tokens kind_of u t -> same_tokens kind_of (u ++ t) (u ++ sp ++ t).
Proof. exact same_insert. Qed.
Print Assumptions C93_inserted.

(** A parser that reads tokens accepts texts with the same tokens with the same
    result, and the same tokens remain. *)
Theorem C93_accepted : forall cfg env kind_of role_of e, spaces_known kind_of -> roles_kept kind_of role_of env ->
  program_every (fits cfg) env -> every (fits cfg) e -> tokens_only kind_of role_of e ->
  forall s s' ps ps', same_from_token kind_of s s' ->
  forall n v t q, eval cfg env n e s ps = Accept v t q ->
    exists t' q', (exists N, forall n', (N <= n')%nat -> eval cfg env n' e s' ps' = Accept v t' q')
      /\ same_from_token kind_of t t' /\ same_place kind_of s ps q s' ps' q'
      /\ (exists w, s' = w ++ t' /\ walk ps' w q').
Proof.
  intros cfg env kind_of role_of e K R FE Fe T.
  exact (like_accepted cfg env kind_of FE e _ Fe (tokens_like cfg env kind_of role_of K R e T)).
Qed.
Print Assumptions C93_accepted.

(** It rejects texts with the same tokens before the same tokens. *)
Theorem C93_rejected : forall cfg env kind_of role_of e, spaces_known kind_of -> roles_kept kind_of role_of env ->
  program_every (fits cfg) env -> every (fits cfg) e -> tokens_only kind_of role_of e ->
  forall s s' ps ps', same_from_token kind_of s s' ->
  forall n m q, eval cfg env n e s ps = Reject m q ->
    exists m' q', (exists N, forall n', (N <= n')%nat -> eval cfg env n' e s' ps' = Reject m' q')
      /\ same_place kind_of s ps q s' ps' q'.
Proof.
  intros cfg env kind_of role_of e K R FE Fe T.
  exact (like_rejected cfg env kind_of FE e _ Fe (tokens_like cfg env kind_of role_of K R e T)).
Qed.
Print Assumptions C93_rejected.

(** If one of the texts can not be parsed at all (an ill-formed program, a parser that
    does not terminate), the other can not either. *)
Theorem C93_no_result : forall cfg env kind_of role_of e, spaces_known kind_of -> roles_kept kind_of role_of env ->
  program_every (fits cfg) env -> every (fits cfg) e -> tokens_only kind_of role_of e ->
  forall s s' ps ps', same_from_token kind_of s s' ->
    ((forall n, eval cfg env n e s ps = Illformed \/ eval cfg env n e s ps = OutOfFuel)
     <-> forall n, eval cfg env n e s' ps' = Illformed \/ eval cfg env n e s' ps' = OutOfFuel).
Proof.
  intros cfg env kind_of role_of e K R FE Fe T s s' ps ps' S.
  rewrite <- !(C64_no_result cfg env e FE Fe). split; intros N o G.
  - destruct (tokens_like cfg env kind_of role_of K R e T _ _ _ G s ps (same_at_sym _ _ _ S)) as (o' & D & _).
    exact (N _ D).
  - destruct (tokens_like cfg env kind_of role_of K R e T _ _ _ G s' ps' S) as (o' & D & _). exact (N _ D).
Qed.
Print Assumptions C93_no_result.

(** Programs in languages whose parsers skip white space first: what is compiled to
    what, and where an error is. *)
Definition layout_free cfg env kind_of p (rel : str -> str -> Prop) : Prop :=
  forall s s', rel s s' ->
    (forall v, (exists n, build_parser (eval cfg env n p) s = Built v)
               <-> exists n, build_parser (eval cfg env n p) s' = Built v)
    /\ (forall l c m, (exists n, build_parser (eval cfg env n p) s = ParsingFailed l c m) ->
          exists l' c' m', (exists n, build_parser (eval cfg env n p) s' = ParsingFailed l' c' m')
            /\ exists q q', line q = l /\ col q = c /\ line q' = l' /\ col q' = c'
                 /\ same_place kind_of s start q s' start q').

Lemma layout_free_like : forall cfg env kind_of p (rel : str -> str -> Prop), (forall s s', rel s s' -> rel s' s) ->
  program_every (fits cfg) env -> every (fits cfg) p -> like cfg env kind_of p rel ->
  layout_free cfg env kind_of p rel.
Proof.
  intros cfg env kind_of p rel Sy FE Fe L s s' S. split.
  - assert (X : forall s s' v, rel s s' -> (exists n, build_parser (eval cfg env n p) s = Built v) ->
      exists n, build_parser (eval cfg env n p) s' = Built v).
    { clear s s' S. intros s s' v S (n & B). unfold build_parser in *.
      destruct (eval cfg env n p s start) as [r t q| | |] eqn:E; try discriminate. injection B as ->.
      destruct (like_accepted cfg env kind_of FE p rel Fe L s s' start start S n v t q E) as (t' & q' & (N & H) & _).
      exists N. rewrite (H N (le_n N)). reflexivity. }
    intros v. split; apply X; auto.
  - intros l c m (n & B). unfold build_parser in B.
    destruct (eval cfg env n p s start) as [r t q|m0 q| |] eqn:E; try discriminate. injection B as <- <- <-.
    destruct (like_rejected cfg env kind_of FE p rel Fe L s s' start start S n m0 q E) as (m' & q' & (N & H) & P).
    exists (line q'), (col q'), m'. split.
    + exists N. unfold build_parser. rewrite (H N (le_n N)). reflexivity.
    + exists q, q'. repeat (split; [reflexivity|]). exact P.
Qed.

Lemma fits_first : forall cfg e me, fits_sequence cfg 2 -> every (fits cfg) e ->
  every (fits cfg) (PEntireInput (PLastOf [PRepeated PSpace; e]) me).
Proof.
  intros cfg e me F Fe. apply every_intro; [exact F|]. intros x [<-|[]]. apply every_intro; [exact F|].
  intros x [<-|[<-|[]]]; [|exact Fe]. apply every_intro; [exact I|]. intros x [<-|[]].
  apply every_intro; [exact I|]. intros x [<-|[]]. apply every_intro; [exact I|]. intros x [].
Qed.

Theorem C93_compiled : forall cfg env kind_of role_of e me, fits_sequence cfg 2 ->
  spaces_known kind_of -> roles_kept kind_of role_of env ->
  program_every (fits cfg) env -> every (fits cfg) e -> tokens_only kind_of role_of e ->
  layout_free cfg env kind_of (PEntireInput (PLastOf [PRepeated PSpace; e]) me) (same_tokens kind_of).
Proof.
  intros cfg env kind_of role_of e me F2 K R FE Fe T. apply layout_free_like; auto.
  - apply same_sym.
  - apply fits_first; auto.
  - apply like_entire. apply spaces_like with (role_of := role_of); auto.
Qed.
Print Assumptions C93_compiled.

(** Without white space skipped first, the texts have to start with the first token. *)
Theorem C93_compiled_from_token : forall cfg env kind_of role_of e,
  spaces_known kind_of -> roles_kept kind_of role_of env ->
  program_every (fits cfg) env -> every (fits cfg) e -> tokens_only kind_of role_of e ->
  layout_free cfg env kind_of e (same_from_token kind_of).
Proof.
  intros cfg env kind_of role_of e K R FE Fe T. apply layout_free_like; auto.
  - apply same_at_sym.
  - apply tokens_like with (role_of := role_of); auto.
Qed.
Print Assumptions C93_compiled_from_token.

(** ** The examples of the library *)

Lemma is_space_iff : forall c, is_space c = true <-> space_char c.
Proof. intros c. unfold is_space, space_char. rewrite !orb_true_iff, !Z.eqb_eq. tauto. Qed.
Lemma number_spaces : spaces_known number_kind.
Proof.
  intros c. rewrite <- is_space_iff. unfold number_kind. destruct (is_space c); [tauto|].
  destruct (is_number c); split; discriminate.
Qed.
Lemma hs_spaces : spaces_known hs_kind.
Proof.
  intros c. rewrite <- is_space_iff. unfold hs_kind. destruct (is_space c); [tauto|].
  destruct (is_name c); [split; discriminate|]. destruct (_ || _); split; discriminate.
Qed.

Lemma lit_reads : forall kind_of k c, kind_of c = k -> reads_one (of_kind kind_of k) (PLitC c).
Proof.
  intros kind_of k c K. constructor; [constructor|]. intros d N. cbn.
  destruct (Z.eqb_spec d c) as [->|]; [destruct (N K)|reflexivity].
Qed.
Lemma digit_reads : forall kind_of k, (forall c, is_number c = true -> kind_of c = k) ->
  reads_one (of_kind kind_of k) PDigit.
Proof.
  intros kind_of k K. constructor; [constructor|]. intros d N. cbn.
  destruct (is_number d) eqn:E; [destruct (N (K d E))|exact (f_equal Some E)].
Qed.
Lemma letter_reads : forall kind_of k, (forall c, is_name c = true -> kind_of c = k) ->
  reads_one (of_kind kind_of k) PLetter.
Proof.
  intros kind_of k K. constructor; [constructor|]. intros d N. cbn.
  destruct (is_name d) eqn:E; [destruct (N (K d E))|]. unfold is_name in E.
  apply orb_false_iff in E as (E & _). apply orb_false_iff in E as (E & ->).
  apply orb_false_iff in E as (_ & ->). reflexivity.
Qed.
Lemma number_is_word : forall c, is_number c = true -> number_kind c = Word 0.
Proof.
  intros c E. unfold number_kind. rewrite E. destruct (is_space c) eqn:S; auto.
  unfold is_number, is_space in *. rewrite ?orb_true_iff, ?andb_true_iff, ?Z.leb_le, ?Z.eqb_eq in *. lia.
Qed.
Lemma name_is_word : forall c, is_name c = true -> hs_kind c = Word 0.
Proof.
  intros c E. unfold hs_kind. rewrite E. destruct (is_space c) eqn:S; auto.
  unfold is_name, is_number, is_space in *. rewrite ?orb_true_iff, ?andb_true_iff, ?Z.leb_le, ?Z.eqb_eq in *. lia.
Qed.
Lemma number_is_name : forall c, is_number c = true -> hs_kind c = Word 0.
Proof. intros c E. apply name_is_word. unfold is_name. rewrite E. reflexivity. Qed.

(** The roles: all named parsers read tokens. *)
Definition all_syntactic : nat -> role := fun _ => Syntactic.

Ltac sub := let x := fresh in intros x ?; cbn in *;
  repeat match goal with H : _ \/ _ |- _ => destruct H | H : False |- _ => destruct H end; subst.
Ltac lex :=
  repeat first
    [ apply lexeme_char; first [ apply lit_reads; reflexivity
                               | apply digit_reads; first [exact number_is_word|exact number_is_name]
                               | apply letter_reads; exact name_is_word ]
    | apply lexeme_keyword; repeat constructor
    | apply lexeme_combinator; [exact I|sub] ].
Ltac toks :=
  repeat first
    [ apply tokens_mark; solve [repeat constructor; apply lit_reads; reflexivity
                               |apply mark_char; apply lit_reads; reflexivity
                               |apply mark_always; apply mark_char; apply lit_reads; reflexivity]
    | eapply tokens_word; solve [instantiate (1 := 0%nat); lex | instantiate (1 := 1%nat); lex]
    | apply tokens_ref; reflexivity
    | apply tokens_spaces
    | apply tokens_entire_input
    | apply tokens_combinator; [exact I|sub] ].

Lemma calc1_tokens : tokens_only number_kind all_syntactic calc1_plus_exp.
Proof. unfold calc1_plus_exp, calc1_prod_exp. toks. Qed.
Lemma calc2_tokens : tokens_only number_kind all_syntactic calc2_plus_exp.
Proof. unfold calc2_plus_exp, calc2_prod_exp, calc2_simple_exp, paren_exp. toks. Qed.
Lemma calc3_tokens : tokens_only number_kind all_syntactic calc3_plus_exp.
Proof. unfold calc3_plus_exp, calc3_prod_exp, calc3_simple_exp, paren_exp. toks. Qed.
Lemma fun_tokens : tokens_only number_kind all_syntactic fun_plus_exp.
Proof. unfold fun_plus_exp, fun_prod_exp, value_exp. toks. Qed.
Lemma fail_kept : roles_kept number_kind all_syntactic no_program.
Proof. intros i. cbn. unfold no_program. toks. Qed.
Lemma hs_tokens : tokens_only hs_kind all_syntactic cmp_exp.
Proof.
  unfold cmp_exp, plus_exp, mult_exp, application_exp, single_exp, if_exp, bracket_exp. toks.
Qed.
Lemma def_tokens : tokens_only hs_kind all_syntactic def_parser.
Proof. unfold def_parser, hs_definition. toks. Qed.
Lemma tut20_tokens : tokens_only number_kind all_syntactic plus_exp3.
Proof. unfold plus_exp3, plus_exp_of, mult_exp6, unary_exp3, primary_exp3, paren_exp. toks. Qed.
Lemma tut23_tokens : tokens_only number_kind all_syntactic plus_exp6.
Proof. unfold plus_exp6, mult_exp7, unary_exp3, primary_exp3, paren_exp. toks. Qed.

Ltac fit_all F := repeat first
  [ progress (intros; subst)
  | match goal with H : In _ _ |- _ => progress (cbn in H) end
  | match goal with H : _ \/ _ |- _ => destruct H | H : False |- _ => destruct H end
  | apply every_intro; [cbn; first [exact I | discriminate | intros S; specialize (F S); cbn; lia
      | split; [intros S; specialize (F S); cbn; lia|discriminate]]|] ].
Lemma calc_fits_all : forall cfg, calc_fits cfg ->
  every (fits cfg) calc1_plus_exp /\ every (fits cfg) calc2_plus_exp /\ every (fits cfg) calc3_plus_exp
  /\ every (fits cfg) fun_plus_exp /\ every (fits cfg) plus_exp3 /\ every (fits cfg) plus_exp6.
Proof.
  intros cfg (F1 & F2).
  assert (F : cfg_std cfg = Std98 -> (3 <= limit_one_of cfg)%nat /\ (3 < limit_sequence cfg)%nat) by (intros S; auto).
  clear F1 F2. repeat match goal with |- _ /\ _ => split end;
  unfold calc1_plus_exp, calc1_prod_exp, calc2_plus_exp, calc2_prod_exp, calc2_simple_exp, paren_exp,
    calc3_plus_exp, calc3_prod_exp, calc3_simple_exp, paren_exp, fun_plus_exp, fun_prod_exp, value_exp,
    plus_exp3, plus_exp_of, mult_exp6, unary_exp3, primary_exp3, plus_exp6, mult_exp7, paren_exp; fit_all F.
Qed.
Lemma fail_fits : forall cfg, program_every (fits cfg) no_program.
Proof. intros cfg k. apply every_intro; [exact I|]. intros c []. Qed.
Lemma def_fits : forall cfg, cfg_std cfg <> Std98 ->
  every (fits cfg) def_parser /\ program_every (fits cfg) hs_program.
Proof.
  intros cfg N. assert (F : cfg_std cfg = Std98 -> False) by auto.
  split; [|intros k]; unfold hs_program, def_parser, hs_definition, cmp_exp, plus_exp, mult_exp, application_exp,
    single_exp, if_exp, bracket_exp; fit_all F.
Qed.

(** Calculations: only the numbers, operators and brackets matter. *)
Theorem C93_calculators : forall cfg, calc_fits cfg ->
  layout_free cfg no_program number_kind calculator (same_tokens number_kind)
  /\ layout_free cfg calc2_program number_kind calculator_with_parens (same_tokens number_kind)
  /\ layout_free cfg calc3_program number_kind calculator_with_unary_ops (same_tokens number_kind).
Proof.
  intros cfg F. destruct (calc_fits_all cfg F) as (F1 & F2 & F3 & _).
  assert (Q : fits_sequence cfg 2) by (intros S; pose proof (proj2 F S); lia).
  split; [|split].
  - apply (C93_compiled cfg no_program number_kind all_syntactic calc1_plus_exp); auto using number_spaces,
      fail_kept, fail_fits, calc1_tokens.
  - apply (C93_compiled cfg calc2_program number_kind all_syntactic (PRef 0)); auto using number_spaces.
    + intros i. exact calc2_tokens.
    + intros k. exact F2.
    + apply every_intro; [exact I|]. intros c [].
    + apply tokens_ref. reflexivity.
  - apply (C93_compiled cfg calc3_program number_kind all_syntactic (PRef 0)); auto using number_spaces.
    + intros i. exact calc3_tokens.
    + intros k. exact F3.
    + apply every_intro; [exact I|]. intros c [].
    + apply tokens_ref. reflexivity.
Qed.
Print Assumptions C93_calculators.

(** Functions of meta_lambda and compile_to_native_code. *)
Theorem C93_functions : forall cfg, calc_fits cfg ->
  layout_free cfg no_program number_kind function_parser (same_tokens number_kind).
Proof.
  intros cfg F. destruct (calc_fits_all cfg F) as (_ & _ & _ & F4 & _).
  apply (C93_compiled cfg no_program number_kind all_syntactic fun_plus_exp); auto using number_spaces,
    fail_kept, fail_fits, fun_tokens.
  intros S; pose proof (proj2 F S); lia.
Qed.
Print Assumptions C93_functions.

(** The last parsers of the tutorial, which do not skip white space first. *)
Theorem C93_tutorial : forall cfg, calc_fits cfg ->
  layout_free cfg tut20_program number_kind exp_parser20 (same_from_token number_kind)
  /\ layout_free cfg tut23_program number_kind exp_parser23 (same_from_token number_kind).
Proof.
  intros cfg F. destruct (calc_fits_all cfg F) as (_ & _ & _ & _ & F5 & F6).
  split.
  - apply (C93_compiled_from_token cfg tut20_program number_kind all_syntactic (PRef 0)); auto using number_spaces.
    + intros i. exact tut20_tokens.
    + intros k. exact F5.
    + apply every_intro; [exact I|]. intros c [].
    + apply tokens_ref. reflexivity.
  - apply (C93_compiled_from_token cfg tut23_program number_kind all_syntactic (PRef 0)); auto using number_spaces.
    + intros i. exact tut23_tokens.
    + intros k. exact F6.
    + apply every_intro; [exact I|]. intros c [].
    + apply tokens_ref. reflexivity.
Qed.
Print Assumptions C93_tutorial.

(** Definitions of meta_hs: names, numbers, keywords and operators. *)
Theorem C93_meta_hs : forall cfg, cfg_std cfg <> Std98 ->
  layout_free cfg hs_program hs_kind def_parser (same_from_token hs_kind).
Proof.
  intros cfg N. destruct (def_fits cfg N) as (F & FE).
  apply (C93_compiled_from_token cfg hs_program hs_kind all_syntactic); auto using hs_spaces, def_tokens.
  intros i. exact hs_tokens.
Qed.
Print Assumptions C93_meta_hs.

(** ** What does matter *)

Ltac token := first
  [ apply split_end
  | apply split_space; [reflexivity|]
  | apply split_mark; [reflexivity|]
  | match goal with |- split _ _ (?w :: _) => first
      [ eapply (split_word _ 0 w); [discriminate|solve [repeat constructor]|vm_compute; first [exact I|discriminate]|]
      | eapply (split_word _ 1 w); [discriminate|solve [repeat constructor]|vm_compute; first [exact I|discriminate]|] ] end ].

Ltac tokens_of ts := exists ts; split; vm_compute; repeat token.

(** The message of an error may differ, here by the column in it. *)
Theorem C93_messages_refuted : exists s s', same_tokens number_kind s s'
  /\ build_parser (eval c11 calc2_program 20 calculator_with_parens) s
     = ParsingFailed 1 3 (unpaired 1 1 (literal_expected 41))
  /\ build_parser (eval c11 calc2_program 20 calculator_with_parens) s'
     = ParsingFailed 1 4 (unpaired 1 2 (literal_expected 41)).
Proof.
  exists (text "(1"), (text " (1"). split; [|split; vm_compute; reflexivity].
  tokens_of [[40]; [49]].
Qed.
Print Assumptions C93_messages_refuted.

(** White space inside words: the rest is not the same although nothing but white
    space differs. *)
Theorem C93_words_refuted : exists s s',
  filter (fun c => negb (is_space c)) s = filter (fun c => negb (is_space c)) s'
  /\ build_parser (eval c11 no_program 20 calculator) s = Built (VInt 12)
  /\ build_parser (eval c11 no_program 20 calculator) s' = ParsingFailed 1 3 end_of_input_expected.
Proof.
  exists (text "12"), (text "1 2"). split; [vm_compute; reflexivity|]. split; vm_compute; reflexivity.
Qed.
Print Assumptions C93_words_refuted.

(** The '/' of example/rational is not a token: white space is allowed before but not
    after it. *)
Theorem C93_rational_refuted : exists s s', same_from_token number_kind s s'
  /\ build_parser (eval c11 no_program 20 rational_parser) s = Built (rational [VInt 1; VInt 2])
  /\ build_parser (eval c11 no_program 20 rational_parser) s' = ParsingFailed 1 4 digit_expected.
Proof.
  exists (text "1 /2"), (text "1 / 2"). split; [|split; vm_compute; reflexivity].
  split; [tokens_of [[49]; [47]; [50]]|]. split; vm_compute; discriminate.
Qed.
Print Assumptions C93_rational_refuted.

(** Nor are the quoted characters of grammar rules. *)
Theorem C93_rules_refuted : exists s s' v v', same_from_token hs_kind s s'
  /\ build_parser (eval c11 rule_program 50 rule_parser) s = Built v
  /\ build_parser (eval c11 rule_program 50 rule_parser) s' = v'
  /\ v' <> Built v.
Proof.
  exists (text "a ::= 'b'"), (text "a ::= ' b'"). eexists. eexists. split; [|split; [|split]].
  - split; [tokens_of [[97]; [58]; [58]; [61]; [39]; [98]; [39]]|]. split; vm_compute; discriminate.
  - vm_compute. reflexivity.
  - vm_compute. reflexivity.
  - discriminate.
Qed.
Print Assumptions C93_rules_refuted.

(** ** Examples *)

Example C93_inserted_case : between_tokens number_kind (text "12+") (text "34")
  /\ ~ between_tokens number_kind (text "12+3") (text "4").
Proof.
  split.
  - intros a c d b k E. change (text "12+") with ([49; 50] ++ [43]) in E. apply app_inj_tail in E as (_ & <-).
    intros _ H. vm_compute in H. discriminate.
  - intros H. apply (H [49; 50; 43] 51 52 [] 0%nat); reflexivity.
Qed.

Example C93_calculator_case : exists n,
  build_parser (eval c11 calc3_program n calculator_with_unary_ops) (text "  - ( 12+3 )*2 ") = Built (VInt (-30)).
Proof.
  destruct (C93_calculators c11) as (_ & _ & L); [split; intros H; discriminate|].
  apply (L (text "-(12+3)*2")).
  - tokens_of [[45]; [40]; [49; 50]; [43]; [51]; [41]; [42]; [50]].
  - exists 30%nat. vm_compute. reflexivity.
Qed.

(** An error, at corresponding places. *)
Example C93_error_case :
  build_parser (eval c11 no_program 20 calculator) (text "1+*") = ParsingFailed 1 3 digit_expected
  /\ build_parser (eval c11 no_program 20 calculator) (text " 1 +  *") = ParsingFailed 1 7 digit_expected
  /\ same_place number_kind (text "1+*") start (mkpos 1 3 43) (text " 1 +  *") start (mkpos 1 7 32).
Proof.
  split; [vm_compute; reflexivity|]. split; [vm_compute; reflexivity|].
  exists (text "1+"), (text "*"), (text " 1 +  "), (text "*").
  split; [reflexivity|]. split; [apply walk_iff; reflexivity|]. split; [reflexivity|].
  split; [apply walk_iff; reflexivity|]. tokens_of [[42]].
Qed.

Example C93_hs_case : exists n v,
  build_parser (eval c11 hs_program n def_parser) (text "f x=if x<=1 then 2 else(f(x-1))") = Built v
  /\ exists n', build_parser (eval c11 hs_program n' def_parser) (text "f  x = if x <= 1 then 2 else ( f ( x - 1 ) )")
                = Built v.
Proof.
  exists 60%nat. eexists. split; [vm_compute; reflexivity|].
  apply (C93_meta_hs c11 ltac:(discriminate) (text "f x=if x<=1 then 2 else(f(x-1))")).
  - split; [|split; vm_compute; discriminate].
    tokens_of [[102]; [120]; [61]; [105; 102]; [120]; [60; 61]; [49]; [116; 104; 101; 110]; [50];
      [101; 108; 115; 101]; [40]; [102]; [40]; [120]; [45]; [49]; [41]; [41]].
  - exists 60%nat. vm_compute. reflexivity.
Qed.

(** Everything the theorems about parsers ask for. *)
Example C93_hypotheses : spaces_known number_kind /\ roles_kept number_kind all_syntactic calc2_program
  /\ program_every (fits c98) calc2_program /\ every (fits c98) (PRef 0) /\ tokens_only number_kind all_syntactic (PRef 0)
  /\ same_from_token number_kind (text "(1+2) 3") (text "( 1 +2 )3")
  /\ eval c98 calc2_program 40 (PRef 0) (text "(1+2) 3") start = Accept (VInt 3) (text "3") (mkpos 1 7 32)
  /\ eval c98 calc2_program 40 (PRef 0) (text "( 1 +2 )3") start = Accept (VInt 3) (text "3") (mkpos 1 9 41).
Proof.
  split; [exact number_spaces|]. split; [intros i; exact calc2_tokens|].
  split; [intros k; apply calc_fits_all; split; intros _; vm_compute; lia|].
  split; [apply every_intro; [exact I|intros c []]|]. split; [apply tokens_ref; reflexivity|].
  split; [split; [tokens_of [[40]; [49]; [43]; [50]; [41]; [51]]|split; vm_compute; discriminate]|].
  split; vm_compute; reflexivity.
Qed.
