(** C39, C40, C41: grammar. *)

From Coq Require Import ZArith List Bool Lia.
From Verif Require Import Base Util Combinators Variadic Parsers Deep Grammar Spec SpecDeep SpecTerm
  SpecType SpecGrammar Proofs_Pos Proofs_Fold Proofs_Deep Proofs_Term Proofs_Type
  Properties_Deep Properties_Term Properties_Type Proofs_Grammar Proofs_Peg.
Import ListNotations.
Open Scope Z_scope.

Local Definition c98 := default_config Std98.
Local Definition c11 := default_config Std11.

(** ** C39 *)

(** The rule parser accepts exactly the rules, and builds their expressions. *)
Theorem C39_rule_parser_exact : forall cfg n s name e, grammar_fits cfg ->
  (2 * length s + 4 < n)%nat ->
  (parse_rule cfg n s = Ok (name, e) <-> rule_text name e s).
Proof.
  intros cfg n s name e F L. split.
  - apply parse_rule_ok; auto.
  - intros R. apply parse_rule_complete; auto.
Qed.
Print Assumptions C39_rule_parser_exact.

(** Everything else is a compilation error. *)
Theorem C39_other_texts_rejected : forall cfg n s, grammar_fits cfg ->
  (2 * length s + 4 < n)%nat -> (forall name e, ~ rule_text name e s) ->
  parse_rule cfg n s = Ill.
Proof.
  intros cfg n s F L N. destruct (parse_rule cfg n s) as [(name, e) | |] eqn:E; auto.
  - apply parse_rule_ok in E; auto. destruct (N _ _ E).
  - apply parse_rule_verdict in E as []; auto. unfold enough. lia.
Qed.
Print Assumptions C39_other_texts_rejected.

(** ... namely one at a place of the text, not an ill-formed instantiation. *)
Theorem C39_rule_parser_gives_a_verdict : forall cfg n s ps, grammar_fits cfg ->
  (2 * length s + 4 < n)%nat -> finishes (eval cfg rule_program n rule_parser) s ps.
Proof. intros cfg n s ps F L. apply rule_finishes; auto. unfold enough. lia. Qed.
Print Assumptions C39_rule_parser_gives_a_verdict.

(** The default limits are large enough. *)
Theorem C39_default_limits_suffice : forall d, grammar_fits (default_config d).
Proof.
  intros d. unfold grammar_fits, fits_one_of, fits_sequence, fits_one_char_except.
  cbn [limit_sequence limit_one_of limit_one_char_except default_config]. repeat split; intros; lia.
Qed.
Print Assumptions C39_default_limits_suffice.

(** The rule language is unambiguous. *)
Theorem C39_unambiguous : forall s name1 e1 name2 e2,
  rule_text name1 e1 s -> rule_text name2 e2 s -> name1 = name2 /\ e1 = e2.
Proof.
  intros s name1 e1 name2 e2 R1 R2.
  assert (F : grammar_fits c11) by (split; [|split]; intros H; discriminate).
  set (n := S (2 * length s + 4)).
  assert (P1 := parse_rule_complete c11 F n s name1 e1 R1 ltac:(unfold n; lia)).
  assert (P2 := parse_rule_complete c11 F n s name2 e2 R2 ltac:(unfold n; lia)).
  rewrite P1 in P2. inversion P2. auto.
Qed.
Print Assumptions C39_unambiguous.

(** Printing an expression and parsing it gives the expression back. *)
Theorem C39_print_and_parse : forall cfg n name e, grammar_fits cfg ->
  writable name -> names_writable e -> (2 * length (print_rule name e) + 4 < n)%nat ->
  parse_rule cfg n (print_rule name e) = Ok (name, e).
Proof.
  intros cfg n name e F Wn We L. apply parse_rule_complete; auto. apply print_rule_text; auto.
Qed.
Print Assumptions C39_print_and_parse.

(** A name given to [grammar] or [import] is the leading name of the string;
    what follows it is ignored. *)
Theorem C39_leading_name : forall cfg n s name, grammar_fits cfg -> (length s < n)%nat ->
  (rebuild cfg n s = Ok name <->
   exists rest, s = name ++ rest /\ writable name /\ not_starting_with name_char rest).
Proof.
  intros cfg n s name F L. split.
  - apply rebuild_ok; auto.
  - intros (rest & -> & W & N). apply rebuild_complete; auto.
Qed.
Print Assumptions C39_leading_name.

(** *** Examples *)

Definition ex_rule : str := text "e_1 ::=(a'+')*b+|'\n' | c".

Example C39_example_parse :
  grammar_fits c98 /\ grammar_fits c11
  /\ parse_rule c98 60 ex_rule
     = Ok (text "e_1",
           GSel (GSel (GSeq (GStar (GSeq (GName (text "a")) (GChar 43))) (GPlus (GName (text "b"))))
                      (GChar 10))
                (GName (text "c")))
  /\ parse_rule c11 60 ex_rule = parse_rule c98 60 ex_rule.
Proof.
  split; [|split; [|split]].
  - split; [|split]; intros _; vm_compute; repeat constructor.
  - split; [|split]; intros H; discriminate.
  - vm_compute. reflexivity.
  - vm_compute. reflexivity.
Qed.

(** The text is a rule by the definition of rules. *)
Example C39_example_rule_text :
  rule_text (text "x") (GSeq (GName (text "ab")) (GStar (GChar 39))) (text "x::= ab '\''*").
Proof.
  exists [TName (text "ab"); TChar 39; TStar]. split.
  - apply ch_one. apply (co_more _ _ [TName (text "ab")]).
    + apply co_one, re_atom. constructor.
    + apply (re_star _ [TChar 39]). apply re_atom. constructor.
  - assert (W : Forall space_char [32]) by (repeat constructor; red; auto).
    assert (A : forall c, 97 <= c <= 122 -> name_char c) by (intros; left; left; lia).
    assert (N : forall k (w t : str), ~ is_name k -> is_name k -> w = [] -> not_starting_with name_char t)
      by (intros; contradiction).
    assert (Nn : forall k, (forall s, k <> TName s) -> ~ is_name k) by (intros k H (s & E); exact (H s E)).
    apply (sp_cons (TName [120]) [120] [] _ (text "::= ab '\''*")).
    + apply lx_name; [discriminate|]. repeat (apply Forall_cons; [apply A; lia|]). apply Forall_nil.
    + constructor.
    + apply (sp_cons TDef [58; 58; 61] [32] _ (text "ab '\''*")); auto.
      * constructor.
      * apply (sp_cons (TName [97; 98]) [97; 98] [32] _ (text "'\''*")); auto.
        -- apply lx_name; [discriminate|]. repeat (apply Forall_cons; [apply A; lia|]). apply Forall_nil.
        -- apply (sp_cons (TChar 39) (39 :: [92; 39] ++ [39]) [] _ (text "*")); auto.
           ++ constructor. constructor.
           ++ apply (sp_cons TStar [42] [] [] []); auto; [constructor | constructor |].
              apply N, Nn. discriminate.
           ++ apply N, Nn. discriminate.
        -- discriminate.
      * apply N, Nn. discriminate.
    + intros _ _. simpl. unfold name_char, letter_char, digit_char. lia.
Qed.

Example C39_example_errors :
  (* whitespace is allowed after tokens only *)
  parse_rule c98 40 (text " a ::= b") = Ill
  /\ parse_rule c98 40 (text "a ::= ") = Ill
  /\ parse_rule c98 40 (text "a ::= (b") = Ill
  /\ parse_rule c98 40 (text "a ::= b )") = Ill
  /\ parse_rule c98 40 (text "a ::= '\'") = Ill
  /\ parse_rule c98 40 (text "a ::= '\x'") = Ill
  /\ parse_rule c98 40 (text "a ::= * b") = Ill
  /\ parse_rule c98 40 (text "a : := b") = Ill
  /\ rebuild c98 40 (text "a b+") = Ok (text "a")
  /\ rebuild c98 40 (text "") = Ill.
Proof. vm_compute. repeat split. Qed.

Example C39_example_print :
  print_rule (text "x") (GStar (GSel (GChar 39) (GSeq (GName (text "a")) (GPlus (GChar 92)))))
  = text "x ::= ( '\'' | a '\\' + ) * ".
Proof. vm_compute. reflexivity. Qed.

(** ** C40 *)

(** What the parser of a grammar accepts and rejects is what the parsing
    expressions of its rules match and do not match. *)
Theorem C40_accept_is_match : forall cfg env n g s ps v rem ps', grammar_fits cfg ->
  grammar_parser cfg env n g s ps = Accept v rem ps' ->
  exists x, start_name g x
    /\ peg (defs_of cfg env g) (acts_of g) (GName x) s ps (Match v rem ps').
Proof.
  intros cfg env n g s ps v rem ps' F E.
  apply grammar_parser_inv in E as [(N & _)|(x & p & S & I & E)]; auto; [destruct (N _ _ _ eq_refl)|].
  exists x. split; auto. eapply built_follows; [eauto | apply instantiate_built; eauto | exact E].
Qed.
Print Assumptions C40_accept_is_match.

Theorem C40_reject_is_no_match : forall cfg env n g s ps m pe, grammar_fits cfg ->
  grammar_parser cfg env n g s ps = Reject m pe ->
  exists x, start_name g x
    /\ peg (defs_of cfg env g) (acts_of g) (GName x) s ps NoMatch.
Proof.
  intros cfg env n g s ps m pe F E.
  apply grammar_parser_inv in E as [(_ & N)|(x & p & S & I & E)]; auto; [destruct (N _ _ eq_refl)|].
  exists x. split; auto. eapply built_follows; [eauto | apply instantiate_built; eauto |].
  exists m, pe. exact E.
Qed.
Print Assumptions C40_reject_is_no_match.

(** Parsing expressions have one meaning. *)
Theorem C40_one_verdict : forall cfg env g e s ps r1 r2,
  peg (defs_of cfg env g) (acts_of g) e s ps r1 ->
  peg (defs_of cfg env g) (acts_of g) e s ps r2 -> r1 = r2.
Proof. intros. eapply peg_unique; eauto. Qed.
Print Assumptions C40_one_verdict.

(** Wherever the parser gives a verdict it is equivalent to the parsing
    expression. *)
Theorem C40_same_as_parsing_expression : forall cfg env n g x s ps, grammar_fits cfg ->
  start_name g x -> finishes (grammar_parser cfg env n g) s ps ->
  (forall v rem ps', grammar_parser cfg env n g s ps = Accept v rem ps' <->
     peg (defs_of cfg env g) (acts_of g) (GName x) s ps (Match v rem ps'))
  /\ (rejects (grammar_parser cfg env n g) s ps <->
      peg (defs_of cfg env g) (acts_of g) (GName x) s ps NoMatch).
Proof.
  intros cfg env n g x s ps F S Fi.
  assert (A : forall v rem ps', grammar_parser cfg env n g s ps = Accept v rem ps' ->
     peg (defs_of cfg env g) (acts_of g) (GName x) s ps (Match v rem ps')).
  { intros v rem ps' E. apply C40_accept_is_match in E as (y & Sy & E); auto.
    rewrite (start_name_unique _ _ _ S Sy). auto. }
  assert (R : rejects (grammar_parser cfg env n g) s ps ->
     peg (defs_of cfg env g) (acts_of g) (GName x) s ps NoMatch).
  { intros (m & pe & E). apply C40_reject_is_no_match in E as (y & Sy & E); auto.
    rewrite (start_name_unique _ _ _ S Sy). auto. }
  split.
  - intros v rem ps'. split; auto. intros P.
    destruct Fi as [(v1 & rem1 & ps1 & E)|J].
    + assert (Q := C40_one_verdict _ _ _ _ _ _ _ _ P (A _ _ _ E)). inversion Q; subst. auto.
    + assert (Q := C40_one_verdict _ _ _ _ _ _ _ _ P (R J)). discriminate.
  - split; auto. intros P. destruct Fi as [(v1 & rem1 & ps1 & E)|J]; auto.
    assert (Q := C40_one_verdict _ _ _ _ _ _ _ _ P (A _ _ _ E)). discriminate.
Qed.
Print Assumptions C40_same_as_parsing_expression.

(** The parser terminates, at a depth linear in the input, if no rule reached
    is recursive, no loop of a rule may match without reading, and the imports
    do so. *)
Theorem C40_terminates : forall cfg env nul rank R K r quiet g x n s ps,
  grammar_fits cfg -> well_founded_program nul rank R K env -> start_name g x ->
  all_reached (defs_of cfg env g) x (fun y => ~ recursive (defs_of cfg env g) y) ->
  all_reached (defs_of cfg env g) x (fun y =>
    match lookup y (g_rules g) with
    | Some (Parsed e) => loops_ok (defs_of cfg env g) quiet e
    | Some (Native p) => every (loops_read nul rank R K) p /\ left_ok nul rank r p = true
        /\ (nullable nul p = true -> quiet y)
    | None => True
    end) ->
  (length (g_start g) < n)%nat -> (length (g_rules g) <= n)%nat ->
  ((length s + 1) * (R + 1) + r + K < n)%nat ->
  grammar_parser cfg env n g s ps <> OutOfFuel.
Proof.
  intros cfg env nul rank R K r quiet g x n s ps F WF S Ac Ok_ L1 L2 L3.
  rewrite (grammar_parser_start cfg env n g x) by auto.
  destruct (instantiate g n (GName x)) as [p | |] eqn:I; try discriminate.
  - apply instantiate_built in I.
    destruct (built_checked cfg env g nul rank R K r quiet n (GName x) p I) as (E & LO & _);
      [exact I0 || exact Logic.I | intros y M; simpl in M; subst; exact Ok_ |].
    eapply eval_terminates; eauto.
  - apply (acyclic_not_deep cfg env) in I as []; auto.
Qed.
Print Assumptions C40_terminates.

(** If in addition all names reached are defined, the actions are defined on
    all values and the imports are well typed, the parser gives a verdict on
    every input. *)
Theorem C40_verdict : forall cfg env nul rank R K r quiet G g x n s ps,
  grammar_fits cfg -> well_founded_program nul rank R K env ->
  (forall k, typed cfg G (env k) (G k)) -> start_name g x ->
  all_reached (defs_of cfg env g) x (fun y =>
    defs_of cfg env g y <> None /\ ~ recursive (defs_of cfg env g) y) ->
  all_reached (defs_of cfg env g) x (fun y =>
    match lookup y (g_rules g) with
    | Some (Parsed e) => loops_ok (defs_of cfg env g) quiet e
    | Some (Native p) => every (loops_read nul rank R K) p /\ left_ok nul rank r p = true
        /\ (nullable nul p = true -> quiet y)
    | None => True
    end) ->
  (forall y f v, lookup y (g_actions g) = Some f -> f v <> None) ->
  (forall y q, lookup y (g_rules g) = Some (Native q) -> exists T, typed cfg G q T) ->
  (length (g_start g) < n)%nat -> (length (g_rules g) <= n)%nat ->
  ((length s + 1) * (R + 1) + r + K < n)%nat ->
  finishes (grammar_parser cfg env n g) s ps.
Proof.
  intros cfg env nul rank R K r quiet G g x n s ps F WF TE S Ac Ok_ TA TI L1 L2 L3.
  assert (T : grammar_parser cfg env n g s ps <> OutOfFuel)
    by (eapply C40_terminates; eauto; intros y Ry; apply Ac; auto).
  assert (W : grammar_parser cfg env n g s ps <> Illformed).
  { rewrite (grammar_parser_start cfg env n g x) by auto.
    destruct (instantiate g n (GName x)) as [p | |] eqn:I; try discriminate.
    - apply instantiate_built in I.
      eapply C47_well_typed_never_illformed; eauto.
      eapply built_typed; eauto.
    - intros _. apply (defined_not_ill cfg env) in I as []. intros y Ry. apply Ac; auto. }
  unfold finishes, accepts, rejects.
  destruct (grammar_parser cfg env n g s ps); try congruence; [left | right]; eauto.
Qed.
Print Assumptions C40_verdict.

(** [rule] defines the name of its text and leaves the other definitions
    alone.  An action replaces the action of that name; without one the old
    action stays, also when the rule is replaced. *)
Theorem C40_rule_defines : forall cfg env n g def act g', grammar_fits cfg ->
  add_rule cfg n g def act = Ok g' ->
  exists name e, rule_text name e def /\ g_start g' = g_start g
    /\ defs_of cfg env g' name = Some (MRule e)
    /\ (forall y, y <> name -> defs_of cfg env g' y = defs_of cfg env g y)
    /\ acts_of g' name = match act with Some f => Some f | None => acts_of g name end
    /\ (forall y, y <> name -> acts_of g' y = acts_of g y).
Proof.
  intros cfg env n g def act g' F H. unfold add_rule in H.
  destruct (parse_rule cfg n def) as [(name, e) | |] eqn:P; inversion H; subst.
  apply parse_rule_ok in P; auto. exists name, e. unfold defs_of, acts_of. simpl.
  assert (Y : forall A (a b : A) y, y <> name -> (if list_eq_dec Z.eq_dec y name then a else b) = b)
    by (intros A a b y N; destruct (list_eq_dec Z.eq_dec y name); congruence).
  assert (X : forall A (a b : A), (if list_eq_dec Z.eq_dec name name then a else b) = a)
    by (intros A a b; destruct (list_eq_dec Z.eq_dec name name); congruence).
  splits; auto.
  - rewrite X. auto.
  - intros y N. rewrite Y; auto.
  - destruct act; simpl; [rewrite X|]; auto.
  - intros y N. destruct act; simpl; [rewrite Y|]; auto.
Qed.
Print Assumptions C40_rule_defines.

(** [grammar<>] starts with the rule [S], and declarations do not change where a
    grammar starts. *)
Theorem C40_starts_with : forall cfg n ds g start,
  add_decls cfg n (empty_grammar start) ds = Ok g -> g_start g = start.
Proof. exact declarations_keep_start. Qed.
Print Assumptions C40_starts_with.

Theorem C40_default_start : forall cfg n ds g,
  add_decls cfg n (empty_grammar default_start) ds = Ok g -> g_start g = text "S".
Proof. intros cfg n ds g H. rewrite (declarations_keep_start cfg n ds g _ H). reflexivity. Qed.
Print Assumptions C40_default_start.

Example C40_default_start_case :
  match add_decls (default_config Std11) 40 (empty_grammar default_start) [Rule (text "S ::= 'a'") None] with
  | Ok g => g_start g = text "S" /\ length (g_rules g) = 1%nat
  | _ => False
  end.
Proof. vm_compute. split; reflexivity. Qed.

(** [import] defines the leading name of its string as the imported parser; the
    action of that name stays. *)
Theorem C40_import_defines : forall cfg env n g s p g', grammar_fits cfg ->
  add_import cfg n g s p = Ok g' ->
  exists name rest, s = name ++ rest /\ writable name /\ not_starting_with name_char rest
    /\ g_start g' = g_start g
    /\ defs_of cfg env g' name = Some (MImport (behaves cfg env p))
    /\ (forall y, y <> name -> defs_of cfg env g' y = defs_of cfg env g y)
    /\ (forall y, acts_of g' y = acts_of g y).
Proof.
  intros cfg env n g s p g' F H. unfold add_import in H.
  destruct (rebuild cfg n s) as [name | |] eqn:P; inversion H; subst.
  apply rebuild_ok in P as (rest & E & W & N); auto. exists name, rest. unfold defs_of, acts_of. simpl.
  splits; auto.
  - destruct (list_eq_dec Z.eq_dec name name); congruence.
  - intros y Ny. destruct (list_eq_dec Z.eq_dec y name); congruence.
Qed.
Print Assumptions C40_import_defines.

(** ** C41 *)

(** A grammar in which a reached rule refers to itself, or a reached name has
    no definition, can not be used on any input, at any depth. *)
Theorem C41_recursive_or_undefined_never : forall cfg env g x y, grammar_fits cfg ->
  start_name g x -> reaches_name (defs_of cfg env g) x y ->
  recursive (defs_of cfg env g) y \/ defs_of cfg env g y = None ->
  forall n s ps, ~ finishes (grammar_parser cfg env n g) s ps.
Proof.
  intros cfg env g x y F S R H n s ps Fi.
  assert (X : exists x' p, start_name g x' /\ instantiate g n (GName x') = Ok p).
  { destruct Fi as [(v & rem & ps' & E)|(m & pe & E)];
      apply grammar_parser_inv in E as [(N1 & N2)|(x' & p & S' & I & _)]; eauto.
    - destruct (N1 _ _ _ eq_refl).
    - destruct (N2 _ _ eq_refl). }
  destruct X as (x' & p & S' & I). rewrite <- (start_name_unique _ _ _ S S') in I.
  destruct (ok_defined cfg env g x n p I y R) as (D & NR). tauto.
Qed.
Print Assumptions C41_recursive_or_undefined_never.

(** Recursion alone shows as an instantiation that never ends, an undefined
    name alone as an ill-formed one. *)
Theorem C41_recursive_never_ends : forall cfg env g x y, grammar_fits cfg ->
  start_name g x -> reaches_name (defs_of cfg env g) x y -> recursive (defs_of cfg env g) y ->
  all_reached (defs_of cfg env g) x (fun z => defs_of cfg env g z <> None) ->
  forall n s ps, (length (g_start g) < n)%nat -> grammar_parser cfg env n g s ps = OutOfFuel.
Proof.
  intros cfg env g x y F S R Rc D n s ps L.
  rewrite (grammar_parser_start cfg env n g x) by auto.
  destruct (instantiate g n (GName x)) as [p | |] eqn:I; auto.
  - destruct (ok_defined cfg env g x n p I y R) as (_ & NR). contradiction.
  - apply (defined_not_ill cfg env) in I as []; auto.
Qed.
Print Assumptions C41_recursive_never_ends.

Theorem C41_undefined_illformed : forall cfg env g x y, grammar_fits cfg ->
  start_name g x -> reaches_name (defs_of cfg env g) x y -> defs_of cfg env g y = None ->
  all_reached (defs_of cfg env g) x (fun z => ~ recursive (defs_of cfg env g) z) ->
  forall n s ps, (length (g_start g) < n)%nat -> (length (g_rules g) <= n)%nat ->
  grammar_parser cfg env n g s ps = Illformed.
Proof.
  intros cfg env g x y F S R U D n s ps L L2.
  rewrite (grammar_parser_start cfg env n g x) by auto.
  destruct (instantiate g n (GName x)) as [p | |] eqn:I; auto.
  - destruct (ok_defined cfg env g x n p I y R) as (Df & _). contradiction.
  - apply (acyclic_not_deep cfg env) in I as []; auto.
Qed.
Print Assumptions C41_undefined_illformed.

(** A start string without a leading name is ill-formed. *)
Theorem C41_no_start_name_illformed : forall cfg env g n s ps, grammar_fits cfg ->
  (forall x, ~ start_name g x) -> (2 * length (g_start g) + 3 < n)%nat ->
  grammar_parser cfg env n g s ps = Illformed.
Proof.
  intros cfg env g n s ps F N L. unfold grammar_parser. rewrite no_start_name; auto.
Qed.
Print Assumptions C41_no_start_name_illformed.

(** Without recursion and undefined names there is a parser, the same at every
    depth from the number of rules on. *)
Theorem C41_acyclic_instantiates : forall cfg env g x, grammar_fits cfg ->
  start_name g x ->
  all_reached (defs_of cfg env g) x (fun z =>
    defs_of cfg env g z <> None /\ ~ recursive (defs_of cfg env g) z) ->
  exists p, forall n s ps, (length (g_start g) < n)%nat -> (length (g_rules g) <= n)%nat ->
    grammar_parser cfg env n g s ps = eval cfg env n p s ps.
Proof.
  intros cfg env g x F S A.
  destruct (instantiate g (length (g_rules g)) (GName x)) as [p | |] eqn:I.
  - exists p. intros n s ps L1 L2. rewrite (grammar_parser_start cfg env n g x) by auto.
    apply instantiate_built in I. rewrite (built_instantiate _ _ _ _ I) by auto. reflexivity.
  - apply (defined_not_ill cfg env) in I as []. intros y Ry. apply A; auto.
  - apply (acyclic_not_deep cfg env) in I as []; auto. intros y Ry. apply A; auto.
Qed.
Print Assumptions C41_acyclic_instantiates.

(** *** Examples *)

(** The grammar of example/grammar_calculator/main.cpp:136-148 with two of its
    operators; the number is imported, and actions count. *)
Definition second_of (v : value) : option value :=
  match v with VSeq [_; w] => Some w | _ => Some v end.
Definition first_of_pair (v : value) : option value :=
  match v with VSeq [w; _] => Some w | _ => Some v end.

Definition sums : list decl :=
  [ Import (text "digit (one)") PDigit;
    Rule (text "ws ::= (' ' | '\n')*") None;
    Rule (text "num ::= digit ws") (Some first_of_pair);
    Rule (text "plus ::= 'p' ws") (Some first_of_pair);
    Rule (text "plus ::= '+' ws") None;
    Rule (text "sum ::= num (plus num)*") None ].

Definition sum_grammar : grammar :=
  mkgrammar (text "sum")
    [ (text "sum", Parsed (GSeq (GName (text "num")) (GStar (GSeq (GName (text "plus")) (GName (text "num"))))));
      (text "plus", Parsed (GSeq (GChar 43) (GName (text "ws"))));
      (text "plus", Parsed (GSeq (GChar 112) (GName (text "ws"))));
      (text "num", Parsed (GSeq (GName (text "digit")) (GName (text "ws"))));
      (text "ws", Parsed (GStar (GSel (GChar 32) (GChar 10))));
      (text "digit", Native PDigit) ]
    (* the action of the first definition of plus stays *)
    [ (text "plus", first_of_pair); (text "num", first_of_pair) ].

Example C40_example_built :
  add_decls c98 80 (empty_grammar (text "sum")) sums = Ok sum_grammar.
Proof. vm_compute. reflexivity. Qed.

Example C40_example_run :
  grammar_parser c98 (fun _ => PRef 0) 40 sum_grammar (text "1+ 2 +3p") start
  = Accept (VSeq [VChar 49; VSeq [VSeq [VChar 43; VChar 50]; VSeq [VChar 43; VChar 51]]])
      (text "p") (mkpos 1 8 51)
  /\ (exists m, grammar_parser c98 (fun _ => PRef 0) 40 sum_grammar (text "+1") start = Reject m start).
Proof. vm_compute. eauto. Qed.

Definition sum_names : list str := [text "sum"; text "num"; text "plus"; text "digit"; text "ws"].

Lemma sum_reached : forall cfg env x y, reaches_name (defs_of cfg env sum_grammar) x y ->
  In x sum_names -> In y sum_names.
Proof.
  intros cfg env x y R. induction R as [|x y z (e & D & M) R IH]; auto. intros I. apply IH. clear IH R.
  unfold defs_of in D.
  simpl in I. repeat destruct I as [<-|I]; try contradiction; vm_compute in D; inversion D; subst e;
    vm_compute in M; repeat (destruct M as [M|M]); subst; try contradiction; vm_compute; tauto.
Qed.

Local Definition level (y : str) : nat :=
  if list_eq_dec Z.eq_dec y (text "sum") then 2%nat
  else if list_eq_dec Z.eq_dec y (text "ws") then 0%nat
  else if list_eq_dec Z.eq_dec y (text "digit") then 0%nat else 1%nat.

Lemma sum_not_recursive : forall cfg env y, In y sum_names ->
  ~ recursive (defs_of cfg env sum_grammar) y.
Proof.
  intros cfg env.
  assert (St : forall y z, In y sum_names -> refers (defs_of cfg env sum_grammar) y z ->
    (level z < level y)%nat).
  { intros y z R (e & D & M). unfold defs_of in D.
    simpl in R. repeat destruct R as [<-|R]; try contradiction; vm_compute in D; inversion D; subst e;
    vm_compute in M; repeat (destruct M as [M|M]); subst; try contradiction; vm_compute; lia. }
  assert (Cl : forall y z, In y sum_names -> refers (defs_of cfg env sum_grammar) y z -> In z sum_names).
  { intros y z I Rf. apply (sum_reached cfg env y); auto. econstructor; [exact Rf | constructor]. }
  assert (Tr : forall a b, reaches_name (defs_of cfg env sum_grammar) a b ->
    In a sum_names -> (level b <= level a)%nat).
  { intros a b H. induction H as [|x y z Rf H IH]; intros R; [lia|].
    assert (L := St _ _ R Rf). specialize (IH (Cl _ _ R Rf)). lia. }
  intros y R (z & Rf & Rz). assert (L := St _ _ R Rf).
  assert (L2 := Tr _ _ Rz (Cl _ _ R Rf)). lia.
Qed.

Lemma lookup_in : forall A y (l : list (str * A)) a, lookup y l = Some a -> In (y, a) l.
Proof.
  intros A y l a. induction l as [|(k, b) l IH]; simpl; [discriminate|].
  destruct (list_eq_dec Z.eq_dec y k) as [<-|]; intros H; [inversion H|]; auto.
Qed.

Lemma digit_typed : forall cfg G, exists T, typed cfg G PDigit T.
Proof.
  intros cfg G. unfold PDigit. eexists.
  eapply T_accept_when; [apply T_change_error_message, T_one_char|]. intros v (c & ->). discriminate.
Qed.

(** It gives a verdict on every text. *)
Example C40_example_verdict : forall s n, (length s + 9 < n)%nat ->
  finishes (grammar_parser c98 (fun _ => PLitC 0) n sum_grammar) s start.
Proof.
  intros s n L.
  assert (NE : forall a, ~ may_be_empty (defs_of c98 (fun _ => PLitC 0) sum_grammar) (fun _ => False) (GChar a))
    by (intros a X; inversion X).
  apply (C40_verdict c98 (fun _ => PLitC 0) (fun _ => false) (fun _ => 0%nat) 0 0 0 (fun _ => False)
           (fun _ => anything) sum_grammar (text "sum")).
  - split; [|split]; intros _; vm_compute; repeat constructor.
  - constructor; [intros k; every_solve | reflexivity | reflexivity].
  - intros k. eapply T_sub; [apply lit_typed|]. intros v _. exact I.
  - exists []. split; [reflexivity|]. split; [|exact I]. split; [discriminate|].
    repeat (apply Forall_cons; [left; left; vm_compute; split; discriminate|]). apply Forall_nil.
  - intros y R. apply sum_reached in R; [|left; auto]. split; [|apply sum_not_recursive; auto].
    simpl in R. repeat destruct R as [<-|R]; try contradiction; vm_compute; discriminate.
  - intros y R. apply sum_reached in R; [|left; auto].
    simpl in R. repeat destruct R as [<-|R]; try contradiction; simpl.
    + split; [exact I|]. split; [|auto]. intros X. inversion X; subst.
      inversion H1; subst; unfold defs_of in H0; vm_compute in H0; [|discriminate].
      inversion H0; subst. inversion H3; subst. eapply NE; eauto.
    + auto.
    + auto.
    + split; [every_solve|]. split; [reflexivity|]. discriminate.
    + split; [|auto]. intros X. inversion X; subst; eapply NE; eauto.
  - intros y f v Lk.
    assert (H : f = first_of_pair).
    { apply lookup_in in Lk. vm_compute in Lk. clear - Lk.
      repeat destruct Lk as [E|Lk]; [inversion E; reflexivity | inversion E; reflexivity | contradiction]. }
    subst f. unfold first_of_pair. destruct v; try discriminate.
    destruct l as [|a [|b [|c l]]]; discriminate.
  - intros y q Lk. apply lookup_in in Lk. vm_compute in Lk.
    repeat destruct Lk as [E|Lk]; try contradiction; inversion E; try discriminate. apply digit_typed.
  - simpl. lia.
  - simpl. lia.
  - lia.
Qed.

(** Recursion in a rule the start does not reach is harmless; in one it reaches
    it is fatal. *)
Definition loop_grammar (start : str) : grammar :=
  mkgrammar start
    [ (text "a", Parsed (GSel (GChar 97) (GName (text "b"))));
      (text "b", Parsed (GSeq (GName (text "c")) (GName (text "a"))));
      (text "c", Parsed (GChar 99));
      (text "d", Parsed (GSeq (GName (text "c")) (GName (text "no")))) ] [].

Example C41_example_recursive : forall env n s ps,
  ~ finishes (grammar_parser c98 env n (loop_grammar (text "a"))) s ps.
Proof.
  intros env n s ps.
  apply (C41_recursive_or_undefined_never c98 env (loop_grammar (text "a")) (text "a") (text "a")).
  - split; [|split]; intros _; vm_compute; repeat constructor.
  - exists []. split; [reflexivity|]. split; [|exact I]. split; [discriminate|].
    repeat (apply Forall_cons; [left; left; vm_compute; split; discriminate|]). apply Forall_nil.
  - constructor.
  - left. exists (text "b"). split.
    + eexists. split; [reflexivity|]. simpl. auto.
    + eapply rn_step; [|apply rn_here]. eexists. split; [reflexivity|]. simpl. auto.
Qed.

Example C41_example_undefined :
  grammar_parser c98 (fun _ => PLitC 0) 20 (loop_grammar (text "d")) (text "c") start = Illformed
  /\ grammar_parser c98 (fun _ => PLitC 0) 20 (loop_grammar (text "c")) (text "c") start
     = Accept (VChar 99) [] (mkpos 1 2 99)
  /\ grammar_parser c98 (fun _ => PLitC 0) 20 (loop_grammar (text "a")) (text "a") start = OutOfFuel
  /\ grammar_parser c98 (fun _ => PLitC 0) 20 (loop_grammar (text "+")) (text "a") start = Illformed.
Proof. vm_compute. repeat split. Qed.

(** The grammar of sums meets the hypotheses of [C41_acyclic_instantiates]. *)
Example C41_example_acyclic : forall cfg env,
  all_reached (defs_of cfg env sum_grammar) (text "sum") (fun z =>
    defs_of cfg env sum_grammar z <> None /\ ~ recursive (defs_of cfg env sum_grammar) z).
Proof.
  intros cfg env y R. apply sum_reached in R; [|left; auto]. split; [|apply sum_not_recursive; auto].
  simpl in R. repeat destruct R as [<-|R]; try contradiction; vm_compute; discriminate.
Qed.
