(** C85: a grammar is what its declarations say. *)

From Coq Require Import ZArith List Bool Lia Permutation.
From Verif Require Import Base Util Combinators Variadic Parsers Deep Grammar Spec SpecDeep SpecTerm
  SpecType SpecGrammar SpecDeclarations Proofs_Pos Proofs_Fold Proofs_Deep Proofs_Term Proofs_Type
  Properties_Deep Properties_Term Properties_Type Proofs_Grammar Proofs_Peg Properties_Grammar
  Proofs_Declarations.
Import ListNotations.
Open Scope Z_scope.

Local Definition c98 := default_config Std98.
Local Definition c11 := default_config Std11.

Definition decl_text (d : decl) : str := match d with Rule s _ => s | Import s _ => s end.

(** (to show what concrete declarations say) *)
Lemma says_by_reading : forall n d b,
  match d with
  | Rule s a => match parse_rule c11 n s with
                | Ok (x, e) => b = mkentry x (Parsed e) a
                | _ => False
                end
  | Import s p => match rebuild c11 n s with
                  | Ok x => b = mkentry x (Native p) None
                  | _ => False
                  end
  end -> says d b.
Proof.
  assert (F := C39_default_limits_suffice Std11).
  intros n [s a|s p] b H.
  - destruct (parse_rule c11 n s) as [(x, e)| |] eqn:E; try contradiction. subst b.
    constructor. eapply parse_rule_ok; eauto.
  - destruct (rebuild c11 n s) as [x| |] eqn:E; try contradiction. subst b.
    apply rebuild_ok in E as (rest & E & Wn & Ns); auto. econstructor; eauto.
Qed.

(** Declarations that can be read make a grammar, in which a name stands for
    what its last declaration says and has the last action declared for it. *)
Theorem C85_read : forall cfg env n ds l start, grammar_fits cfg -> written ds l ->
  Forall (fun d => (2 * length (decl_text d) + 4 < n)%nat) ds ->
  exists g, add_decls cfg n (empty_grammar start) ds = Ok g /\ g_start g = start
    /\ (forall x e, defs_of cfg env g x = Some (MRule e) <-> stands_for l x (Parsed e))
    /\ (forall x p, stands_for l x (Native p) -> defs_of cfg env g x = Some (MImport (behaves cfg env p)))
    /\ (forall x, defs_of cfg env g x = None <-> forall d, ~ stands_for l x d)
    /\ (forall x f, acts_of g x = Some f <-> acted_by l x f).
Proof.
  intros cfg env n ds l start F W L.
  assert (X : exists g, add_decls cfg n (empty_grammar start) ds = Ok g).
  { apply add_decls_ok. revert L. induction W as [|d b ds l S W IH]; intros L; constructor.
    - inversion L as [|? ? Ld Lr]; subst. inversion S; subst; simpl in *.
      + unfold add_rule. rewrite (parse_rule_complete cfg F n s x e) by auto. eauto.
      + unfold add_import. rewrite (rebuild_complete cfg F n x rest) by (auto; lia). eauto.
    - apply IH. inversion L; auto. }
  destruct X as (g & A). exists g. split; auto.
  rewrite (add_decls_written _ _ _ _ _ _ F W A). unfold defs_of, acts_of. cbn [g_start g_rules g_actions].
  splits; auto.
  - intros x e. rewrite <- lookup_rules.
    destruct (lookup x (rules_of l [])) as [[a|p]|]; split; congruence.
  - intros x p S. apply lookup_rules in S. rewrite S. auto.
  - intros x. split.
    + intros E d S. apply lookup_rules in S. rewrite S in E. destruct d; discriminate.
    + intros N. destruct (lookup x (rules_of l [])) as [d|] eqn:E; auto.
      apply lookup_rules in E. destruct (N _ E).
  - intros x f. apply lookup_actions.
Qed.
Print Assumptions C85_read.

(** Only such declarations make a grammar, and each says one thing. *)
Theorem C85_only_read : forall cfg n ds start g, grammar_fits cfg ->
  add_decls cfg n (empty_grammar start) ds = Ok g ->
  exists l, written ds l /\ forall l', written ds l' -> l' = l.
Proof.
  intros cfg n ds start g F A. apply add_decls_says in A as (l & W & _); auto.
  exists l. split; auto. intros l' W'. eapply written_unique; eauto.
Qed.
Print Assumptions C85_only_read.

(** Two grammars that start alike and agree on the names used are the same
    parser, at every depth. *)
Theorem C85_definitions_decide : forall cfg env m m' n start ds ds' l l' g g' s ps,
  grammar_fits cfg -> written ds l -> written ds' l' ->
  add_decls cfg m (empty_grammar start) ds = Ok g ->
  add_decls cfg m' (empty_grammar start) ds' = Ok g' ->
  (forall x y, start_name (empty_grammar start) x -> used l x y -> agree_on l l' y) ->
  grammar_parser cfg env n g' s ps = grammar_parser cfg env n g s ps.
Proof.
  intros cfg env m m' n start ds ds' l l' g g' s ps F W W' A A' H.
  eapply (decided cfg env m m' n start ds ds' l l'); eauto.
Qed.
Print Assumptions C85_definitions_decide.

(** Spaces and brackets in the texts of the declarations do not matter. *)
Theorem C85_layout : forall cfg env m m' n start ds ds' l g g' s ps,
  grammar_fits cfg -> written ds l -> written ds' l ->
  add_decls cfg m (empty_grammar start) ds = Ok g ->
  add_decls cfg m' (empty_grammar start) ds' = Ok g' ->
  grammar_parser cfg env n g' s ps = grammar_parser cfg env n g s ps.
Proof.
  intros cfg env m m' n start ds ds' l g g' s ps F W W' A A'.
  apply (add_decls_written _ _ _ _ _ _ F W) in A. apply (add_decls_written _ _ _ _ _ _ F W') in A'.
  congruence.
Qed.
Print Assumptions C85_layout.

(** The order of the declarations of different names does not matter. *)
Theorem C85_order : forall cfg env m start ds ds' l g,
  grammar_fits cfg -> written ds l -> NoDup (map e_name l) -> Permutation ds ds' ->
  add_decls cfg m (empty_grammar start) ds = Ok g ->
  exists g', add_decls cfg m (empty_grammar start) ds' = Ok g'
    /\ forall n s ps, grammar_parser cfg env n g' s ps = grammar_parser cfg env n g s ps.
Proof.
  intros cfg env m start ds ds' l g F W N P A.
  assert (X : exists g', add_decls cfg m (empty_grammar start) ds' = Ok g').
  { apply add_decls_ok. eapply Permutation_Forall; [exact P|]. apply add_decls_ok. eauto. }
  destruct X as (g' & A'). exists g'. split; auto. intros n s ps.
  destruct (written_permuted _ _ _ W P) as (l' & W' & Q).
  eapply (decided cfg env m m n start ds ds' l l'); eauto.
  intros x _ y _. apply permuted_agree; auto.
Qed.
Print Assumptions C85_order.

(** Declarations of names that are not used do not matter. *)
Theorem C85_unused : forall cfg env m start ds1 d ds2 l1 b l2 g,
  grammar_fits cfg -> written ds1 l1 -> says d b -> written ds2 l2 ->
  (forall x, start_name (empty_grammar start) x -> ~ used (l1 ++ l2) x (e_name b)) ->
  add_decls cfg m (empty_grammar start) (ds1 ++ d :: ds2) = Ok g ->
  exists g', add_decls cfg m (empty_grammar start) (ds1 ++ ds2) = Ok g'
    /\ forall n s ps, grammar_parser cfg env n g' s ps = grammar_parser cfg env n g s ps.
Proof.
  intros cfg env m start ds1 d ds2 l1 b l2 g F W1 S W2 U A.
  assert (X : exists g', add_decls cfg m (empty_grammar start) (ds1 ++ ds2) = Ok g').
  { apply add_decls_ok. assert (K : exists g', add_decls cfg m (empty_grammar start) (ds1 ++ d :: ds2) = Ok g')
      by eauto. apply add_decls_ok in K. apply Forall_app in K as (K1 & K2). inversion K2; subst.
    apply Forall_app. auto. }
  destruct X as (g' & A'). exists g'. split; auto. intros n s ps.
  assert (W : written (ds1 ++ d :: ds2) (l1 ++ b :: l2))
    by (apply Forall2_app; auto; constructor; auto).
  assert (W' : written (ds1 ++ ds2) (l1 ++ l2)) by (apply Forall2_app; auto).
  symmetry. eapply (decided cfg env m m n start _ _ (l1 ++ l2) (l1 ++ b :: l2)); eauto.
  intros x Sx y Uy.
  assert (Ne : e_name b <> y) by (intros E; apply (U x); auto; rewrite E; auto).
  split; intros a; symmetry; [apply other_stands | apply other_acted]; auto.
Qed.
Print Assumptions C85_unused.

(** A declaration does not matter if its name is declared again later, with an
    action if it comes with an action. *)
Theorem C85_replaced : forall cfg env m start ds1 d ds2 l1 b l2 g,
  grammar_fits cfg -> written ds1 l1 -> says d b -> written ds2 l2 ->
  Exists (fun c => e_name c = e_name b /\ (e_action b <> None -> e_action c <> None)) l2 ->
  add_decls cfg m (empty_grammar start) (ds1 ++ d :: ds2) = Ok g ->
  exists g', add_decls cfg m (empty_grammar start) (ds1 ++ ds2) = Ok g'
    /\ forall n s ps, grammar_parser cfg env n g' s ps = grammar_parser cfg env n g s ps.
Proof.
  intros cfg env m start ds1 d ds2 l1 b l2 g F W1 S W2 E A.
  assert (X : exists g', add_decls cfg m (empty_grammar start) (ds1 ++ ds2) = Ok g').
  { apply add_decls_ok. assert (K : exists g', add_decls cfg m (empty_grammar start) (ds1 ++ d :: ds2) = Ok g')
      by eauto. apply add_decls_ok in K. apply Forall_app in K as (K1 & K2). inversion K2; subst.
    apply Forall_app. auto. }
  destruct X as (g' & A'). exists g'. split; auto. intros n s ps.
  assert (W : written (ds1 ++ d :: ds2) (l1 ++ b :: l2))
    by (apply Forall2_app; auto; constructor; auto).
  assert (W' : written (ds1 ++ ds2) (l1 ++ l2)) by (apply Forall2_app; auto).
  eapply (decided cfg env m m n start _ _ (l1 ++ b :: l2) (l1 ++ l2)); eauto.
  intros x Sx y Uy. split; intros a.
  - apply replaced_stands. eapply Exists_impl; [|exact E]. intros c (N & _). auto.
  - destruct (e_action b) as [f|] eqn:Ab.
    + apply replaced_acted. eapply Exists_impl; [|exact E]. intros c (N & K). split; auto.
      apply K. discriminate.
    + apply other_acted. auto.
Qed.
Print Assumptions C85_replaced.

(** An action outlives the rule it was declared with: a rule that replaces it
    without an action is not the only one that matters. *)
Theorem C85_replaced_refuted : exists cfg env m n start ds1 d ds2 l1 b l2 g g' s ps,
  grammar_fits cfg /\ written ds1 l1 /\ says d b /\ written ds2 l2
  /\ Exists (fun c => e_name c = e_name b) l2
  /\ add_decls cfg m (empty_grammar start) (ds1 ++ d :: ds2) = Ok g
  /\ add_decls cfg m (empty_grammar start) (ds1 ++ ds2) = Ok g'
  /\ finishes (grammar_parser cfg env n g) s ps /\ finishes (grammar_parser cfg env n g') s ps
  /\ grammar_parser cfg env n g' s ps <> grammar_parser cfg env n g s ps.
Proof.
  set (one := fun _ : value => Some (VInt 1)).
  exists c11, (fun _ => PLitC 0), 40%nat, 40%nat, (text "S"), [], (Rule (text "S::='a'") (Some one)),
    [Rule (text "S::='b'") None], [], (mkentry (text "S") (Parsed (GChar 97)) (Some one)),
    [mkentry (text "S") (Parsed (GChar 98)) None],
    (mkgrammar (text "S") [(text "S", Parsed (GChar 98)); (text "S", Parsed (GChar 97))] [(text "S", one)]),
    (mkgrammar (text "S") [(text "S", Parsed (GChar 98))] []),
    (text "b"), start.
  splits.
  - apply C39_default_limits_suffice.
  - constructor.
  - apply (says_by_reading 40). vm_compute. reflexivity.
  - constructor; [|constructor]. apply (says_by_reading 40). vm_compute. reflexivity.
  - constructor. reflexivity.
  - vm_compute. reflexivity.
  - vm_compute. reflexivity.
  - left. exists (VInt 1), [], (mkpos 1 2 98). vm_compute. reflexivity.
  - left. exists (VChar 98), [], (mkpos 1 2 98). vm_compute. reflexivity.
  - vm_compute. discriminate.
Qed.
Print Assumptions C85_replaced_refuted.

(** The names do not matter, as long as different ones stay different. *)
Theorem C85_renaming : forall cfg env m m' n r x start start' ds ds' l g g' s ps,
  grammar_fits cfg -> written ds l -> written ds' (map (rename_entry r) l) ->
  start_name (empty_grammar start) x -> start_name (empty_grammar start') (r x) ->
  (forall y z, y = x \/ occurs l y -> z = x \/ occurs l z -> r y = r z -> y = z) ->
  add_decls cfg m (empty_grammar start) ds = Ok g ->
  add_decls cfg m' (empty_grammar start') ds' = Ok g' ->
  (length start < n)%nat -> (length start' < n)%nat ->
  grammar_parser cfg env n g' s ps = grammar_parser cfg env n g s ps.
Proof.
  intros cfg env m m' n r x start start' ds ds' l g g' s ps F W W' S S' I A A' L L'.
  apply (add_decls_written _ _ _ _ _ _ F W) in A. apply (add_decls_written _ _ _ _ _ _ F W') in A'.
  subst. rewrite (grammar_parser_start cfg env n _ (r x)), (grammar_parser_start cfg env n _ x); auto.
  rewrite (rename_instantiate r l start start' x n); auto.
Qed.
Print Assumptions C85_renaming.

(** A name without action can be replaced by its definition: wherever one of
    the two grammars gives a verdict the other one gives the same. *)
Theorem C85_inlining : forall cfg env m m' y e start ds ds' l l' g g' s ps,
  grammar_fits cfg -> written ds l -> written ds' l' -> Forall2 (inlined_entry y e) l l' ->
  stands_for l y (Parsed e) -> (forall f, ~ acted_by l y f) ->
  add_decls cfg m (empty_grammar start) ds = Ok g ->
  add_decls cfg m' (empty_grammar start) ds' = Ok g' ->
  (forall n, finishes (grammar_parser cfg env n g) s ps ->
     grammar_parser cfg env n g' s ps = grammar_parser cfg env n g s ps)
  /\ (forall n, finishes (grammar_parser cfg env n g') s ps -> exists k,
       forall n', (k <= n')%nat -> grammar_parser cfg env n' g s ps = grammar_parser cfg env n g' s ps).
Proof.
  intros cfg env m m' y e start ds ds' l l' g g' s ps F W W' R D N A A'.
  apply (add_decls_written _ _ _ _ _ _ F W) in A. apply (add_decls_written _ _ _ _ _ _ F W') in A'.
  assert (L := inlined_lookups _ _ _ _ R).
  assert (Dy : lookup y (g_rules g) = Some (Parsed e)) by (subst g; apply lookup_rules; auto).
  assert (Ny : lookup y (g_actions g) = None).
  { subst g. cbn. destruct (lookup y (actions_of l [])) as [f|] eqn:E; auto.
    apply lookup_actions in E. destruct (N _ E). }
  assert (Rel : forall x,
    match lookup x (g_rules g), lookup x (g_rules g') with
    | None, None => True
    | Some (Native p), Some (Native q) => p = q
    | Some (Parsed a), Some (Parsed b) => inlined y e a b
    | _, _ => False
    end) by (subst; intros x; apply L).
  assert (Acts : forall x, lookup x (g_actions g') = lookup x (g_actions g)) by (subst; intros x; apply L).
  assert (G : g_start g = start) by (subst; auto). assert (G' : g_start g' = start) by (subst; auto).
  clear A A'.
  assert (Fin : forall n h, finishes (grammar_parser cfg env n h) s ps ->
    exists x p, start_name h x /\ rebuild cfg n (g_start h) = Ok x /\ built h n (GName x) p
      /\ grammar_parser cfg env n h s ps = eval cfg env n p s ps).
  { intros n h Fi. unfold grammar_parser in *.
    destruct (rebuild cfg n (g_start h)) as [x| |] eqn:B;
      [|destruct Fi as [(? & ? & ? & E)|(? & ? & E)]; discriminate ..].
    destruct (instantiate h n (GName x)) as [p| |] eqn:I;
      [|destruct Fi as [(? & ? & ? & E)|(? & ? & E)]; discriminate ..].
    exists x, p. splits; auto; [eapply rebuild_ok; eauto | apply instantiate_built; auto]. }
  split.
  - intros n Fi. destruct (Fin n g Fi) as (x & p & S & B & Bu & ->).
    assert (Bu' : built g' n (GName x) p) by (eapply (inline_forth g g'); eauto using inlined_refl).
    unfold grammar_parser. rewrite G', <- G, B.
    rewrite (built_instantiate _ _ _ _ Bu') by auto. reflexivity.
  - intros n Fi. assert (Fi' := Fi). destruct (Fin n g' Fi) as (x & p & S & B & Bu & E).
    destruct (inline_back g g' y e Dy Ny Rel Acts n (GName x) p Bu (GName x) (inlined_refl _ _ _)) as (k & Bk).
    exists (Nat.max (1 + length start) (Nat.max k n)). intros n' Ln.
    rewrite (grammar_parser_start cfg env n' g x); [| auto | | rewrite G; lia].
    + rewrite (built_instantiate _ _ _ _ Bk) by lia. rewrite E.
      assert (Fp : finishes (eval cfg env n p) s ps)
        by (unfold finishes, accepts, rejects in *; rewrite E in Fi'; auto).
      apply C36_larger_bound_same_outcome; [lia|].
      destruct Fp as [(v & rem & q & Ep)|(mm & q & Ep)]; rewrite Ep; discriminate.
    + destruct S as (rest & Es & Wn & Ns). exists rest. rewrite G. rewrite G' in Es. auto.
Qed.
Print Assumptions C85_inlining.

(** *** Examples *)

(** A grammar with an import, an action and a name that is not used ... *)
Definition pairs : list decl :=
  [ Import (text "digit (one)") PDigit;
    Rule (text "ws ::= (' ' | '\n')*") None;
    Rule (text "old ::= ws 'x' | old") None;
    Rule (text "num ::= digit ws") (Some first_of_pair);
    Rule (text "pair ::= num num") None ].
Definition pairs_say : list entry :=
  [ mkentry (text "digit") (Native PDigit) None;
    mkentry (text "ws") (Parsed (GStar (GSel (GChar 32) (GChar 10)))) None;
    mkentry (text "old") (Parsed (GSel (GSeq (GName (text "ws")) (GChar 120)) (GName (text "old")))) None;
    mkentry (text "num") (Parsed (GSeq (GName (text "digit")) (GName (text "ws")))) (Some first_of_pair);
    mkentry (text "pair") (Parsed (GSeq (GName (text "num")) (GName (text "num")))) None ].

(** ... and the same one with other names, spaces and brackets. *)
Definition pairs2 : list decl :=
  [ Import (text "d") PDigit;
    Rule (text "w::=((' ')|'\n')*") None;
    Rule (text "o::=w 'x'|o ") None;
    Rule (text "n::=(d)w") (Some first_of_pair);
    Rule (text "p ::= ((n n))") None ].
Definition short (x : str) : str := match x with c :: _ => [c] | [] => [] end.

(** ... or with the definition of [ws] in its place. *)
Definition pairs3 : list decl :=
  [ Import (text "digit (one)") PDigit;
    Rule (text "ws ::= (' ' | '\n')*") None;
    Rule (text "old ::= ws 'x' | old") None;
    Rule (text "num ::= digit (' ' | '\n')*") (Some first_of_pair);
    Rule (text "pair ::= num num") None ].
Definition pairs3_say : list entry :=
  [ mkentry (text "digit") (Native PDigit) None;
    mkentry (text "ws") (Parsed (GStar (GSel (GChar 32) (GChar 10)))) None;
    mkentry (text "old") (Parsed (GSel (GSeq (GName (text "ws")) (GChar 120)) (GName (text "old")))) None;
    mkentry (text "num") (Parsed (GSeq (GName (text "digit")) (GStar (GSel (GChar 32) (GChar 10))))) (Some first_of_pair);
    mkentry (text "pair") (Parsed (GSeq (GName (text "num")) (GName (text "num")))) None ].

Lemma pairs_written : written pairs pairs_say.
Proof. repeat (apply Forall2_cons; [apply (says_by_reading 80); vm_compute; reflexivity|]). apply Forall2_nil. Qed.
Lemma pairs2_written : written pairs2 (map (rename_entry short) pairs_say).
Proof. repeat (apply Forall2_cons; [apply (says_by_reading 80); vm_compute; reflexivity|]). apply Forall2_nil. Qed.
Lemma pairs3_written : written pairs3 pairs3_say.
Proof. repeat (apply Forall2_cons; [apply (says_by_reading 80); vm_compute; reflexivity|]). apply Forall2_nil. Qed.

Definition pairs_names : list str := [text "digit"; text "ws"; text "old"; text "num"; text "pair"].

Example C85_read_case :
  Forall (fun d => (2 * length (decl_text d) + 4 < 80)%nat) pairs
  /\ stands_for pairs_say (text "num") (Parsed (GSeq (GName (text "digit")) (GName (text "ws"))))
  /\ acted_by pairs_say (text "num") first_of_pair /\ NoDup (map e_name pairs_say).
Proof.
  splits.
  - repeat (constructor; [vm_compute; repeat constructor|]). constructor.
  - exists (firstn 3 pairs_say), (Some first_of_pair), (skipn 4 pairs_say). split; [reflexivity|].
    constructor; [discriminate | constructor].
  - exists (firstn 3 pairs_say), (Parsed (GSeq (GName (text "digit")) (GName (text "ws")))), (skipn 4 pairs_say).
    split; [reflexivity|]. constructor; [discriminate | constructor].
  - repeat (constructor; [vm_compute; intuition discriminate|]). constructor.
Qed.

Lemma occurs_pairs : forall y, occurs pairs_say y -> In y pairs_names.
Proof.
  intros y O. unfold occurs, pairs_say in O.
  repeat (rewrite Exists_cons in O). rewrite Exists_nil in O. cbn in O.
  unfold pairs_names. simpl.
  repeat match goal with H : _ \/ _ |- _ => destruct H end; subst; try contradiction; tauto.
Qed.

(** Renamed, the grammar is the same parser. *)
Example C85_renaming_case : exists g g',
  add_decls c98 80 (empty_grammar (text "pair")) pairs = Ok g
  /\ add_decls c98 80 (empty_grammar (text "p")) pairs2 = Ok g'
  /\ (forall n s ps, (4 < n)%nat ->
       grammar_parser c98 (fun _ => PLitC 0) n g' s ps = grammar_parser c98 (fun _ => PLitC 0) n g s ps)
  /\ grammar_parser c98 (fun _ => PLitC 0) 40 g (text "1 2x") start
     = Accept (VSeq [VChar 49; VChar 50]) (text "x") (mkpos 1 4 50).
Proof.
  assert (F : grammar_fits c98) by apply C39_default_limits_suffice.
  destruct (add_decls c98 80 (empty_grammar (text "pair")) pairs) as [g| |] eqn:A;
    [|vm_compute in A; discriminate ..].
  destruct (add_decls c98 80 (empty_grammar (text "p")) pairs2) as [g'| |] eqn:A';
    [|vm_compute in A'; discriminate ..].
  exists g, g'. splits; auto.
  - intros n s ps L.
    apply (C85_renaming c98 (fun _ => PLitC 0) 80 80 n short (text "pair") (text "pair") (text "p")
             pairs pairs2 pairs_say); auto using pairs_written, pairs2_written.
    + exists []. splits; auto; [|exact I]. split; [discriminate|].
      repeat (apply Forall_cons; [left; left; vm_compute; split; discriminate|]). apply Forall_nil.
    + exists []. splits; auto; [|exact I]. split; [discriminate|].
      repeat (apply Forall_cons; [left; left; vm_compute; split; discriminate|]). apply Forall_nil.
    + intros y z Y Z E.
      assert (Iy : In y pairs_names) by (destruct Y as [->|Y]; [vm_compute; tauto | apply occurs_pairs; auto]).
      assert (Iz : In z pairs_names) by (destruct Z as [->|Z]; [vm_compute; tauto | apply occurs_pairs; auto]).
      clear Y Z A A'. simpl in Iy, Iz.
      repeat destruct Iy as [<-|Iy]; try contradiction;
        repeat destruct Iz as [<-|Iz]; try contradiction; try reflexivity; vm_compute in E; discriminate.
    + simpl. lia.
  - assert (B : add_decls c98 80 (empty_grammar (text "pair")) pairs
       = Ok (mkgrammar (text "pair") (rules_of pairs_say []) (actions_of pairs_say [])))
      by (vm_compute; reflexivity).
    rewrite A in B. injection B as ->. vm_compute. reflexivity.
Qed.

(** The declarations in another order, and without the rule that is not used
    (which is recursive: used, it would be an error). *)
Example C85_order_case : exists g', add_decls c98 80 (empty_grammar (text "pair")) (rev pairs) = Ok g'
  /\ forall n s ps, grammar_parser c98 (fun _ => PLitC 0) n g' s ps
     = grammar_parser c98 (fun _ => PLitC 0) n
         (mkgrammar (text "pair") (rules_of pairs_say []) (actions_of pairs_say [])) s ps.
Proof.
  apply (C85_order c98 (fun _ => PLitC 0) 80 (text "pair") pairs (rev pairs) pairs_say).
  - apply C39_default_limits_suffice.
  - exact pairs_written.
  - apply C85_read_case.
  - apply Permutation_rev.
  - vm_compute. reflexivity.
Qed.

Example C85_unused_case : exists g',
  add_decls c98 80 (empty_grammar (text "pair")) (firstn 2 pairs ++ skipn 3 pairs) = Ok g'
  /\ forall n s ps, grammar_parser c98 (fun _ => PLitC 0) n g' s ps
     = grammar_parser c98 (fun _ => PLitC 0) n
         (mkgrammar (text "pair") (rules_of pairs_say []) (actions_of pairs_say [])) s ps.
Proof.
  assert (W := pairs_written).
  inversion W as [|? ? ? ? S1 W1]; subst. inversion W1 as [|? ? ? ? S2 W2]; subst.
  inversion W2 as [|? ? ? ? S3 W3]; subst.
  eapply (C85_unused c98 (fun _ => PLitC 0) 80 (text "pair") (firstn 2 pairs) _ (skipn 3 pairs)
           (firstn 2 pairs_say) _ (skipn 3 pairs_say)).
  - apply C39_default_limits_suffice.
  - repeat (constructor; auto).
  - exact S3.
  - exact W3.
  - intros x (rest & E & (_ & Wx) & N) U.
    assert (X : x = text "pair").
    { apply (start_name_unique (empty_grammar (text "pair"))).
      - exists rest. splits; auto. split; auto. intros ->. simpl in E. subst rest.
        apply N. left. left. vm_compute. split; discriminate.
      - exists []. splits; auto; [|exact I]. split; [discriminate|].
        repeat (apply Forall_cons; [left; left; vm_compute; split; discriminate|]). apply Forall_nil. }
    subst x. clear E N Wx W W1 W2 W3 S1 S2 S3.
    assert (K : forall y, used (firstn 2 pairs_say ++ skipn 3 pairs_say) (text "pair") y ->
       In y [text "pair"; text "num"; text "digit"; text "ws"]).
    { intros y Uy. induction Uy as [|y e z Uy IH St M]; [left; auto|].
      apply lookup_rules in St. simpl in IH.
      repeat destruct IH as [<-|IH]; try contradiction; vm_compute in St; inversion St; subst e;
        vm_compute in M; repeat (destruct M as [M|M]); subst; try contradiction; vm_compute; tauto. }
    apply K in U. cbn in U. repeat destruct U as [U|U]; try contradiction; vm_compute in U; discriminate.
  - vm_compute. reflexivity.
Qed.

Example C85_inlining_case :
  Forall2 (inlined_entry (text "ws") (GStar (GSel (GChar 32) (GChar 10)))) pairs_say pairs3_say
  /\ stands_for pairs_say (text "ws") (Parsed (GStar (GSel (GChar 32) (GChar 10))))
  /\ (forall f, ~ acted_by pairs_say (text "ws") f)
  /\ written pairs3 pairs3_say
  /\ exists g', add_decls c98 80 (empty_grammar (text "pair")) pairs3 = Ok g'.
Proof.
  splits.
  - unfold pairs_say, pairs3_say.
    repeat (apply Forall2_cons; [constructor; repeat constructor|]). apply Forall2_nil.
  - apply lookup_rules. vm_compute. reflexivity.
  - intros f H. apply lookup_actions in H. vm_compute in H. discriminate.
  - exact pairs3_written.
  - exists (mkgrammar (text "pair") (rules_of pairs3_say []) (actions_of pairs3_say [])).
    vm_compute. reflexivity.
Qed.

Example C85_replaced_case :
  Exists (fun c => e_name c = text "S" /\ (None (A := mf1) <> None -> e_action c <> None))
    [mkentry (text "T") (Native PDigit) None; mkentry (text "S") (Native PDigit) None].
Proof. apply Exists_cons_tl. apply Exists_cons_hd. split; [reflexivity|]. intros []. reflexivity. Qed.
