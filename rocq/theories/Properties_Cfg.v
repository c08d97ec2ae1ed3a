(** C90: parsers and context-free languages. *)

From Coq Require Import ZArith List Bool Lia.
From Verif Require Import Base Util Combinators Variadic Parsers Deep Spec SpecDeep SpecRules SpecTerm
  SpecType SpecPeg SpecCfg Proofs_Deep Proofs_Rules Proofs_Term Proofs_Type Proofs_PegAll Proofs_Cfg Proofs_Blame
  Properties_Positions Properties_Deep Properties_Rules Properties_Term Properties_Type Properties_Peg.
Import ListNotations.
Open Scope Z_scope.

Local Definition c98 := default_config Std98.
Local Definition c11 := default_config Std11.

(** What a parser accepts is in the context-free language of its grammar, predicates
    left out. *)
Theorem C90_accepted_is_derived : forall cfg env e,
  program_every (fits cfg) env -> every (fits cfg) e ->
  program_every recognition env -> every recognition e ->
  forall n s ps r s' q, eval cfg env n e s ps = Accept r s' q ->
    exists w, s = w ++ s' /\ derives (rules_of env) (peg_of e) w.
Proof.
  intros cfg env e FE Fe RE Re n s ps r s' q E.
  destruct (C88_parsers_recognise cfg env e FE Fe RE Re n s ps) as (A & _).
  exact (recognised_derives _ _ _ _ (A _ _ _ E) _ eq_refl).
Qed.
Print Assumptions C90_accepted_is_derived.

(** A grammar without left recursion whose repetitions read something gives a
    verdict on every text. *)
Theorem C90_verdict : forall rules rank g,
  no_left_recursion rules rank -> (forall k, stars_read rules (rules k)) -> stars_read rules g ->
  forall s, exists r, recognises rules g s r.
Proof. intros rules rank g L H S s. exact (finishes_all rules rank L H g s S). Qed.
Print Assumptions C90_verdict.

(** If one character decides, everything in the language is recognised. *)
Theorem C90_derived_is_recognised : forall rules rank follow g F,
  no_left_recursion rules rank -> ll1_grammar rules follow -> one_decides rules follow g F ->
  forall w s, derives rules g w -> goes_on_with F s -> recognises rules g (w ++ s) (Some s).
Proof.
  intros rules rank follow g F L LL O w s D G.
  exact (derived_recognises rules rank L (fun k => ll1_reads rules follow _ _ (LL k)) follow LL g w D F s O G).
Qed.
Print Assumptions C90_derived_is_recognised.

Theorem C90_whole_text : forall rules rank follow g,
  no_left_recursion rules rank -> ll1_grammar rules follow ->
  one_decides rules follow g (fun _ => False) ->
  forall s, recognises rules g s (Some []) <-> derives rules g s.
Proof.
  intros rules rank follow g L LL O s. split.
  - intros R. destruct (recognised_derives _ _ _ _ R _ eq_refl) as (w & E & D).
    rewrite app_nil_r in E. congruence.
  - intros D. pose proof (C90_derived_is_recognised rules rank follow g _ L LL O s [] D I) as R.
    rewrite app_nil_r in R. exact R.
Qed.
Print Assumptions C90_whole_text.

(** So there is only one way to go on. *)
Theorem C90_one_word : forall rules follow g F,
  ll1_grammar rules follow -> one_decides rules follow g F ->
  forall w1 s1 w2 s2, derives rules g w1 -> goes_on_with F s1 ->
    derives rules g w2 -> goes_on_with F s2 -> w1 ++ s1 = w2 ++ s2 -> w1 = w2 /\ s1 = s2.
Proof.
  intros rules follow g F LL O w1 s1 w2 s2 D1 G1 D2 G2 E.
  assert (w1 = w2) as <- by exact (one_word rules follow LL g w1 D1 F O w2 s1 s2 D2 G1 G2 E).
  split; [reflexivity|]. exact (app_inv_head _ _ _ E).
Qed.
Print Assumptions C90_one_word.

(** The order of the alternatives does not matter. *)
Theorem C90_order : forall rules1 rank1 follow1 g1 rules2 rank2 follow2 g2,
  no_left_recursion rules1 rank1 -> ll1_grammar rules1 follow1 ->
  one_decides rules1 follow1 g1 (fun _ => False) ->
  no_left_recursion rules2 rank2 -> ll1_grammar rules2 follow2 ->
  one_decides rules2 follow2 g2 (fun _ => False) ->
  (forall k, reordered (rules1 k) (rules2 k)) -> reordered g1 g2 ->
  forall s, recognises rules1 g1 s (Some []) <-> recognises rules2 g2 s (Some []).
Proof.
  intros rules1 rank1 follow1 g1 rules2 rank2 follow2 g2 L1 LL1 O1 L2 LL2 O2 R Rg s.
  rewrite (C90_whole_text _ _ _ _ L1 LL1 O1), (C90_whole_text _ _ _ _ L2 LL2 O2).
  split; intros D; eapply reordered_derives; eauto using reordered_sym.
Qed.
Print Assumptions C90_order.

(** The parsers of the library: they accept the whole text exactly when it is in the
    context-free language. *)
Theorem C90_parsers : forall cfg nul rank R K G env e r T rank' follow F,
  program_every (fits cfg) env -> every (fits cfg) e ->
  program_every recognition env -> every recognition e ->
  well_founded_program nul rank R K env ->
  every (loops_read nul rank R K) e -> left_ok nul rank r e = true ->
  (forall k, typed cfg G (env k) (G k)) -> typed cfg G e T ->
  no_left_recursion (rules_of env) rank' -> ll1_grammar (rules_of env) follow ->
  one_decides (rules_of env) follow (peg_of e) F ->
  forall n s ps, ((length s + 1) * (R + 1) + r + K < n)%nat ->
    (forall s', goes_on_with F s' ->
       ((exists v q, eval cfg env n e s ps = Accept v s' q)
        <-> exists w, s = w ++ s' /\ derives (rules_of env) (peg_of e) w))
    /\ ((exists v q, eval cfg env n e s ps = Accept v [] q)
        <-> derives (rules_of env) (peg_of e) s).
Proof.
  intros cfg nul rank R K G env e r T rank' follow F FE Fe RE Re WF Hev LO HE He NL LL O n s ps N.
  assert (X : forall s', goes_on_with F s' ->
       ((exists v q, eval cfg env n e s ps = Accept v s' q)
        <-> exists w, s = w ++ s' /\ derives (rules_of env) (peg_of e) w)).
  { intros s' Go. split.
    - intros (v & q & E). eapply C90_accepted_is_derived; eauto.
    - intros (w & -> & D).
      apply (proj1 (C88_same_language cfg nul rank R K G env e r T FE Fe RE Re WF Hev LO HE He n (w ++ s') ps N)).
      exact (C90_derived_is_recognised _ _ _ _ _ NL LL O w s' D Go). }
  split; [exact X|]. rewrite (X [] I). split.
  - intros (w & -> & D). rewrite app_nil_r. exact D.
  - intros D. exists s. rewrite app_nil_r. auto.
Qed.
Print Assumptions C90_parsers.

(** The condition can be checked with the tables of the textbooks. *)
Theorem C90_tables : forall rules nul_t first_t follow_t rank,
  tables_of nul_t first_t rules ->
  (forall k, one_decides_t nul_t first_t follow_t (rules k) (follow_t k)) ->
  (forall k j, leads_tob nul_t (rules k) j = true -> (rank j < rank k)%nat) ->
  ll1_grammar rules (fun k c => follow_t k c = true)
  /\ no_left_recursion rules rank
  /\ forall g F, one_decides_t nul_t first_t follow_t g F ->
       one_decides rules (fun k c => follow_t k c = true) g (fun c => F c = true).
Proof.
  intros rules nul_t first_t follow_t rank T O L. split; [|split].
  - intros k. eapply decides_tables; eauto.
  - intros k j H. apply L. eapply leads_tables; eauto.
  - intros g F H. eapply decides_tables; eauto.
Qed.
Print Assumptions C90_tables.

(** ** Examples *)

(** Sums: S ::= T ('+' T)* ;  T ::= digit digit* | '(' S ')'. *)
Definition a_digit := FClass (fun c => (48 <=? c) && (c <=? 57)).
Definition sum_rules (k : nat) : parsing_expression :=
  match k with
  | 0%nat => FSeq (FName 1) (FStar (FSeq (is 43) (FName 1)))
  | _ => FAlt (FSeq a_digit (FStar a_digit)) (FSeq (is 40) (FSeq (FName 0) (is 41)))
  end.
Definition sum_rank (k : nat) : nat := match k with 0%nat => 1%nat | _ => 0%nat end.
Definition sum_first (k : nat) (c : char) : bool := (48 <=? c) && (c <=? 57) || (c =? 40).
Definition sum_follow (k : nat) (c : char) : bool :=
  match k with 0%nat => c =? 41 | _ => (c =? 41) || (c =? 43) end.

Ltac chars := intros; unfold char in *;
  repeat match goal with
  | H : _ || _ = true |- _ => apply orb_true_iff in H as [H|H]
  | H : _ && _ = true |- _ => apply andb_true_iff in H as (? & H)
  | H : (_ =? _) = true |- _ => apply Z.eqb_eq in H
  | H : (_ <=? _) = true |- _ => apply Z.leb_le in H
  end; subst; try discriminate; try reflexivity; try lia.

Lemma sum_tables : tables_of (fun _ => false) sum_first sum_rules.
Proof.
  intros [|k]; cbn [nullb firstb sum_rules is a_digit]; unfold sum_first; (split; [discriminate|]); intros c H.
  - rewrite ?andb_false_l, ?orb_false_r in H. exact H.
  - rewrite ?andb_false_l, ?orb_false_r in H. rewrite Z.eqb_sym. exact H.
Qed.

Lemma sum_ll1 : ll1_grammar sum_rules (fun k c => sum_follow k c = true)
  /\ no_left_recursion sum_rules sum_rank
  /\ one_decides sum_rules (fun k c => sum_follow k c = true) (FName 0) (fun _ => False).
Proof.
  destruct (C90_tables sum_rules _ _ sum_follow sum_rank sum_tables) as (A & B & C).
  - intros [|k]; cbn [one_decides_t nullb firstb sum_rules is a_digit andb orb];
    unfold apartb, sum_first, sum_follow.
    + split; [chars|]. split; [reflexivity|]. split; [chars|]. split; [exact I|chars].
    + split; [reflexivity|]. split; [chars; rewrite ?andb_false_l, ?orb_false_r in H; chars; apply Z.eqb_neq; lia|].
      split; [discriminate|]. split.
      * split; [exact I|]. split; [reflexivity|]. split; [|exact I].
        chars.
      * split; [exact I|]. split; [|exact I]. intros c H. rewrite ?orb_false_r in H. chars.
  - intros [|k] j; cbn [leads_tob nullb sum_rules is a_digit andb orb]; intros H.
    + rewrite ?orb_false_r in H. apply PeanoNat.Nat.eqb_eq in H. subst. auto.
    + discriminate.
  - split; [exact A|]. split; [exact B|]. intros c [].
Qed.

Lemma sum_well_founded : well_founded_program (fun _ => false) sum_rank 2 0
  (fun k => parser_of (sum_rules k)).
Proof.
  split.
  - intros [|k]; simpl;
    repeat match goal with
    | H : _ \/ _ |- _ => destruct H
    | H : False |- _ => contradiction
    | H : ?a = ?c |- every _ ?c => subst c
    | |- loops_read _ _ _ _ _ => simpl; auto
    | |- forall c, In c _ -> _ => intros ?c ?H; simpl in *
    | |- every _ _ => constructor
    end.
  - intros [|k]; reflexivity.
  - intros [|k]; reflexivity.
Qed.

Example C90_case :
  derives sum_rules (FName 0) (text "1+(23+4)")
  /\ ~ derives sum_rules (FName 0) (text "1+(2")
  /\ recognises sum_rules (FName 0) (text "1+2)") (Some (text ")")).
Proof.
  destruct sum_ll1 as (A & B & C).
  assert (F1 : fits_one_of c98 2) by (intros _; cbv; repeat constructor).
  assert (F2 : fits_sequence c98 2) by (intros _; cbv; repeat constructor).
  assert (E : every (loops_read (fun _ => false) sum_rank 2 0) (parser_of (FName 0)))
    by (constructor; [simpl; lia|intros c []]).
  assert (X := C88_every_grammar c98 _ _ _ _ sum_rules (FName 0) 2 F1 F2 sum_well_founded E eq_refl 60).
  split; [|split].
  - apply (C90_whole_text sum_rules sum_rank _ _ B A C).
    apply (X (text "1+(23+4)") start); [simpl; lia|].
    exists (VSeq [VSeq [VChar 49; VVoid_]; VVoid_]), (mkpos 1 9 41). vm_compute. reflexivity.
  - intros D. apply (C90_whole_text sum_rules sum_rank _ _ B A C) in D.
    apply (X (text "1+(2") start) in D; [|simpl; lia]. destruct D as (v & q & D).
    vm_compute in D. discriminate.
  - apply (X (text "1+2)") start); [simpl; lia|].
    exists (VSeq [VSeq [VChar 49; VVoid_]; VVoid_]), (mkpos 1 4 50). vm_compute. reflexivity.
Qed.

(** With the brackets first. *)
Definition sum_rules' (k : nat) : parsing_expression :=
  match k with
  | 0%nat => FSeq (FName 1) (FStar (FSeq (is 43) (FName 1)))
  | _ => FAlt (FSeq (is 40) (FSeq (FName 0) (is 41))) (FSeq a_digit (FStar a_digit))
  end.
Lemma sum_tables' : tables_of (fun _ => false) sum_first sum_rules'.
Proof.
  intros [|k]; cbn [nullb firstb sum_rules' is a_digit]; unfold sum_first; (split; [discriminate|]); intros c H.
  - rewrite ?andb_false_l, ?orb_false_r in H. exact H.
  - rewrite ?andb_false_l, ?orb_false_r in H. rewrite orb_comm, Z.eqb_sym. exact H.
Qed.
Example C90_order_case : forall s,
  recognises sum_rules (FName 0) s (Some []) <-> recognises sum_rules' (FName 0) s (Some []).
Proof.
  destruct sum_ll1 as (A & B & C).
  destruct (C90_tables sum_rules' _ _ sum_follow sum_rank sum_tables') as (A' & B' & C').
  - intros [|k]; cbn [one_decides_t nullb firstb sum_rules' is a_digit andb orb];
    unfold apartb, sum_first, sum_follow.
    + split; [chars|]. split; [reflexivity|]. split; [chars|]. split; [exact I|chars].
    + split; [reflexivity|]. split; [chars; rewrite ?andb_false_l, ?orb_false_r in H; chars|].
      split; [discriminate|]. split.
      * split; [exact I|]. split; [|exact I]. intros c H. rewrite ?orb_false_r in H. chars.
      * split; [exact I|]. split; [reflexivity|]. split; [|exact I]. chars.
  - intros [|k] j; cbn [leads_tob nullb sum_rules' is a_digit andb orb]; intros H.
    + rewrite ?orb_false_r in H. apply PeanoNat.Nat.eqb_eq in H. subst. auto.
    + discriminate.
  - intros s. apply (C90_order sum_rules sum_rank _ _ sum_rules' sum_rank (fun k c => sum_follow k c = true) _ B A C B' A').
    + intros c [].
    + intros [|k]; simpl; [apply ro_same|apply ro_swap; apply ro_same].
    + apply ro_same.
Qed.

(** The parser of the other examples: a letter in any number of brackets. *)
Definition letter_or_open (k : nat) (c : char) : bool :=
  (c =? 40) || class_of PLetter c.
Lemma says_yes_char : forall x c, says_yes (is_char_c x) (VChar c) = (c =? x).
Proof. intros x c. unfold says_yes, is_char_c. simpl. rewrite Z.eqb_sym. destruct (_ =? _); reflexivity. Qed.
Lemma brackets_tables : tables_of (fun _ => false) letter_or_open (rules_of brackets).
Proof.
  intros k. split; [discriminate|]. intros c H. unfold letter_or_open. simpl in H |- *.
  rewrite ?orb_false_r, says_yes_char in H. exact H.
Qed.

Lemma brackets_ll1 : ll1_grammar (rules_of brackets) (fun k c => (c =? 41) = true)
  /\ no_left_recursion (rules_of brackets) (fun _ => 0%nat)
  /\ one_decides (rules_of brackets) (fun k c => (c =? 41) = true) (peg_of (PRef 0)) (fun c => (c =? 41) = true).
Proof.
  destruct (C90_tables (rules_of brackets) _ _ (fun _ c => c =? 41) (fun _ => 0%nat) brackets_tables) as (A & B & C).
  - intros k. simpl. split; [reflexivity|]. split.
    + intros c H. rewrite ?orb_false_r, says_yes_char in H. apply Z.eqb_eq in H. subst. reflexivity.
    + split; [discriminate|]. split; [|exact I]. split; [exact I|]. split; [|exact I].
      intros c H. rewrite ?orb_false_r, says_yes_char in H. exact H.
  - intros k j H. discriminate.
  - split; [exact A|]. split; [exact B|]. intros c H. exact H.
Qed.

Lemma brackets_facts : program_every recognition brackets /\ program_every (fits c98) brackets
  /\ every recognition (PRef 0) /\ every (fits c98) (PRef 0).
Proof.
  split; [|split; [|split]].
  - intros k. unfold brackets, PLitC, PLetter.
    repeat match goal with
    | H : _ \/ _ |- _ => destruct H
    | H : False |- _ => contradiction
    | H : ?a = ?c |- every _ ?c => subst c
    | |- recognition _ => simpl; auto
    | |- forall c, In c _ -> _ => intros ?c ?H; simpl in *
    | |- every _ _ => constructor
    end.
  - intros k. unfold brackets, PLitC, PLetter.
    repeat match goal with
    | H : _ \/ _ |- _ => destruct H
    | H : False |- _ => contradiction
    | H : ?a = ?c |- every _ ?c => subst c
    | |- fits _ _ => unfold fits, fits_one_of, fits_sequence; try exact I; intros _; cbv; repeat constructor
    | |- forall c, In c _ -> _ => intros ?c ?H; simpl in *
    | |- every _ _ => constructor
    end.
  - constructor; [exact I|intros c []].
  - constructor; [exact I|intros c []].
Qed.

(** A letter in [d] pairs of brackets. *)
Definition in_brackets (d : nat) (c : char) : str := repeat 40 d ++ [c] ++ repeat 41 d.
Lemma in_brackets_derived : forall d c, class_of PLetter c = true ->
  derives (rules_of brackets) (FName 0) (in_brackets d c).
Proof.
  intros d c H. induction d as [|d IH]; apply d_name; simpl.
  - apply d_alt_right. apply (d_class _ _ c). exact H.
  - apply d_alt_left. unfold in_brackets.
    replace (repeat 40 (S d) ++ [c] ++ repeat 41 (S d)) with ([40] ++ in_brackets d c ++ [41]).
    + apply d_seq; [apply d_class; reflexivity|]. apply d_seq; [exact IH|apply d_class; reflexivity].
    + unfold in_brackets. change (S d) with (1 + d)%nat at 2. rewrite PeanoNat.Nat.add_comm, repeat_app.
      simpl. rewrite <- !app_assoc. reflexivity.
Qed.

Example C90_parser_case : forall d c, class_of PLetter c = true ->
  forall n, (2 * length (in_brackets d c) + 3 < n)%nat ->
  exists v q, eval c98 brackets n (PRef 0) (in_brackets d c) start = Accept v [] q.
Proof.
  intros d c H n N.
  destruct brackets_facts as (Rb & Fb & Re & Fe), brackets_ll1 as (A & B & C), C46_case as (W & E & L & _).
  apply (proj2 (C90_parsers c98 _ _ 1 0 (fun _ => a_letter) brackets (PRef 0) 1 a_letter _ _ _
    Fb Fe Rb Re W E L brackets_typed (T_ref c98 (fun _ => a_letter) 0) B A C n (in_brackets d c) start ltac:(lia))).
  apply in_brackets_derived. exact H.
Qed.

(** Otherwise a word of the language may be rejected: (a | ab) c and "abc". *)
Theorem C90_order_refuted : exists rules rank g w,
  no_left_recursion rules rank /\ (forall k, stars_read rules (rules k)) /\ stars_read rules g
  /\ derives rules g w /\ recognises rules g w None.
Proof.
  exists (fun _ => FFail), (fun _ => 0%nat),
    (FSeq (FAlt (is 97) (FSeq (is 97) (is 98))) (is 99)), (text "abc").
  split; [intros k j []|]. split; [intros k; exact I|]. split; [simpl; auto|]. split.
  - apply (d_seq _ _ _ [97; 98] [99]); [|apply d_class; reflexivity].
    apply d_alt_right. apply (d_seq _ _ _ [97] [98]); apply d_class; reflexivity.
  - eapply f_seq; [apply f_alt; apply f_class; reflexivity|]. apply f_class_no. simpl. discriminate.
Qed.
Print Assumptions C90_order_refuted.

(** The alternative that may be empty has to be the last one. *)
Theorem C90_empty_last_refuted : exists rules g w,
  derives rules g w /\ ~ recognises rules g w (Some [])
  /\ recognises rules g w (Some w).
Proof.
  exists (fun _ => FFail), (FAlt FEps (is 97)), (text "a").
  assert (R : recognises (fun _ => FFail) (FAlt FEps (is 97)) (text "a") (Some (text "a")))
    by (apply f_alt; constructor).
  split; [apply d_alt_right; apply (d_class _ _ 97); reflexivity|]. split; [|exact R].
  intros X. pose proof (C88_one_verdict _ _ _ _ _ X R). discriminate.
Qed.
Print Assumptions C90_empty_last_refuted.
