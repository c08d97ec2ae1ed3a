(** Proofs about the declarations of grammars (C85). *)

From Coq Require Import ZArith List Bool Lia Permutation.
From Verif Require Import Base Util Combinators Variadic Parsers Deep Grammar Spec SpecDeep SpecTerm
  SpecType SpecGrammar SpecDeclarations Proofs_Pos Proofs_Fold Proofs_Deep Proofs_Term Proofs_Type
  Properties_Deep Properties_Term Properties_Type Proofs_Grammar Proofs_Peg Properties_Grammar.
Import ListNotations.
Open Scope Z_scope.

Definition rules_of (l : list entry) (acc : list (str * gdef)) : list (str * gdef) :=
  fold_left (fun r b => (e_name b, e_def b) :: r) l acc.
Definition actions_of (l : list entry) (acc : list (str * mf1)) : list (str * mf1) :=
  fold_left (fun r b => match e_action b with Some f => (e_name b, f) :: r | None => r end) l acc.

Lemma says_unique : forall d b c, says d b -> says d c -> b = c.
Proof.
  intros d b c H K. inversion H; subst; inversion K; subst.
  - match goal with A : rule_text _ _ _, B : rule_text _ _ _ |- _ =>
      destruct (C39_unambiguous _ _ _ _ _ A B); subst; auto end.
  - assert (E : x = x0); [|subst; auto].
    apply (start_name_unique (mkgrammar (x ++ rest) [] [])).
    + exists rest. simpl. auto.
    + exists rest0. simpl. auto.
Qed.

Lemma written_unique : forall ds l l', written ds l -> written ds l' -> l = l'.
Proof.
  intros ds l l' H. revert l'. induction H as [|d b ds l A B IH]; intros l' K; inversion K; subst; auto.
  f_equal; auto. eapply says_unique; eauto.
Qed.

Lemma add_decl_says : forall cfg n g d g', grammar_fits cfg -> add_decl cfg n g d = Ok g' ->
  exists b, says d b /\ g_start g' = g_start g
    /\ g_rules g' = (e_name b, e_def b) :: g_rules g
    /\ g_actions g' = match e_action b with Some f => (e_name b, f) :: g_actions g | None => g_actions g end.
Proof.
  intros cfg n g [s a|s p] g' F H; simpl in H.
  - unfold add_rule in H. destruct (parse_rule cfg n s) as [(x, e)| |] eqn:P; inversion H; subst.
    apply parse_rule_ok in P; auto. exists (mkentry x (Parsed e) a). splits; auto. constructor; auto.
  - unfold add_import in H. destruct (rebuild cfg n s) as [x| |] eqn:P; inversion H; subst.
    apply rebuild_ok in P as (rest & E & W & N); auto. exists (mkentry x (Native p) None).
    splits; auto. econstructor; eauto.
Qed.

Lemma add_decls_says : forall cfg n ds g g', grammar_fits cfg -> add_decls cfg n g ds = Ok g' ->
  exists l, written ds l /\ g_start g' = g_start g
    /\ g_rules g' = rules_of l (g_rules g) /\ g_actions g' = actions_of l (g_actions g).
Proof.
  intros cfg n ds. induction ds as [|d ds IH]; intros g g' F H; simpl in H.
  - inversion H; subst. exists []. splits; auto. constructor.
  - destruct (add_decl cfg n g d) as [g1| |] eqn:A; try discriminate.
    apply add_decl_says in A as (b & S & E1 & E2 & E3); auto.
    apply IH in H as (l & W & F1 & F2 & F3); auto.
    exists (b :: l). splits; [constructor; auto | congruence | |].
    + rewrite F2, E2. reflexivity.
    + rewrite F3, E3. reflexivity.
Qed.

(** What a list of declarations says decides the grammar. *)
Lemma add_decls_written : forall cfg n ds l start g, grammar_fits cfg -> written ds l ->
  add_decls cfg n (empty_grammar start) ds = Ok g ->
  g = mkgrammar start (rules_of l []) (actions_of l []).
Proof.
  intros cfg n ds l start g F W H. apply add_decls_says in H as (l' & W' & E1 & E2 & E3); auto.
  rewrite (written_unique _ _ _ W W'). destruct g; simpl in *; subst; auto.
Qed.

Lemma add_decl_any : forall cfg n g h d g', add_decl cfg n g d = Ok g' ->
  exists h', add_decl cfg n h d = Ok h'.
Proof.
  intros cfg n g h [s a|s p] g' H; simpl in *.
  - unfold add_rule in *. destruct (parse_rule cfg n s) as [(x, e)| |]; try discriminate. eauto.
  - unfold add_import in *. destruct (rebuild cfg n s) as [x| |]; try discriminate. eauto.
Qed.

Lemma add_decls_ok : forall cfg n ds g, (exists g', add_decls cfg n g ds = Ok g') <->
  Forall (fun d => exists g', add_decl cfg n g d = Ok g') ds.
Proof.
  intros cfg n ds. induction ds as [|d ds IH]; intros g; simpl.
  - split; [constructor | eauto].
  - split.
    + intros (g' & H). destruct (add_decl cfg n g d) as [g1| |] eqn:A; try discriminate.
      constructor; eauto. assert (X : exists h, add_decls cfg n g1 ds = Ok h) by eauto.
      apply IH in X. eapply Forall_impl; [|exact X]. intros e (h & E). eapply add_decl_any; eauto.
    + intros H. inversion H as [|? ? (g1 & A) B]; subst. rewrite A. apply IH.
      eapply Forall_impl; [|exact B]. intros e (h & E). eapply add_decl_any; eauto.
Qed.

(** ** Lookups *)

Lemma lookup_cons_eq : forall A x (a : A) l, lookup x ((x, a) :: l) = Some a.
Proof. intros. simpl. destruct (list_eq_dec Z.eq_dec x x); congruence. Qed.
Lemma lookup_cons_ne : forall A x y (a : A) l, x <> y -> lookup x ((y, a) :: l) = lookup x l.
Proof. intros. simpl. destruct (list_eq_dec Z.eq_dec x y); congruence. Qed.

Lemma rules_of_snoc : forall l b acc, rules_of (l ++ [b]) acc = (e_name b, e_def b) :: rules_of l acc.
Proof. intros. unfold rules_of. rewrite fold_left_app. reflexivity. Qed.
Lemma actions_of_snoc : forall l b acc, actions_of (l ++ [b]) acc =
  match e_action b with Some f => (e_name b, f) :: actions_of l acc | None => actions_of l acc end.
Proof. intros. unfold actions_of. rewrite fold_left_app. reflexivity. Qed.

Lemma snoc_inj : forall A (l1 : list A) x l2 l b, l ++ [b] = l1 ++ x :: l2 ->
  l2 = [] /\ l = l1 /\ b = x \/ exists l2', l2 = l2' ++ [b] /\ l = l1 ++ x :: l2'.
Proof.
  intros A l1 x l2 l b E. destruct l2 as [|c l2 _] using rev_ind.
  - apply app_inj_tail in E as (-> & ->). auto.
  - right. exists l2. replace (l1 ++ x :: l2 ++ [c]) with ((l1 ++ x :: l2) ++ [c]) in E
      by (rewrite <- app_assoc; reflexivity).
    apply app_inj_tail in E as (-> & ->). auto.
Qed.

Lemma stands_for_snoc : forall l b x d, stands_for (l ++ [b]) x d <->
  (e_name b = x /\ e_def b = d) \/ (e_name b <> x /\ stands_for l x d).
Proof.
  intros l b x d. split.
  - intros (l1 & a & l2 & E & N). apply snoc_inj in E as [(-> & -> & ->)|(l2' & -> & ->)].
    + left. auto.
    + apply Forall_app in N as (N & Nb). inversion Nb; subst. right. split; auto. exists l1, a, l2'. auto.
  - intros [(<- & <-)|(Ne & l1 & a & l2 & -> & N)].
    + exists l, (e_action b), []. split; [destruct b; reflexivity | constructor].
    + exists l1, a, (l2 ++ [b]). split; [rewrite <- app_assoc; reflexivity|].
      apply Forall_app. split; auto.
Qed.

Lemma acted_by_snoc : forall l b x f, acted_by (l ++ [b]) x f <->
  (e_name b = x /\ e_action b = Some f) \/ (~ (e_name b = x /\ e_action b <> None) /\ acted_by l x f).
Proof.
  intros l b x f. split.
  - intros (l1 & d & l2 & E & N). apply snoc_inj in E as [(-> & -> & ->)|(l2' & -> & ->)].
    + left. auto.
    + apply Forall_app in N as (N & Nb). inversion Nb; subst. right. split; [tauto|]. exists l1, d, l2'. auto.
  - intros [(<- & E)|(Ne & l1 & d & l2 & -> & N)].
    + exists l, (e_def b), []. split; [destruct b; simpl in *; subst; reflexivity | constructor].
    + exists l1, d, (l2 ++ [b]). split; [rewrite <- app_assoc; reflexivity|].
      apply Forall_app. split; auto. constructor; auto. intros E. destruct (e_action b) eqn:A; auto.
      exfalso. apply Ne. split; auto. discriminate.
Qed.

Lemma nil_not_app : forall A (l1 : list A) x l2, [] <> l1 ++ x :: l2.
Proof. intros. apply app_cons_not_nil. Qed.

Lemma lookup_rules : forall l x d, lookup x (rules_of l []) = Some d <-> stands_for l x d.
Proof.
  intros l x d. induction l as [|b l IH] using rev_ind.
  - split; [discriminate|]. intros (l1 & a & l2 & E & _). destruct (nil_not_app _ _ _ _ E).
  - rewrite rules_of_snoc, stands_for_snoc.
    destruct (list_eq_dec Z.eq_dec x (e_name b)) as [->|Ne].
    + rewrite lookup_cons_eq. split; [intros H; inversion H; subst; auto|].
      intros [(_ & ->)|(N & _)]; [auto | destruct N; auto].
    + rewrite lookup_cons_ne by auto. rewrite IH. split; [intros; right; auto|].
      intros [(E & _)|(_ & H)]; [destruct Ne; auto | auto].
Qed.

Lemma lookup_actions : forall l x f, lookup x (actions_of l []) = Some f <-> acted_by l x f.
Proof.
  intros l x f. induction l as [|b l IH] using rev_ind.
  - split; [discriminate|]. intros (l1 & a & l2 & E & _). destruct (nil_not_app _ _ _ _ E).
  - rewrite actions_of_snoc, acted_by_snoc. destruct (e_action b) as [h|] eqn:A.
    + destruct (list_eq_dec Z.eq_dec x (e_name b)) as [->|Ne].
      * rewrite lookup_cons_eq. split; [intros H; inversion H; subst; auto|].
        intros [(_ & E)|(N & _)]; [congruence | destruct N; split; congruence].
      * rewrite lookup_cons_ne by auto. rewrite IH. split.
        -- intros H; right; split; auto. intros (E & _). destruct Ne; auto.
        -- intros [(E & _)|(_ & H)]; [destruct Ne; auto | auto].
    + rewrite IH. split; [intros H; right; split; auto; intros (_ & N); congruence|].
      intros [(_ & E)|(_ & H)]; [discriminate | auto].
Qed.

Lemma option_iff : forall A (o o' : option A), (forall a, o = Some a <-> o' = Some a) -> o = o'.
Proof.
  intros A [a|] [b|] H; auto.
  - symmetry. apply H. auto.
  - symmetry. apply H. auto.
  - apply H. auto.
Qed.

Lemma agree_lookups : forall l l' x, agree_on l l' x ->
  lookup x (rules_of l []) = lookup x (rules_of l' [])
  /\ lookup x (actions_of l []) = lookup x (actions_of l' []).
Proof.
  intros l l' x (D & A). split; apply option_iff; intros a.
  - rewrite !lookup_rules. apply D.
  - rewrite !lookup_actions. apply A.
Qed.

(** ** Instantiation depends on the lookups *)

Definition rename_def (r : str -> str) (d : gdef) : gdef :=
  match d with Parsed e => Parsed (rename r e) | Native p => Native p end.

Lemma instantiate_rename : forall r (P : str -> Prop) g g',
  (forall x, P x -> lookup (r x) (g_rules g') = option_map (rename_def r) (lookup x (g_rules g))) ->
  (forall x, P x -> lookup (r x) (g_actions g') = lookup x (g_actions g)) ->
  (forall x e z, P x -> lookup x (g_rules g) = Some (Parsed e) -> mentions e z -> P z) ->
  forall n e, (forall z, mentions e z -> P z) -> instantiate g' n (rename r e) = instantiate g n e.
Proof.
  intros r P g g' R A C n.
  induction n as [|n IHn]; induction e as [c | x | a IHa | a IHa | a IHa b IHb | a IHa b IHb]; intros M;
    rewrite (instantiate_eq g'), (instantiate_eq g); cbn [rename]; simpl in M;
    try (rewrite IHa, ?IHb by auto; reflexivity); auto.
  - rewrite R by auto. rewrite A by auto.
    destruct (lookup x (g_rules g)) as [[e|p]|] eqn:L; simpl; auto.
  - rewrite R by auto. rewrite A by auto.
    destruct (lookup x (g_rules g)) as [[e|p]|] eqn:L; simpl; auto.
    rewrite IHn; auto. intros z Mz. apply (C x e z); auto.
Qed.

Lemma rename_id : forall e, rename (fun x => x) e = e.
Proof. induction e; simpl; congruence. Qed.

Lemma used_mentions : forall l x y e z, used l x y -> lookup y (rules_of l []) = Some (Parsed e) ->
  mentions e z -> used l x z.
Proof. intros l x y e z U L M. apply lookup_rules in L. eapply us_step; eauto. Qed.

Lemma agree_instantiate : forall l l' start start' x n,
  (forall y, used l x y -> agree_on l l' y) ->
  instantiate (mkgrammar start' (rules_of l' []) (actions_of l' [])) n (GName x)
  = instantiate (mkgrammar start (rules_of l []) (actions_of l [])) n (GName x).
Proof.
  intros l l' start start' x n H.
  rewrite <- (rename_id (GName x)) at 1.
  apply (instantiate_rename (fun x => x) (used l x)); cbn [g_rules g_actions].
  - intros y U. destruct (agree_lookups _ _ _ (H y U)) as (<- & _).
    destruct (lookup y (rules_of l [])) as [[e|p]|]; simpl; rewrite ?rename_id; auto.
  - intros y U. destruct (agree_lookups _ _ _ (H y U)) as (_ & <-). auto.
  - intros y e z U L M. eapply used_mentions; eauto.
  - simpl. intros z ->. apply us_here.
Qed.

Definition is_start (start x : str) : Prop :=
  exists rest, start = x ++ rest /\ writable x /\ not_starting_with name_char rest.

Lemma same_parser : forall cfg env start g g' n s ps, grammar_fits cfg ->
  g_start g = start -> g_start g' = start ->
  (forall x, is_start start x -> instantiate g' n (GName x) = instantiate g n (GName x)) ->
  grammar_parser cfg env n g' s ps = grammar_parser cfg env n g s ps.
Proof.
  intros cfg env start g g' n s ps F E E' H. unfold grammar_parser. rewrite E, E'.
  destruct (rebuild cfg n start) as [x| |] eqn:R; auto.
  rewrite H; auto. apply rebuild_ok in R; auto.
Qed.

Lemma decided : forall cfg env m m' n start ds ds' l l' g g' s ps, grammar_fits cfg ->
  written ds l -> written ds' l' ->
  add_decls cfg m (empty_grammar start) ds = Ok g ->
  add_decls cfg m' (empty_grammar start) ds' = Ok g' ->
  (forall x, is_start start x -> forall y, used l x y -> agree_on l l' y) ->
  grammar_parser cfg env n g' s ps = grammar_parser cfg env n g s ps.
Proof.
  intros cfg env m m' n start ds ds' l l' g g' s ps F W W' A A' H.
  apply (add_decls_written _ _ _ _ _ _ F W) in A. apply (add_decls_written _ _ _ _ _ _ F W') in A'.
  subst. eapply same_parser; eauto; try reflexivity.
  intros x S. apply agree_instantiate. eauto.
Qed.

(** ** Order *)

Lemma nodup_stands : forall l x d, NoDup (map e_name l) ->
  (stands_for l x d <-> exists a, In (mkentry x d a) l).
Proof.
  intros l x d N. split.
  - intros (l1 & a & l2 & -> & _). exists a. apply in_elt.
  - intros (a & I). apply in_split in I as (l1 & l2 & ->). exists l1, a, l2. split; auto.
    rewrite map_app in N. simpl in N. apply NoDup_remove in N as (_ & N).
    apply Forall_forall. intros b I E. apply N. apply in_or_app. right. rewrite <- E. apply in_map. auto.
Qed.

Lemma nodup_acted : forall l x f, NoDup (map e_name l) ->
  (acted_by l x f <-> exists d, In (mkentry x d (Some f)) l).
Proof.
  intros l x d N. split.
  - intros (l1 & a & l2 & -> & _). exists a. apply in_elt.
  - intros (a & I). apply in_split in I as (l1 & l2 & ->). exists l1, a, l2. split; auto.
    rewrite map_app in N. simpl in N. apply NoDup_remove in N as (_ & N).
    apply Forall_forall. intros b I E. exfalso. apply N. apply in_or_app. right. rewrite <- E. apply in_map. auto.
Qed.

Lemma permuted_agree : forall l l' x, NoDup (map e_name l) -> Permutation l l' -> agree_on l l' x.
Proof.
  intros l l' x N P. assert (N' : NoDup (map e_name l')).
  { eapply Permutation_NoDup; [|exact N]. apply Permutation_map. auto. }
  split; intros a.
  - rewrite !nodup_stands by auto. split; intros (b & I); exists b.
    + eapply Permutation_in; eauto.
    + eapply Permutation_in; [apply Permutation_sym|]; eauto.
  - rewrite !nodup_acted by auto. split; intros (b & I); exists b.
    + eapply Permutation_in; eauto.
    + eapply Permutation_in; [apply Permutation_sym|]; eauto.
Qed.

Lemma written_permuted : forall ds ds' l, written ds l -> Permutation ds ds' ->
  exists l', written ds' l' /\ Permutation l l'.
Proof.
  intros ds ds' l W P. revert l W. induction P as [|d ds ds' P IH|d e ds|ds1 ds2 ds3 P1 IH1 P2 IH2]; intros l W.
  - inversion W; subst. exists []. split; constructor.
  - inversion W as [|? b ? l0 A B]; subst. destruct (IH _ B) as (l' & W' & P').
    exists (b :: l'). split; constructor; auto.
  - inversion W as [|? b ? l0 A B]; subst. inversion B as [|? c ? l1 C D]; subst.
    exists (c :: b :: l1). split; [repeat constructor; auto | apply perm_swap].
  - destruct (IH1 _ W) as (l' & W' & Q). destruct (IH2 _ W') as (l'' & W'' & Q').
    exists l''. split; auto. eapply Permutation_trans; eauto.
Qed.

(** ** Leaving out declarations *)

Lemma other_stands : forall l1 b l2 x d, e_name b <> x ->
  (stands_for (l1 ++ b :: l2) x d <-> stands_for (l1 ++ l2) x d).
Proof.
  intros l1 b l2 x d N. induction l2 as [|c l2 IH] using rev_ind.
  - rewrite stands_for_snoc, app_nil_r. tauto.
  - rewrite app_comm_cons, !app_assoc, !stands_for_snoc.
    rewrite IH. tauto.
Qed.

Lemma other_acted : forall l1 b l2 x f, e_name b <> x \/ e_action b = None ->
  (acted_by (l1 ++ b :: l2) x f <-> acted_by (l1 ++ l2) x f).
Proof.
  intros l1 b l2 x d N. induction l2 as [|c l2 IH] using rev_ind.
  - rewrite acted_by_snoc, app_nil_r. split; [|intros H; right; split; auto; tauto].
    intros [(A & B)|(_ & H)]; auto. destruct N; congruence.
  - rewrite app_comm_cons, !app_assoc, !acted_by_snoc. rewrite IH. tauto.
Qed.

Lemma replaced_stands : forall l1 b l2 x d, Exists (fun c => e_name c = e_name b) l2 ->
  (stands_for (l1 ++ b :: l2) x d <-> stands_for (l1 ++ l2) x d).
Proof.
  intros l1 b l2 x d. induction l2 as [|c l2 IH] using rev_ind; intros H; [inversion H|].
  rewrite app_comm_cons, !app_assoc, !stands_for_snoc.
  apply Exists_app in H as [H|H].
  - rewrite IH by auto. tauto.
  - inversion H as [? ? E|? ? E]; subst; [|inversion E].
    destruct (list_eq_dec Z.eq_dec (e_name b) x) as [Eq|Ne].
    + rewrite E. tauto.
    + rewrite (other_stands _ _ _ _ _ Ne). tauto.
Qed.

Lemma replaced_acted : forall l1 b l2 x f,
  Exists (fun c => e_name c = e_name b /\ e_action c <> None) l2 ->
  (acted_by (l1 ++ b :: l2) x f <-> acted_by (l1 ++ l2) x f).
Proof.
  intros l1 b l2 x d. induction l2 as [|c l2 IH] using rev_ind; intros H; [inversion H|].
  rewrite app_comm_cons, !app_assoc, !acted_by_snoc.
  apply Exists_app in H as [H|H].
  - rewrite IH by auto. tauto.
  - inversion H as [? ? (E & A)|? ? E]; subst; [|inversion E].
    destruct (list_eq_dec Z.eq_dec (e_name b) x) as [Eq|Ne].
    + rewrite E. split; intros [K|(K & _)]; auto; exfalso; apply K; auto.
    + rewrite (other_acted _ _ _ x d (or_introl Ne)). tauto.
Qed.

(** ** Other names *)

Lemma rename_lookup : forall r l x, (forall y, Exists (fun b => e_name b = y) l -> r x = r y -> x = y) ->
  lookup (r x) (rules_of (map (rename_entry r) l) []) = option_map (rename_def r) (lookup x (rules_of l [])).
Proof.
  intros r l x. induction l as [|b l IH] using rev_ind; intros I; auto.
  rewrite map_app. cbn [map]. rewrite !rules_of_snoc.
  destruct (list_eq_dec Z.eq_dec x (e_name b)) as [->|Ne].
  - rewrite lookup_cons_eq. cbn [rename_entry e_name e_def]. rewrite lookup_cons_eq. reflexivity.
  - rewrite (lookup_cons_ne _ x) by auto. cbn [rename_entry e_name e_def].
    rewrite lookup_cons_ne.
    + apply IH. intros y E. apply I. apply Exists_app. auto.
    + intros E. apply Ne. apply I; auto. apply Exists_app. right. constructor. auto.
Qed.

Lemma rename_lookup_action : forall r l x, (forall y, Exists (fun b => e_name b = y) l -> r x = r y -> x = y) ->
  lookup (r x) (actions_of (map (rename_entry r) l) []) = lookup x (actions_of l []).
Proof.
  intros r l x. induction l as [|b l IH] using rev_ind; intros I; auto.
  rewrite map_app. cbn [map]. rewrite !actions_of_snoc. cbn [rename_entry e_name e_action].
  assert (I' : forall y, Exists (fun b => e_name b = y) l -> r x = r y -> x = y)
    by (intros y E; apply I; apply Exists_app; auto).
  destruct (e_action b) as [f|]; auto.
  destruct (list_eq_dec Z.eq_dec x (e_name b)) as [->|Ne].
  - rewrite !lookup_cons_eq. reflexivity.
  - rewrite (lookup_cons_ne _ x) by auto. rewrite lookup_cons_ne; auto.
    intros E. apply Ne. apply I; auto. apply Exists_app. right. constructor. auto.
Qed.

Lemma stands_occurs : forall l x e z, stands_for l x (Parsed e) -> mentions e z -> occurs l z.
Proof.
  intros l x e z (l1 & a & l2 & -> & _) M. apply Exists_app. right. constructor. right. exact M.
Qed.

Lemma name_occurs : forall l x, Exists (fun b => e_name b = x) l -> occurs l x.
Proof. intros l x H. eapply Exists_impl; [|exact H]. intros b E. left. auto. Qed.

Lemma rename_instantiate : forall r l start start' x n,
  (forall y z, y = x \/ occurs l y -> z = x \/ occurs l z -> r y = r z -> y = z) ->
  instantiate (mkgrammar start' (rules_of (map (rename_entry r) l) []) (actions_of (map (rename_entry r) l) []))
    n (GName (r x))
  = instantiate (mkgrammar start (rules_of l []) (actions_of l [])) n (GName x).
Proof.
  intros r l start start' x n I. change (GName (r x)) with (rename r (GName x)).
  apply (instantiate_rename r (fun y => y = x \/ occurs l y)); cbn [g_rules g_actions].
  - intros y O. apply rename_lookup. intros z E. apply I; auto. right. apply name_occurs. auto.
  - intros y O. apply rename_lookup_action. intros z E. apply I; auto. right. apply name_occurs. auto.
  - intros y e z O L M. right. apply lookup_rules in L. eapply stands_occurs; eauto.
  - simpl. auto.
Qed.

(** ** Definitions put in place of names *)

Lemma inlined_refl : forall y e a, inlined y e a a.
Proof. induction a; try (constructor; auto; fail). Qed.

Section Inline.

Variables (g g' : grammar) (y : str) (e : gexpr).
Hypothesis def_y : lookup y (g_rules g) = Some (Parsed e).
Hypothesis act_y : lookup y (g_actions g) = None.
Hypothesis rel : forall x,
  match lookup x (g_rules g), lookup x (g_rules g') with
  | None, None => True
  | Some (Native p), Some (Native q) => p = q
  | Some (Parsed a), Some (Parsed b) => inlined y e a b
  | _, _ => False
  end.
Hypothesis acts : forall x, lookup x (g_actions g') = lookup x (g_actions g).

Lemma built_more : forall h n a p, built h n a p -> forall m, (n <= m)%nat -> built h m a p.
Proof. intros h n a p B m L. apply instantiate_built. eapply built_instantiate; eauto. Qed.

Lemma inline_forth : forall n a p, built g n a p -> forall b, inlined y e a b -> built g' n b p.
Proof.
  intros n a p B.
  induction B as [n c | n x d p L B IH | n x p L | n a p B IH | n a p B IH
    | n a b p q B1 IH1 B2 IH2 | n a b p q B1 IH1 B2 IH2]; intros b' I; inversion I; subst;
    try (constructor; auto; fail).
  - rewrite def_y in L. inversion L; subst. rewrite act_y.
    eapply built_more; [apply IH; apply inlined_refl | lia].
  - assert (R := rel x). rewrite L in R. destruct (lookup x (g_rules g')) as [[d'|q]|] eqn:L'; try contradiction.
    rewrite <- acts. apply bt_rule with (e := d'); auto.
  - exfalso. congruence.
  - assert (R := rel x). rewrite L in R. destruct (lookup x (g_rules g')) as [[d'|q]|] eqn:L'; try contradiction.
    subst q. rewrite <- acts. apply bt_import; auto.
Qed.

Lemma at_root : forall m p, built g m e p -> built g (S m) (GName y) p.
Proof.
  intros m p B.
  replace p with (match lookup y (g_actions g) with None => p | Some f => PTransform p f end)
    by (rewrite act_y; reflexivity).
  eapply bt_rule; eauto.
Qed.

Lemma inline_back : forall n b p, built g' n b p -> forall a, inlined y e a b -> exists m, built g m a p.
Proof.
  intros n b p B.
  assert (Root : forall b p, (exists m, built g m b p) -> b = e -> exists m, built g m (GName y) p)
    by (intros b0 p0 (m & X) ->; exists (S m); apply at_root; auto).
  induction B as [n c | n x d p L B IH | n x p L | n a p B IH | n a p B IH
    | n a b p q B1 IH1 B2 IH2 | n a b p q B1 IH1 B2 IH2]; intros a' I.
  - assert (X : exists m, built g m (GChar c) (PLitC c)) by (exists 0%nat; constructor).
    inversion I; subst; eauto.
  - assert (X : exists m, built g m (GName x)
       (match lookup x (g_actions g') with None => p | Some f => PTransform p f end)).
    { assert (R := rel x). rewrite L in R.
      destruct (lookup x (g_rules g)) as [[d'|q]|] eqn:L'; try contradiction.
      destruct (IH _ R) as (m & Bm). exists (S m). rewrite acts. eapply bt_rule; eauto. }
    inversion I; subst; eauto.
  - assert (X : exists m, built g m (GName x)
       (match lookup x (g_actions g') with None => p | Some f => PTransform p f end)).
    { assert (R := rel x). rewrite L in R.
      destruct (lookup x (g_rules g)) as [[d'|q]|] eqn:L'; try contradiction.
      subst q. exists 0%nat. rewrite acts. apply bt_import; auto. }
    inversion I; subst; eauto.
  - assert (X : forall c, inlined y e c a -> exists m, built g m (GStar c) (PRepeated p))
      by (intros c J; destruct (IH _ J) as (m & Bm); exists m; constructor; auto).
    inversion I; subst; eauto. eapply Root; [|eauto]. apply X. apply inlined_refl.
  - assert (X : forall c, inlined y e c a -> exists m, built g m (GPlus c) (PRepeated1 p))
      by (intros c J; destruct (IH _ J) as (m & Bm); exists m; constructor; auto).
    inversion I; subst; eauto. eapply Root; [|eauto]. apply X. apply inlined_refl.
  - assert (X : forall c d, inlined y e c a -> inlined y e d b ->
        exists m, built g m (GSeq c d) (PSequence [p; q])).
    { intros c d J K. destruct (IH1 _ J) as (m1 & M1). destruct (IH2 _ K) as (m2 & M2).
      exists (Nat.max m1 m2). constructor; eapply built_more; eauto; lia. }
    inversion I; subst; eauto. eapply Root; [|eauto]. apply X; apply inlined_refl.
  - assert (X : forall c d, inlined y e c a -> inlined y e d b ->
        exists m, built g m (GSel c d) (POneOf [p; q])).
    { intros c d J K. destruct (IH1 _ J) as (m1 & M1). destruct (IH2 _ K) as (m2 & M2).
      exists (Nat.max m1 m2). constructor; eapply built_more; eauto; lia. }
    inversion I; subst; eauto. eapply Root; [|eauto]. apply X; apply inlined_refl.
Qed.

End Inline.

Lemma inlined_lookups : forall y e l l', Forall2 (inlined_entry y e) l l' -> forall x,
  match lookup x (rules_of l []), lookup x (rules_of l' []) with
  | None, None => True
  | Some (Native p), Some (Native q) => p = q
  | Some (Parsed a), Some (Parsed b) => inlined y e a b
  | _, _ => False
  end
  /\ lookup x (actions_of l' []) = lookup x (actions_of l []).
Proof.
  intros y e l l' H x.
  revert l' H. induction l as [|b l IH] using rev_ind; intros l' H.
  - inversion H; subst. simpl. auto.
  - apply Forall2_app_inv_l in H as (l1 & l2 & H1 & H2 & ->).
    inversion H2 as [|? c ? l3 I N]; subst. inversion N; subst.
    destruct (IH _ H1) as (A & B).
    rewrite !rules_of_snoc, !actions_of_snoc.
    inversion I; subst; cbn [e_name e_def e_action]; (split;
      [destruct (list_eq_dec Z.eq_dec x x0) as [->|Ne];
        [rewrite !lookup_cons_eq | rewrite !lookup_cons_ne by auto]; auto
      | destruct a; auto; destruct (list_eq_dec Z.eq_dec x x0) as [->|Ne];
        [rewrite !lookup_cons_eq | rewrite !lookup_cons_ne by auto]; auto]).
Qed.
