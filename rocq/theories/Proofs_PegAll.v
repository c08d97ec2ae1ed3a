(** Proofs for C88. *)

From Coq Require Import ZArith List Bool Lia.
From Verif Require Import Base Util Deep Spec SpecDeep SpecRules SpecPeg Proofs_Deep Proofs_Rules.
Import ListNotations.
Open Scope Z_scope.

Lemma recognises_once : forall rules g s r1 r2,
  recognises rules g s r1 -> recognises rules g s r2 -> r1 = r2.
Proof.
  intros rules g s r1 r2 H. revert r2.
  induction H; intros r2 H'; inversion H'; subst; auto;
    repeat match goal with
    | IH : forall r2, recognises _ ?a ?s r2 -> _, K : recognises _ ?a ?s _ |- _ => apply IH in K
    end; try congruence;
    try match goal with
    | K : Some _ = Some _ |- _ => injection K as <-
    end; try congruence; auto;
    try match goal with
    | K : not_starting_with _ _ |- _ => simpl in K; congruence
    end;
    try match goal with
    | IH : forall r2, recognises _ ?a ?s r2 -> ?x = r2, K : recognises _ ?a ?s _ |- _ => apply IH in K
    end; congruence.
Qed.

Definition agrees rules (g : parsing_expression) (s : str) (o : outcome) : Prop :=
  match o with
  | Accept _ s' _ => recognises rules g s (Some s')
  | Reject _ _ => recognises rules g s None
  | _ => True
  end.

Lemma existsb_eqb_in : forall c cs, existsb (Z.eqb c) cs = true <-> In c cs.
Proof.
  intros. rewrite existsb_exists. split.
  - intros (x & I & E). apply Z.eqb_eq in E. congruence.
  - intros I. exists c. split; auto. apply Z.eqb_refl.
Qed.

(** Parsers of one character. *)
Lemma single_gives : forall sd env e, single e -> forall s ps o, gives sd env e s ps o ->
  match o with
  | Accept r s' _ => exists c, s = c :: s' /\ r = VChar c /\ class_of e c = true
  | Reject _ _ => not_starting_with (fun c => class_of e c = true) s
  | _ => True
  end.
Proof.
  intros sd env e. induction e; simpl; intros S s ps o G; try contradiction;
    inversion G; subst; simpl; eauto;
    try match goal with
    | IH : single _ -> _, K : gives _ _ _ _ _ (Accept _ _ _) |- _ =>
        destruct (IH S _ _ _ K) as (c & -> & -> & Q)
    | IH : single _ -> _, K : gives _ _ _ _ _ (Reject _ _) |- _ =>
        pose proof (IH S _ _ _ K) as Q
    end; simpl in *; eauto.
  - exists c. rewrite Q. unfold says_yes.
    match goal with K : _ = Some true |- _ => rewrite K end. auto.
  - unfold says_yes. match goal with K : _ = Some false |- _ => rewrite K end.
    rewrite andb_false_r. discriminate.
  - destruct s; auto. simpl in *. rewrite andb_true_iff. tauto.
  - eexists. repeat split. apply existsb_eqb_in; auto.
  - destruct s; auto. simpl in *. rewrite existsb_eqb_in. auto.
  - eexists. repeat split. apply negb_true_iff.
    destruct (existsb (Z.eqb c) cs) eqn:E; auto. apply existsb_eqb_in in E. contradiction.
  - match goal with K : In _ _ |- _ => apply existsb_eqb_in in K; rewrite K end. discriminate.
Qed.

Lemma class_agrees : forall sd env rules e, single e -> forall s ps o, gives sd env e s ps o ->
  agrees rules (FClass (class_of e)) s o.
Proof.
  intros sd env rules e S s ps o G. pose proof (single_gives sd env e S s ps o G) as K.
  destruct o; simpl in *; auto.
  - destruct K as (c & -> & -> & Q). constructor. auto.
  - constructor. auto.
Qed.

Lemma fseqs_cons : forall rules g l s s1 r, recognises rules g s (Some s1) ->
  recognises rules (fseqs l) s1 r -> recognises rules (fseqs (g :: l)) s r.
Proof.
  intros rules g [|h l] s s1 r A B; [|eapply f_seq; eauto].
  inversion B; subst. exact A.
Qed.

Lemma fseqs_cons_no : forall rules g l s, recognises rules g s None ->
  recognises rules (fseqs (g :: l)) s None.
Proof. intros rules g [|h l] s A; [exact A|apply f_seq_no; auto]. Qed.

Lemma falts_cons : forall rules g l s s1, recognises rules g s (Some s1) ->
  recognises rules (falts (g :: l)) s (Some s1).
Proof. intros rules g [|h l] s s1 A; [exact A|apply f_alt; auto]. Qed.

Lemma falts_cons_no : forall rules g l s r, recognises rules g s None ->
  recognises rules (falts l) s r -> recognises rules (falts (g :: l)) s r.
Proof.
  intros rules g [|h l] s r A B; [|apply f_alt_other; auto].
  inversion B; subst. exact A.
Qed.

Lemma keyword_reads : forall rules kw s,
  recognises rules (fseqs (map (fun c => FClass (Z.eqb c)) kw)) (kw ++ s) (Some s).
Proof.
  induction kw as [|c kw IH]; intros s; [constructor|].
  change (map (fun c => FClass (Z.eqb c)) (c :: kw))
    with (FClass (Z.eqb c) :: map (fun c => FClass (Z.eqb c)) kw).
  eapply fseqs_cons; [|apply IH]. constructor. apply Z.eqb_refl.
Qed.

Lemma keyword_differs : forall rules u c kw s, not_starting_with (fun d => d = c) s ->
  recognises rules (fseqs (map (fun c => FClass (Z.eqb c)) (u ++ c :: kw))) (u ++ s) None.
Proof.
  induction u as [|d u IH]; intros c kw s N.
  - apply fseqs_cons_no. constructor. destruct s; simpl in *; auto.
    rewrite Z.eqb_eq. congruence.
  - change (map (fun c => FClass (Z.eqb c)) ((d :: u) ++ c :: kw))
      with (FClass (Z.eqb d) :: map (fun c => FClass (Z.eqb c)) (u ++ c :: kw)).
    eapply fseqs_cons; [|exact (IH c kw s N)]. constructor. apply Z.eqb_refl.
Qed.

Lemma alts_first : forall rules s l os o, Forall2 (fun g o => agrees rules g s o) l os ->
  first_accept os o -> agrees rules (falts l) s o.
Proof.
  intros rules s l os o F ((r & s' & ps' & ->) & os1 & os2 & -> & R).
  revert l F. induction os1 as [|x os1 IH]; intros l F; inversion F as [|g ? l' ? A B]; subst.
  - apply falts_cons. exact A.
  - inversion R as [|? ? (m & pe & ->) R']; subst. apply falts_cons_no; [exact A|]. apply IH; auto.
Qed.

Lemma alts_none : forall rules s l os es, Forall2 (fun g o => agrees rules g s o) l os ->
  rejections os es -> recognises rules (falts l) s None.
Proof.
  unfold rejections. intros rules s l os es F ->. revert l F.
  induction es as [|e es IH]; intros l F; inversion F as [|g ? l' ? A B]; subst; [constructor|].
  apply falts_cons_no; [exact A|]. apply IH; auto.
Qed.

Lemma in_turn_length : forall sd env l s ps rs s' ps', in_turn sd env l s ps rs s' ps' ->
  length rs = length l.
Proof.
  intros sd env l. induction l as [|p l IH]; intros s ps rs s' ps' H; inversion H; subst; auto.
  simpl. f_equal. eauto.
Qed.

Section Main.
Variable sd : std.
Variable env : program.
Hypothesis HE : program_every recognition env.
Let rules : nat -> parsing_expression := fun k => peg_of (env k).

Local Notation yes g s s' := (recognises rules g s (Some s')).
Local Notation no g s := (recognises rules g s None).

Lemma rec_child : forall e c, every recognition e -> In c (children e) -> every recognition c.
Proof. intros e c H I. inversion H; auto. Qed.

Definition pure_all (l : list pexpr) : Prop := forall c, In c l -> every recognition c.

Ltac child H := inversion H as [? ?Hq ?Hc]; subst; simpl in *.

Lemma not_any : forall c s, no (FNot fany) (c :: s).
Proof. intros. eapply f_not_no. constructor. reflexivity. Qed.
Lemma not_any_end : yes (FNot fany) [] [].
Proof. apply f_not. constructor. exact I. Qed.

Lemma gives_recognises :
  (forall e s ps o, gives sd env e s ps o -> every recognition e -> agrees rules (peg_of e) s o)
  /\ (forall p s ps rs s' ps', many sd env p s ps rs s' ps' -> every recognition p ->
       (rs = [] -> s = s')
       /\ (forall r, recognises rules (FStar (peg_of p)) s' r -> recognises rules (FStar (peg_of p)) s r)
       /\ (rs <> [] -> forall r, recognises rules (FStar (peg_of p)) s' r ->
             recognises rules (FSeq (peg_of p) (FStar (peg_of p))) s r)
       /\ (forall j r, recognises rules (ftimes j (peg_of p)) s' r ->
             recognises rules (ftimes (length rs + j) (peg_of p)) s r))
  /\ (forall l s ps rs s' ps', in_turn sd env l s ps rs s' ps' -> pure_all l ->
       forall l' r, recognises rules (fseqs l') s' r ->
         recognises rules (fseqs (map peg_of l ++ l')) s r)
  /\ (forall l s ps m pe, breaks_off sd env l s ps m pe -> pure_all l ->
       forall l', no (fseqs (map peg_of l ++ l')) s)
  /\ (forall l s ps os, each sd env l s ps os -> pure_all l ->
       Forall2 (fun g o => agrees rules g s o) (map peg_of l) os).
Proof.
  apply rules_mind.
  all: try (intros; match goal with H : every recognition ?x |- _ =>
         child H; try contradiction end).
  all: try match goal with IH : every recognition ?p -> _ |- _ =>
         specialize (IH ltac:(first [assumption | apply Hc; simpl; auto])) end.
  all: try match goal with IH : every recognition ?p -> _ |- _ =>
         specialize (IH ltac:(first [assumption | apply Hc; simpl; auto])) end.
  all: try match goal with IH : every recognition ?p -> _ |- _ =>
         specialize (IH ltac:(first [assumption | apply Hc; simpl; auto])) end.
  all: try assumption.
  all: try match goal with IH : pure_all ?l -> _ |- _ =>
         specialize (IH ltac:(intros ?c ?I; simpl in *; intuition (subst; auto))) end.
  all: try solve [constructor; auto | apply f_alt; auto | apply f_alt_other; [auto|constructor]
    | apply f_seq_no; auto | eapply f_not_no; eauto | apply not_any | apply not_any_end].
  - (* ref *) assert (K := H0 (HE k)). destruct o; simpl in *; auto; constructor; auto.
  - apply keyword_reads.
  - apply keyword_differs; auto.
  - apply (class_agrees sd env rules (POneOfC cs) I (c :: s) ps (Accept (VChar c) s ps')). constructor; auto.
  - apply (class_agrees sd env rules (POneOfC cs) I s ps (Reject (one_of_c_error sd cs s) ps)). constructor; auto.
  - apply (class_agrees sd env rules (POneCharExceptC cs) I (c :: s) ps (Accept (VChar c) s ps')). constructor; auto.
  - apply (class_agrees sd env rules (POneCharExceptC cs) I (c :: s) ps (Reject unexpected_character ps)). constructor; auto.
  - apply (class_agrees sd env rules (PAcceptWhen p pr m) Hq s ps (Accept r s' ps')). econstructor; eauto.
  - apply (class_agrees sd env rules (PAcceptWhen p pr m) Hq s ps (Reject m ps)). econstructor; eauto.
  - apply (class_agrees sd env rules (PAcceptWhen p pr m) Hq s ps (Reject m' pe)). econstructor; eauto.
  - (* transform_error *) destruct (f m pe) eqn:E; simpl; auto. exfalso. eapply Hq; eauto.
  - (* look_ahead *) apply f_not. eapply f_not_no; eauto.
  - eapply f_not_no. apply f_not; auto.
  - (* if_ *) apply f_alt. apply f_not. eapply f_not_no; eauto.
  - apply f_alt_other; [|constructor]. eapply f_not_no. apply f_not; auto.
  - (* foldl *) destruct H0 as (_ & A & _). apply A. constructor; auto.
  - destruct H0 as (_ & _ & A & _). apply A; [discriminate|]. constructor; auto.
  - (* foldl_start_with_parser *) eapply f_seq; [eauto|].
    match goal with A : _ /\ _ /\ _ |- _ => destruct A as (_ & A & _); apply A end.
    constructor. auto.
  - (* foldr_start_with_parser *) destruct H0 as (_ & A & _). eapply f_seq; [|eauto].
    apply A. constructor; auto.
  - destruct H0 as (_ & A & _). eapply f_seq; [|eauto]. apply A. constructor; auto.
  - destruct H0 as (_ & A & _). apply A. constructor; auto.
  - destruct H0 as (_ & _ & A & _). apply A; [discriminate|]. constructor; auto.
  - (* iterate *) destruct H0 as (_ & _ & _ & A).
    destruct (Z.ltb_spec (Z.of_nat (length rs)) 0); [lia|]. rewrite Nat2Z.id.
    specialize (A 0%nat (Some s') (f_eps rules s')). rewrite Nat.add_0_r in A. exact A.
  - destruct H0 as (_ & B & _ & A). destruct (Z.ltb_spec k 0).
    + eapply f_seq; [apply B; constructor; eauto|constructor].
    + destruct H1 as [|L]; [lia|].
      replace (Z.to_nat k) with (length rs + S (Z.to_nat k - S (length rs)))%nat by lia.
      apply A. apply f_seq_no. auto.
  - eapply alts_first; eauto.
  - eapply alts_none; eauto.
  - specialize (H0 [] (Some s') (f_eps rules s')). rewrite app_nil_r in H0. exact H0.
  - specialize (H0 []). rewrite app_nil_r in H0. exact H0.
  - specialize (H0 [] (Some s') (f_eps rules s')). rewrite app_nil_r in H0. exact H0.
  - specialize (H0 []). rewrite app_nil_r in H0. exact H0.
  - (* nth_of *) specialize (H0 [] (Some s') (f_eps rules s')). rewrite app_nil_r in H0.
    assert (L : (Z.to_nat k < length rs)%nat) by (apply nth_error_Some; congruence).
    assert (length rs = length l) by (eapply in_turn_length; eauto).
    destruct (Z.leb_spec 0 k); [|lia]. destruct (Z.ltb_spec k (Z.of_nat (length l))); [|lia]. exact H0.
  - specialize (H0 []). rewrite app_nil_r in H0.
    destruct ((0 <=? k) && (k <? Z.of_nat (length l))); [exact H0|constructor].
  - replace ((0 <=? k) && (k <? Z.of_nat (length l))) with false; [constructor|].
    symmetry. apply andb_false_iff. rewrite Z.leb_gt, Z.ltb_ge. auto.
  - specialize (H0 [] (Some s') (f_eps rules s')). rewrite app_nil_r in H0.
    apply in_turn_length in H. destruct l; [discriminate|exact H0].
  - specialize (H0 []). rewrite app_nil_r in H0. destruct l; [inversion H|exact H0].
  - specialize (H0 [] (Some s') (f_eps rules s')). rewrite app_nil_r in H0.
    apply in_turn_length in H. rewrite app_length in H. destruct l; [simpl in H; lia|exact H0].
  - specialize (H0 []). rewrite app_nil_r in H0. destruct l; [inversion H|exact H0].
  - (* middle_of *) exact (H0 [] (Some s') (f_eps rules s')).
  - exact (H0 [peg_of p3]).
  - apply (H0 [peg_of p3]). assumption.
  - (* entire_input *) eapply f_seq; [eauto|apply not_any_end].
  - eapply f_seq; [eauto|apply not_any].
  - (* many *) repeat split; auto. congruence.
  - destruct H2 as (_ & A & _ & B). repeat split; [discriminate| | |].
    + intros r0 K. eapply f_star_more; eauto.
    + intros _ r0 K. eapply f_seq; eauto.
    + intros j r0 K. eapply f_seq; eauto.
  - intros s ps P l' r K. exact K.
  - intros p l s ps r s1 ps1 rs s2 ps2 G IH IT IHs P l' r0 K. cbn [map app].
    eapply fseqs_cons; [apply IH, P; left; auto|]. apply IHs; auto. intros c I. apply P. right; auto.
  - intros p l s ps m pe G IH P l'. cbn [map app]. apply fseqs_cons_no. apply IH, P. left; auto.
  - intros p l s ps r s1 ps1 m pe G IH IT IHs P l'. cbn [map app].
    eapply fseqs_cons; [apply IH, P; left; auto|]. apply IHs; auto. intros c I. apply P. right; auto.
  - intros p l s ps o os G IH E IHs P. constructor; [apply IH, P; left; auto|].
    apply IHs. intros c I. apply P. right; auto.
Qed.
End Main.

(** ** Parsers for parsing expressions *)

(** Equal up to the way classes are written. *)
Inductive alike : parsing_expression -> parsing_expression -> Prop :=
| al_eps : alike FEps FEps
| al_fail : alike FFail FFail
| al_class P Q : (forall c, P c = Q c) -> alike (FClass P) (FClass Q)
| al_seq a b c d : alike a c -> alike b d -> alike (FSeq a b) (FSeq c d)
| al_alt a b c d : alike a c -> alike b d -> alike (FAlt a b) (FAlt c d)
| al_star a b : alike a b -> alike (FStar a) (FStar b)
| al_not a b : alike a b -> alike (FNot a) (FNot b)
| al_name k : alike (FName k) (FName k).

Lemma alike_recognises : forall r1 r2, (forall k, alike (r1 k) (r2 k)) ->
  forall g s r, recognises r1 g s r -> forall h, alike g h -> recognises r2 h s r.
Proof.
  intros r1 r2 HR g s r H.
  induction H; intros h A; inversion A; subst; try solve [econstructor; eauto].
  - constructor. destruct s; simpl in *; auto.
    match goal with K : forall c, _ = _ |- _ => rewrite <- K end. auto.
Qed.

Lemma peg_of_parser_of : forall g, alike (peg_of (parser_of g)) g.
Proof.
  induction g; simpl; try (constructor; auto; fail).
  constructor. intros c. unfold says_yes. simpl. destruct (P c); reflexivity.
Qed.

Lemma every_leaf : forall (Q : pexpr -> Prop) e, Q e -> children e = [] -> every Q e.
Proof. intros Q e H C. constructor; auto. rewrite C. intros c []. Qed.

Lemma parser_of_every : forall Q : pexpr -> Prop,
  Q (PReturn VVoid_) -> Q (PFail none_of_the_expected_cases_found) -> Q POneChar ->
  (forall P, Q (PAcceptWhen POneChar (char_in P) unexpected_character)) ->
  (forall a b, Q (PSequence [a; b])) -> (forall a b, Q (POneOf [a; b])) ->
  (forall a, Q (PFoldl a (Some VVoid_) (fun st _ => Some st))) ->
  (forall a, Q (PExcept a VVoid_ expected_to_fail)) -> (forall k, Q (PRef k)) ->
  forall g, every Q (parser_of g).
Proof.
  intros Q H1 H2 H3 H4 H5 H6 H7 H8 H9 g.
  induction g; simpl; try (apply every_leaf; auto; fail); constructor; auto; simpl;
    intros c C; repeat (destruct C as [<-|C]; auto); try contradiction.
  apply every_leaf; auto.
Qed.

Lemma parser_of_recognition : forall g, every recognition (parser_of g).
Proof. apply parser_of_every; simpl; auto. Qed.

Lemma parser_of_fits : forall cfg g, fits_one_of cfg 2 -> fits_sequence cfg 2 ->
  every (fits cfg) (parser_of g).
Proof.
  intros cfg g F1 F2. apply parser_of_every; simpl; auto. split; auto. discriminate.
Qed.
