(** Proofs for C92. *)

From Coq Require Import ZArith List Bool Lia.
From Verif Require Import Base Util Deep Spec SpecDeep SpecRules SpecPeg SpecCfg SpecBlame SpecMeans
  Proofs_Rules Proofs_PegAll Proofs_Cfg Proofs_Blame.
Import ListNotations.
Open Scope Z_scope.

Scheme means_mind := Minimality for means Sort Prop
  with words_mind := Minimality for words Sort Prop
  with sequel_mind := Minimality for sequel Sort Prop.
Combined Scheme meaning_mind from means_mind, words_mind, sequel_mind.

Definition all_deriving (l : list pexpr) : Prop := forall c, In c l -> every deriving c.
Ltac child H := inversion H as [? ?Hq ?Hc]; subst; simpl in *.

(** ** What is accepted has the value *)

Section Sound.
Variable sd : std.
Variable env : program.
Hypothesis HE : program_every deriving env.

Definition meant (e : pexpr) (s : str) (o : outcome) : Prop :=
  match o with
  | Accept v s' _ => exists w, s = w ++ s' /\ means env e w v
  | _ => True
  end.

Lemma gives_meant :
  (forall e s ps o, gives sd env e s ps o -> every deriving e -> meant e s o)
  /\ (forall p s ps rs s' ps', many sd env p s ps rs s' ps' -> every deriving p ->
       exists w, s = w ++ s' /\ words env p w rs)
  /\ (forall l s ps rs s' ps', in_turn sd env l s ps rs s' ps' -> all_deriving l ->
       exists w, s = w ++ s' /\ sequel env l w rs)
  /\ (forall l s ps m pe, breaks_off sd env l s ps m pe -> True)
  /\ (forall l s ps os, each sd env l s ps os -> all_deriving l ->
       Forall2 (fun e o => meant e s o) l os).
Proof.
  apply rules_mind.
  all: try (intros; match goal with H : every deriving ?x |- _ =>
         child H; try contradiction end).
  all: try exact I.
  all: try match goal with IH : every deriving ?p -> _ |- _ =>
         specialize (IH ltac:(first [assumption | apply Hc; simpl; auto])) end.
  all: try match goal with IH : every deriving ?p -> _ |- _ =>
         specialize (IH ltac:(first [assumption | apply Hc; simpl; auto])) end.
  all: try match goal with IH : every deriving ?p -> _ |- _ =>
         specialize (IH ltac:(first [assumption | apply Hc; simpl; auto])) end.
  all: try match goal with IH : all_deriving ?l -> _ |- _ =>
         specialize (IH ltac:(intros ?c ?I; simpl in *; intuition (subst; auto))) end.
  all: repeat match goal with
         | H : exists _, _ |- _ => destruct H
         | H : _ /\ _ |- _ => destruct H
         end.
  all: subst.
  all: try solve [eexists; split; [reflexivity|econstructor; eauto; discriminate]].
  all: try solve [exists []; split; [reflexivity|econstructor; eauto]].
  all: try solve [eexists [_]; split; [reflexivity|econstructor; eauto]].
  all: try solve [eexists; split; [apply app_assoc|econstructor; eauto]].
  - (* ref *) assert (K := H0 (HE k)). destruct o; simpl in *; auto.
    destruct K as (w & -> & K). exists w. split; [reflexivity|constructor; exact K].
  - (* transform_error *) destruct (f m pe) eqn:E; simpl; auto. exfalso. eapply Hq; eauto.
  - (* one_of *) match goal with F : first_accept os o |- _ =>
      destruct F as ((v & s' & q & ->) & os1 & os2 & -> & _) end.
    match goal with F : Forall2 _ _ _ |- _ => apply Forall2_app_inv_r in F as (l1 & l2 & _ & FF & ->) end.
    inversion FF as [|p ? l3 ? M _]; subst. simpl in M. destruct M as (w & -> & M). exists w. split; [reflexivity|].
    apply (m_one_of env _ p); [apply in_elt|exact M].
  - intros p l s ps r s1 ps1 rs s2 ps2 G IH IT IHs P.
    destruct (IH (P p (or_introl eq_refl))) as (u & -> & A).
    destruct (IHs (fun c I => P c (or_intror I))) as (w & -> & B).
    exists (u ++ w). split; [apply app_assoc|constructor; assumption].
  - auto.
  - auto.
  - constructor.
  - intros p l s ps o os G IH E IHs P. constructor; [apply IH, P; left; auto|].
    apply IHs. intros c I. apply P. right; auto.
Qed.
End Sound.

(** ** The words that have a value are derived, and have only one *)

Section Grammar.
Variable env : program.
Hypothesis HE : program_every deriving env.
Variable rules : nat -> parsing_expression.
Hypothesis HR : forall k, rules k = cfg_of (env k).

Lemma derives_seqs : forall a l u w, derives rules a u -> derives rules (fseqs l) w ->
  derives rules (fseqs (a :: l)) (u ++ w).
Proof.
  intros a [|b l] u w A B; [inversion B; subst; rewrite app_nil_r; exact A|]. constructor; assumption.
Qed.
Lemma derives_keyword : forall kw, derives rules (fseqs (map (fun c => FClass (Z.eqb c)) kw)) kw.
Proof.
  induction kw as [|c kw IH]; [constructor|]. apply (derives_seqs _ _ [c]); [|exact IH].
  constructor. apply Z.eqb_refl.
Qed.
Lemma derives_alts : forall l a w, In a l -> derives rules a w -> derives rules (falts l) w.
Proof.
  induction l as [|b l IH]; intros a w I D; [contradiction|]. destruct l as [|b' l].
  - destruct I as [->|[]]. exact D.
  - destruct I as [->|I]; [apply d_alt_left; exact D|]. apply d_alt_right. exact (IH a w I D).
Qed.

Lemma single_class : forall e, single e -> forall w v, means env e w v ->
  exists c, w = [c] /\ v = VChar c /\ class_of e c = true.
Proof.
  induction e; simpl; intros S wd va M; try contradiction; inversion M; subst.
  all: try solve [eauto].
  all: try solve [eexists; split; [reflexivity|]; split; [reflexivity|]; apply existsb_exists;
    eexists; split; [eassumption|apply Z.eqb_refl]].
  all: try solve [eexists; split; [reflexivity|]; split; [reflexivity|]; apply negb_true_iff;
    destruct (existsb _ _) eqn:X; auto; apply existsb_exists in X as (d & I & E);
    apply Z.eqb_eq in E; subst; contradiction].
  destruct (IHe S _ _ ltac:(eassumption)) as (c & -> & -> & K). exists c. rewrite K.
  split; [reflexivity|]. split; [reflexivity|]. unfold says_yes.
  match goal with H : _ = Some true |- _ => rewrite H end. reflexivity.
Qed.

Lemma sequel_length : forall l w rs, sequel env l w rs -> length rs = length l.
Proof. induction 1; simpl; congruence. Qed.

Lemma means_derives :
  (forall e w v, means env e w v -> every deriving e -> derives rules (cfg_of e) w)
  /\ (forall p w rs, words env p w rs -> every deriving p ->
       derives rules (FStar (cfg_of p)) w
       /\ (rs <> [] -> derives rules (FSeq (cfg_of p) (FStar (cfg_of p))) w)
       /\ derives rules (ftimes (length rs) (cfg_of p)) w)
  /\ (forall l w rs, sequel env l w rs -> all_deriving l -> derives rules (fseqs (map cfg_of l)) w).
Proof.
  apply meaning_mind.
  all: try (intros; match goal with H : every deriving ?x |- _ =>
         child H; try contradiction end).
  all: try match goal with IH : every deriving ?p -> _ |- _ =>
         specialize (IH ltac:(first [assumption | apply Hc; simpl; auto])) end.
  all: try match goal with IH : every deriving ?p -> _ |- _ =>
         specialize (IH ltac:(first [assumption | apply Hc; simpl; auto])) end.
  all: try match goal with IH : all_deriving ?l -> _ |- _ =>
         specialize (IH ltac:(intros ?c ?I; simpl in *; intuition (subst; auto))) end.
  all: repeat match goal with
         | H : exists _, _ |- _ => destruct H
         | H : _ /\ _ |- _ => destruct H
         end.
  all: try solve [auto | constructor; auto | apply d_alt_left; auto | apply d_alt_right; constructor].
  - (* ref *) apply d_name. rewrite HR. apply H0, HE.
  - destruct (single_class (POneOfC cs) I [c] (VChar c)) as (c' & E & _ & K); [constructor; assumption|].
    injection E as <-. apply d_class. exact K.
  - destruct (single_class (POneCharExceptC cs) I [c] (VChar c)) as (c' & E & _ & K); [constructor; assumption|].
    injection E as <-. apply d_class. exact K.
  - apply derives_keyword.
  - destruct (single_class (PAcceptWhen p pr m) Hq w v) as (c & -> & _ & K); [constructor; assumption|].
    apply d_class. exact K.
  - (* one_of *) apply (derives_alts _ (cfg_of p)); [apply in_map; assumption|]. auto.
  - (* iterate *) rewrite Nat2Z.id. assumption.
  - (* nth_of *) assert (L : (Z.to_nat k < length rs)%nat) by (apply nth_error_Some; congruence).
    rewrite (sequel_length l w rs) in L by assumption.
    destruct (Z.leb_spec 0 k); [|lia]. destruct (Z.ltb_spec k (Z.of_nat (length l))); [|lia]. assumption.
  - apply sequel_length in H. destruct l; [discriminate|assumption].
  - apply sequel_length in H. rewrite app_length in H. destruct l; [simpl in H; lia|assumption].
  - split; [constructor|]. split; [congruence|constructor].
  - split; [apply d_star_more; assumption|]. split; [intros _|]; apply d_seq; assumption.
  - intros p l u r w rs _ IH _ IHs P. cbn [map].
    apply derives_seqs; [apply IH, P; left; reflexivity|]. apply IHs. intros c I. apply P. right; auto.
Qed.

Variable follow : nat -> char -> Prop.
Hypothesis LL : ll1_grammar rules follow.

(** Two ways to split a word in two are the same. *)
Lemma one_split : forall a b F u w u' w', one_decides rules follow (FSeq a b) F ->
  derives rules a u -> derives rules b w -> derives rules a u' -> derives rules b w' ->
  u ++ w = u' ++ w' -> u = u' /\ w = w'.
Proof.
  intros a b F u w u' w' (O & _) A B A' B' E.
  assert (G : forall x, derives rules b x ->
    goes_on_with (fun c => first rules b c \/ nullable rules b /\ F c) x).
  { intros x D. rewrite <- (app_nil_r x). apply goes_on_app; [exact D|exact I]. }
  assert (u = u') as <- by (apply (one_word rules follow LL a u A _ O u' w w' A'); auto).
  split; [reflexivity|]. exact (app_inv_head _ _ _ E).
Qed.
Lemma one_split_star : forall a F u w u' w', one_decides rules follow (FStar a) F ->
  derives rules a u -> derives rules (FStar a) w -> derives rules a u' -> derives rules (FStar a) w' ->
  u ++ w = u' ++ w' -> u = u' /\ w = w'.
Proof.
  intros a F u w u' w' (N & _ & O) A B A' B' E.
  assert (G : forall x, derives rules (FStar a) x -> goes_on_with (fun c => first rules a c \/ F c) x).
  { intros x D. pose proof (star_first rules _ _ D a eq_refl N) as X. destruct x; simpl; auto. }
  assert (u = u') as <- by (apply (one_word rules follow LL a u A _ O u' w w' A'); auto).
  split; [reflexivity|]. exact (app_inv_head _ _ _ E).
Qed.

Lemma single_decides : forall p F, single p -> one_decides rules follow (cfg_of p) F.
Proof. induction p; simpl; intros; auto; contradiction. Qed.

Lemma alts_decide : forall l F a, In a l -> one_decides rules follow (falts l) F -> one_decides rules follow a F.
Proof.
  induction l as [|b l IH]; intros F a I O; [contradiction|]. destruct l as [|b' l].
  - destruct I as [->|[]]. exact O.
  - destruct O as (_ & _ & _ & O1 & O2). destruct I as [->|I]; [exact O1|exact (IH F a I O2)].
Qed.
Lemma one_alternative : forall l F p p' w, In p l -> In p' l ->
  one_decides rules follow (falts (map cfg_of l)) F ->
  derives rules (cfg_of p) w -> derives rules (cfg_of p') w -> p = p'.
Proof.
  induction l as [|q l IH]; intros F p p' w I I' O D D'; [contradiction|]. destruct l as [|q' l].
  - destruct I as [<-|[]], I' as [<-|[]]. reflexivity.
  - destruct O as (N & A & _ & _ & O).
    assert (X : forall x y, x = q -> In y (q' :: l) -> derives rules (cfg_of x) w -> derives rules (cfg_of y) w -> False).
    { intros x y -> J Dx Dy. destruct w as [|c w]; [exact (N Dx)|].
      apply (A c); [exists w; exact Dx|]. exists w.
      apply (derives_alts (map cfg_of (q' :: l)) (cfg_of y)); [apply in_map; exact J|exact Dy]. }
    destruct I as [I|I], I' as [I'|I'].
    + congruence.
    + exfalso. first [exact (X p p' (eq_sym I) I' D D') | exact (X p' p (eq_sym I') I D' D)].
    + exfalso. first [exact (X p p' (eq_sym I) I' D D') | exact (X p' p (eq_sym I') I D' D)].
    + exact (IH F p p' w I I' O D D').
Qed.

Lemma one_value :
  (forall e w v, means env e w v -> every deriving e -> forall F, one_decides rules follow (cfg_of e) F ->
     forall v', means env e w v' -> v = v')
  /\ (forall p w rs, words env p w rs -> every deriving p ->
       (forall F, one_decides rules follow (FStar (cfg_of p)) F -> forall rs', words env p w rs' -> rs = rs')
       /\ (forall F, one_decides rules follow (ftimes (length rs) (cfg_of p)) F ->
            forall rs', words env p w rs' -> length rs' = length rs -> rs = rs'))
  /\ (forall l w rs, sequel env l w rs -> all_deriving l ->
       forall F, one_decides rules follow (fseqs (map cfg_of l)) F -> forall rs', sequel env l w rs' -> rs = rs').
Proof.
  apply meaning_mind.
  all: try (intros; match goal with H : every deriving ?x |- _ =>
         child H; try contradiction end).
  all: try match goal with IH : every deriving ?p -> _ |- _ =>
         specialize (IH ltac:(first [assumption | apply Hc; simpl; auto])) end.
  all: try match goal with IH : every deriving ?p -> _ |- _ =>
         specialize (IH ltac:(first [assumption | apply Hc; simpl; auto])) end.
  all: try match goal with IH : all_deriving ?l -> _ |- _ =>
         specialize (IH ltac:(intros ?c ?I; simpl in *; intuition (subst; auto))) end.
  all: try match goal with M : means env (_ _) _ _ |- _ = _ => inversion M; subst; clear M
         | M : means env POneChar _ _ |- _ = _ => inversion M; subst; clear M end.
  all: try reflexivity.
  all: try assumption.
  all: try congruence.
  all: try solve [eauto].
  all: try match goal with
    W : (forall F, _ -> forall rs', words env ?p ?w rs' -> ?rs = rs') /\ _, M : words env ?p ?w ?rs0 |- ?v = ?v' =>
      match rs0 with rs => fail 1 | _ => idtac end;
      assert (rs = rs0) by (destruct W as [W _]; first [eapply W; [eassumption|exact M] |
        match goal with O : one_decides _ _ _ _ /\ _ |- _ => exact (W _ (proj2 O) _ M) end]);
      congruence end.
  - (* ref *) specialize (H0 (HE k)). apply (H0 (follow k)); [rewrite <- HR; apply LL|assumption].
  - (* accept_when *) apply (H0 F); [apply single_decides|]; assumption.
  - (* transform *) assert (r = r0) by eauto. congruence.
  - (* optional *) destruct H2 as (_ & _ & _ & O & _). eauto.
  - exfalso. destruct H2 as (N & _). apply N. apply (proj1 means_derives p [] v H). auto.
  - exfalso. match goal with O : ~ _ /\ _, M : means env p [] _ |- _ => apply (proj1 O);
      apply (proj1 means_derives p [] _ M) end. auto.
  - (* one_of *) assert (p = p0) as <-.
    { apply (one_alternative l F p p0 w); auto; eapply (proj1 means_derives); eauto. }
    apply (H1 F); auto. apply (alts_decide (map cfg_of l)); [apply in_map; assumption|assumption].
  - (* foldl_start_with_parser *)
    destruct (one_split (cfg_of sp) (FStar (cfg_of p)) F u0 w0 u w) as (-> & ->); auto;
      try solve [eapply (proj1 means_derives); eauto | eapply (proj1 (proj2 means_derives)); eauto].
    destruct H5 as (O1 & O2). assert (v0 = v1) by eauto. assert (rs = rs0) by (apply (proj1 H2 F); auto). congruence.
  - destruct (one_split (cfg_of sp) (FStar (cfg_of p)) F u0 w0 u w) as (-> & ->); auto;
      try solve [eapply (proj1 means_derives); eauto | eapply (proj1 (proj2 means_derives)); eauto].
    destruct H5 as (O1 & O2). assert (v0 = v1) by eauto. assert (rs = rs0) by (apply (proj1 H2 F); auto). congruence.
  - (* foldr_start_with_parser *)
    destruct (one_split (FStar (cfg_of p)) (cfg_of sp) F w0 u0 w u) as (-> & ->); auto;
      try solve [eapply (proj1 means_derives); eauto | eapply (proj1 (proj2 means_derives)); eauto].
    destruct H5 as (O1 & O2). assert (v0 = v1) by eauto.
    assert (rs = rs0) by (destruct H0 as [W _]; eapply W; [exact O1|assumption]). congruence.
  - (* iterate *) rewrite Nat2Z.id in H3. f_equal. apply (proj2 H0 F); auto. lia.
  - f_equal. eauto.
  - f_equal. eauto.
  - (* nth_of *) assert (L : (Z.to_nat k < length rs)%nat) by (apply nth_error_Some; congruence).
    rewrite (sequel_length l w rs) in L by assumption.
    destruct (Z.leb_spec 0 k); [|lia]. destruct (Z.ltb_spec k (Z.of_nat (length l))); [|lia].
    assert (rs = rs0) by eauto. congruence.
  - pose proof (sequel_length _ _ _ H) as L. destruct l; [discriminate|].
    assert (E : v :: rs = v' :: rs0) by eauto. congruence.
  - pose proof (sequel_length _ _ _ H) as L. rewrite app_length in L. destruct l; [simpl in L; lia|].
    assert (E : rs ++ [v] = rs0 ++ [v']) by eauto. apply app_inj_tail in E. tauto.
  - assert (E : [r1; r2; r3] = [r0; v'; r5]) by (eapply H0; eassumption). congruence.
  - (* words *) split.
    + intros F (N & _) rs' W. inversion W; subst; [reflexivity|]. exfalso.
      match goal with E : _ ++ _ = [] |- _ => apply app_eq_nil in E; destruct E as (-> & ->) end.
      apply N. eapply (proj1 means_derives); eauto.
    + intros F _ rs' W L. destruct rs'; [reflexivity|discriminate].
  - split.
    + intros F O rs' W. inversion W; subst.
      * exfalso. assert (E : u = [] /\ w = []) by (apply app_eq_nil; congruence).
        destruct E as (-> & ->). apply (proj1 O). eapply (proj1 means_derives); eauto.
      * destruct (one_split_star (cfg_of p) F u w u0 w0) as (<- & <-); auto;
          try solve [eapply (proj1 means_derives); eauto | eapply (proj1 (proj2 means_derives)); eauto].
        f_equal; [|apply (proj1 H2 F); auto]. destruct O as (_ & _ & O). eauto.
    + intros F O rs' W L. inversion W; subst; [discriminate|]. injection L as L.
      destruct (one_split (cfg_of p) (ftimes (length rs) (cfg_of p)) F u w u0 w0) as (<- & <-); auto;
        try solve [eapply (proj1 means_derives); eauto | eapply (proj1 (proj2 means_derives)); eauto
                  | rewrite <- L; eapply (proj1 (proj2 means_derives)); eauto].
      destruct O as (O1 & O2). f_equal; [eauto|]. apply (proj2 H2 F); auto.
  - (* sequel *) intros _ F _ rs' S. inversion S. reflexivity.
  - intros p l u r w rs M IH S IHs P F O rs' S'.
    assert (Pp : every deriving p) by (apply P; left; reflexivity).
    assert (Pl : all_deriving l) by (intros c I; apply P; right; exact I).
    inversion S'; subst. destruct l as [|p' l].
    + inversion S; subst. match goal with X : sequel env [] _ _ |- _ => inversion X; subst; clear X end.
      rewrite !app_nil_r in *. subst. f_equal. eapply IH; eauto.
    + destruct (one_split (cfg_of p) (fseqs (map cfg_of (p' :: l))) F u w u0 w0) as (<- & <-); auto;
        try solve [eapply (proj1 means_derives); eauto | eapply (proj2 (proj2 means_derives)); eauto].
      destruct O as (O1 & O2). f_equal; eauto.
Qed.
End Grammar.

(** ** The grammars of C90 and C91 *)

Lemma blaming_deriving : forall e, every blaming e -> every deriving e.
Proof.
  induction 1 as [e B _ IH]. constructor; [|exact IH].
  destruct e; simpl in *; auto. intros m q r s' q' E. destruct (B m q) as (m' & E'). congruence.
Qed.

Lemma same_grammar : forall e, every deriving e -> every recognition e -> peg_of e = cfg_of e.
Proof.
  induction 1 as [e D _ IH]. intros R. inversion R as [? Re Rc]; subst.
  assert (X : forall c, In c (children e) -> peg_of c = cfg_of c) by auto.
  assert (M : forall l, (forall c, In c l -> In c (children e)) -> map peg_of l = map cfg_of l)
    by (intros l S; apply map_ext_in; auto).
  destruct e; simpl in *; try contradiction; try reflexivity;
    rewrite ?X by auto; try reflexivity.
  all: try (rewrite (M _ (fun c I => I)); reflexivity).
  destruct (Z.ltb_spec k 0); [lia|reflexivity].
Qed.

(** ** The order of the alternatives *)

(** The rules are the same up to the order of their alternatives. *)
Lemma same_meaning : forall env1 env2,
  (forall k, env1 k = env2 k
     \/ exists l l', env1 k = POneOf l /\ env2 k = POneOf l' /\ forall p, In p l -> In p l') ->
  (forall e w v, means env1 e w v -> means env2 e w v)
  /\ (forall p w rs, words env1 p w rs -> words env2 p w rs)
  /\ (forall l w rs, sequel env1 l w rs -> sequel env2 l w rs).
Proof.
  intros env1 env2 R. apply meaning_mind; try solve [intros; econstructor; eauto].
  intros k w v _ M. constructor. destruct (R k) as [<-|(l & l' & E1 & E2 & I)]; [exact M|].
  rewrite E1 in M. rewrite E2. inversion M; subst. econstructor; eauto.
Qed.
