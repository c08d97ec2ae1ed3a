(** Proofs for C91: the parsers of the library. *)

From Coq Require Import ZArith List Bool Lia.
From Verif Require Import Base Util Deep Spec SpecDeep SpecRules SpecPeg SpecCfg SpecBlame
  Proofs_Pos Proofs_Deep Proofs_Rules Proofs_PegAll Proofs_Cfg Proofs_Blame.
Import ListNotations.
Open Scope Z_scope.

Lemma at_refl : forall s ps, rest_at s ps s ps.
Proof. intros. exists []. split; [reflexivity|constructor]. Qed.
Lemma at_char : forall c s ps q, walk ps [c] q -> rest_at (c :: s) ps s q.
Proof. intros c s ps q W. exists [c]. auto. Qed.
Lemma at_trans : forall s ps s1 q1 t q, rest_at s ps s1 q1 -> rest_at s1 q1 t q -> rest_at s ps t q.
Proof.
  intros s ps s1 q1 t q (u & -> & W) (v & -> & W'). exists (u ++ v). split; [apply app_assoc|].
  apply walk_iff in W. apply walk_iff in W'. apply walk_iff. rewrite adv_app. congruence.
Qed.
Lemma at_start : forall s ps t, rest_at s ps t ps -> t = s.
Proof.
  intros s ps t (u & -> & W). apply walk_iff in W. symmetry in W. apply adv_fix in W. subst. reflexivity.
Qed.
Lemma at_same : forall s ps q, rest_at s ps s q -> q = ps.
Proof.
  intros s ps q (u & E & W). assert (u = []) as ->.
  { destruct u; auto. apply (f_equal (@length _)) in E. simpl in E. rewrite app_length in E. lia. }
  inversion W. reflexivity.
Qed.
Lemma at_later : forall s ps t q, rest_at s ps t q -> q <> ps -> (length t < length s)%nat.
Proof.
  intros s ps t q (u & -> & W) N. rewrite app_length. destruct u; simpl; [|lia].
  inversion W; subst. contradiction.
Qed.
Lemma at_le : forall s ps t1 q1 t2 q2, rest_at s ps t1 q1 -> rest_at s ps t2 q2 ->
  (length t1 <= length t2)%nat -> pos_le q2 q1.
Proof.
  intros s ps t1 q1 t2 q2 (u1 & E1 & W1) (u2 & E2 & W2) L.
  apply walk_iff in W1. apply walk_iff in W2. subst q1 q2.
  apply pos_less_false_iff. destruct (pos_less _ _) eqn:E; auto. exfalso. apply pos_less_iff in E.
  apply (prefix_lt u1 u2 s ps) in E.
  - subst s. apply (f_equal (@length _)) in E2. rewrite !app_length in E2. lia.
  - exists t1. auto.
  - exists t2. auto.
Qed.

Lemma same_place : forall u t u' t' ps q, u ++ t = u' ++ t' -> walk ps u q -> walk ps u' q -> u = u' /\ t = t'.
Proof.
  intros u t u' t' ps q E W W'. apply walk_iff in W. apply walk_iff in W'.
  destruct (app_split _ _ _ _ _ E) as [(c & w & ->)|[H|(c & w & -> & _)]]; [|exact H|].
  - rewrite adv_app, W' in W. symmetry in W. apply adv_fix in W. discriminate.
  - rewrite adv_app, W in W'. symmetry in W'. apply adv_fix in W'. discriminate.
Qed.

Section Main.
Variable sd : std.
Variable env : program.
Hypothesis HE : program_every blaming env.
Let rules : nat -> parsing_expression := fun k => cfg_of (env k).

Local Notation ok g s s' := (blames rules g s (Ok s')).
Local Notation bad g s t := (blames rules g s (Bad t)).

Definition says (g : parsing_expression) (s : str) (ps : pos) (o : outcome) : Prop :=
  match o with
  | Accept _ s' q => ok g s s' /\ rest_at s ps s' q
  | Reject _ q => exists t, bad g s t /\ rest_at s ps t q
  | _ => True
  end.

Lemma single_position : forall e, single e -> forall s ps o, gives sd env e s ps o ->
  match o with
  | Accept _ s' q => rest_at s ps s' q
  | Reject _ q => q = ps
  | _ => True
  end.
Proof.
  induction e; simpl; intros S s ps o G; try contradiction;
    inversion G; subst; simpl; auto using at_char;
    match goal with
    | IH : single _ -> _, K : gives _ _ _ _ _ _ |- _ => exact (IH S _ _ _ K)
    end.
Qed.

Lemma class_says : forall e, single e -> forall s ps o, gives sd env e s ps o ->
  says (FClass (class_of e)) s ps o.
Proof.
  intros e S s ps o G. pose proof (single_gives sd env e S s ps o G) as K.
  pose proof (single_position e S s ps o G) as P. destruct o; simpl in *; auto.
  - destruct K as (c & -> & -> & Q). split; [constructor; auto|exact P].
  - subst. exists s. split; [constructor; auto|apply at_refl].
Qed.

Lemma seqs_cons : forall g l s s1 o, ok g s s1 -> blames rules (fseqs l) s1 o ->
  blames rules (fseqs (g :: l)) s o.
Proof.
  intros g [|h l] s s1 o A B; [|eapply b_seq; eauto]. inversion B; subst. exact A.
Qed.
Lemma seqs_cons_no : forall g l s t, bad g s t -> bad (fseqs (g :: l)) s t.
Proof. intros g [|h l] s t A; [exact A|apply b_seq_no; auto]. Qed.

Lemma seqs_end : forall l s s', (forall l' o, blames rules (fseqs l') s' o ->
  blames rules (fseqs (map cfg_of l ++ l')) s o) -> ok (fseqs (map cfg_of l)) s s'.
Proof. intros l s s' H. specialize (H [] _ (b_eps rules s')). rewrite app_nil_r in H. exact H. Qed.
Lemma seqs_break : forall l s t, (forall l', bad (fseqs (map cfg_of l ++ l')) s t) ->
  bad (fseqs (map cfg_of l)) s t.
Proof. intros l s t H. specialize (H []). rewrite app_nil_r in H. exact H. Qed.

Lemma keyword_ok : forall kw s, ok (fseqs (map (fun c => FClass (Z.eqb c)) kw)) (kw ++ s) s.
Proof.
  induction kw as [|c kw IH]; intros s; [constructor|].
  change (map (fun c => FClass (Z.eqb c)) (c :: kw))
    with (FClass (Z.eqb c) :: map (fun c => FClass (Z.eqb c)) kw).
  eapply seqs_cons; [|apply IH]. constructor. apply Z.eqb_refl.
Qed.
Lemma keyword_bad : forall u c kw s, not_starting_with (fun d => d = c) s ->
  bad (fseqs (map (fun c => FClass (Z.eqb c)) (u ++ c :: kw))) (u ++ s) s.
Proof.
  induction u as [|d u IH]; intros c kw s N.
  - apply seqs_cons_no. constructor. destruct s; simpl in *; auto.
    rewrite Z.eqb_eq. congruence.
  - change (map (fun c => FClass (Z.eqb c)) ((d :: u) ++ c :: kw))
      with (FClass (Z.eqb d) :: map (fun c => FClass (Z.eqb c)) (u ++ c :: kw)).
    eapply seqs_cons; [|exact (IH c kw s N)]. constructor. apply Z.eqb_refl.
Qed.

Lemma alts_ok : forall s ps l os o, Forall2 (fun g o => says g s ps o) l os ->
  first_accept os o -> says (falts l) s ps o.
Proof.
  intros s ps l os o F ((r & s' & ps' & ->) & os1 & os2 & -> & R).
  revert l F. induction os1 as [|x os1 IH]; intros l F; inversion F as [|g ? l' ? A B]; subst.
  - destruct l' as [|h l']; [exact A|]. destruct A as (A & P). split; [apply b_alt; exact A|exact P].
  - inversion R as [|? ? (m & pe & ->) R']; subst. destruct A as (t & A & _).
    destruct (IH R' l' B) as (X & P). split; [|exact P].
    destruct l' as [|h l']; [inversion B; destruct os1; discriminate|].
    eapply b_alt_other; eauto.
Qed.

Lemma alts_bad : forall s ps l es, Forall2 (fun g o => says g s ps o) l (map (fun e => Reject (fst e) (snd e)) es) ->
  exists t, bad (falts l) s t
    /\ (forall e, In e es -> exists t', rest_at s ps t' (snd e) /\ (length t <= length t')%nat)
    /\ (es = [] /\ t = s \/ exists e, In e es /\ rest_at s ps t (snd e)).
Proof.
  intros s ps l es. revert l. induction es as [|(m, q) es IH]; intros l F; inversion F as [|g ? l' ? A B]; subst.
  - exists s. split; [constructor|]. split; [intros e []|auto].
  - destruct A as (t0 & A & P). destruct (IH _ B) as (t & X & Y & Z).
    destruct l' as [|h l'].
    + assert (es = []) as -> by (destruct es; [reflexivity|inversion B]).
      exists t0. split; [exact A|]. split.
      * intros e [<-|[]]. exists t0. auto.
      * right. exists (m, q). split; [left; reflexivity|exact P].
    + assert (Z' : exists e, In e es /\ rest_at s ps t (snd e)).
      { destruct Z as [(-> & _)|Z]; [inversion B|exact Z]. }
      destruct Z' as (e & I & R).
      destruct (Nat.lt_ge_cases (length t0) (length t)) as [L|L].
      * exists t0. split; [eapply b_alt_first; eauto|]. split.
        -- intros e' [<-|I']; [exists t0; auto|]. destruct (Y e' I') as (t' & R' & L').
           exists t'. split; [exact R'|lia].
        -- right. exists (m, q). split; [left; reflexivity|exact P].
      * exists t. split; [eapply b_alt_second; eauto|]. split.
        -- intros e' [<-|I']; [exists t0; auto|auto].
        -- right. exists e. split; [right; exact I|exact R].
Qed.

Lemma alts_choice : forall s ps l os es m pe, Forall2 (fun g o => says g s ps o) l os ->
  rejections os es -> choice_error sd ps es (m, pe) -> says (falts l) s ps (Reject m pe).
Proof.
  intros s ps l os es m pe F -> C. destruct (alts_bad s ps l es F) as (t & B & Y & Z).
  exists t. split; [exact B|].
  assert (W : (In (m, pe) es \/ pe = ps) /\ (forall e, In e es -> pos_le (snd e) pe) /\ pos_le ps pe).
  { assert (Q : exists l1 l2, l1 ++ (m, pe) :: l2 =
        match sd with Std98 => (none_of_the_expected_cases_found, ps) :: es
        | _ => es ++ [(none_of_the_expected_cases_found, ps)] end
        /\ (forall x, In x l1 -> pos_le (snd x) pe) /\ (forall x, In x l2 -> pos_lt (snd x) pe)).
    { unfold choice_error in C. destruct sd; destruct C as (l1 & l2 & -> & C1 & C2); exists l1, l2; auto. }
    destruct Q as (l1 & l2 & E & C1 & C2).
    assert (T : forall x, In x (l1 ++ (m, pe) :: l2) -> pos_le (snd x) pe).
    { intros x I. apply in_app_or in I as [I|[<-|I]]; [auto|apply pos_le_refl|left; auto]. }
    assert (In (m, pe) (l1 ++ (m, pe) :: l2)) as I by apply in_elt.
    rewrite E in T, I. split; [|split].
    - destruct sd; [destruct I as [I|I]| |]; try (apply in_app_or in I as [I|[I|[]]]); auto; injection I as _ ->; auto.
    - intros e Ie. apply T. destruct sd; [right; exact Ie| |]; apply in_or_app; auto.
    - apply (T (none_of_the_expected_cases_found, ps)).
      destruct sd; [left; reflexivity| |]; apply in_or_app; right; left; reflexivity. }
  destruct W as (W1 & W2 & W3). destruct Z as [(-> & ->)|(e & I & R)].
  - destruct W1 as [[]| ->]. apply at_refl.
  - enough (pe = snd e) as -> by exact R. apply pos_le_antisym; [|apply W2, I].
    destruct W1 as [I'| ->].
    + destruct (Y _ I') as (t' & R' & L). exact (at_le _ _ _ _ _ _ R R' L).
    + destruct R as (u & -> & W). apply walk_iff in W. rewrite W. apply adv_le.
Qed.

Definition all_blaming (l : list pexpr) : Prop := forall c, In c l -> every blaming c.
Ltac child H := inversion H as [? ?Hq ?Hc]; subst; simpl in *.

Lemma star_stops : forall a s t, one_character a -> bad a s t -> ok (FStar a) s s.
Proof.
  intros a s t O B. apply b_star_stop. rewrite (one_character_stops _ _ _ _ O B) in B. exact B.
Qed.

Lemma gives_says :
  (forall e s ps o, gives sd env e s ps o -> every blaming e -> says (cfg_of e) s ps o)
  /\ (forall p s ps rs s' ps', many sd env p s ps rs s' ps' -> every blaming p ->
       rest_at s ps s' ps'
       /\ (forall o, blames rules (FStar (cfg_of p)) s' o -> blames rules (FStar (cfg_of p)) s o)
       /\ (rs <> [] -> forall o, blames rules (FStar (cfg_of p)) s' o ->
             blames rules (FSeq (cfg_of p) (FStar (cfg_of p))) s o)
       /\ (forall j o, blames rules (ftimes j (cfg_of p)) s' o ->
             blames rules (ftimes (length rs + j) (cfg_of p)) s o))
  /\ (forall l s ps rs s' ps', in_turn sd env l s ps rs s' ps' -> all_blaming l ->
       rest_at s ps s' ps'
       /\ forall l' o, blames rules (fseqs l') s' o ->
         blames rules (fseqs (map cfg_of l ++ l')) s o)
  /\ (forall l s ps m pe, breaks_off sd env l s ps m pe -> all_blaming l ->
       exists t, rest_at s ps t pe /\ forall l', bad (fseqs (map cfg_of l ++ l')) s t)
  /\ (forall l s ps os, each sd env l s ps os -> all_blaming l ->
       Forall2 (fun g o => says g s ps o) (map cfg_of l) os).
Proof.
  apply rules_mind.
  all: try (intros; match goal with H : every blaming ?x |- _ =>
         child H; try contradiction end).
  all: try match goal with IH : every blaming ?p -> _ |- _ =>
         specialize (IH ltac:(first [assumption | apply Hc; simpl; auto])) end.
  all: try match goal with IH : every blaming ?p -> _ |- _ =>
         specialize (IH ltac:(first [assumption | apply Hc; simpl; auto])) end.
  all: try match goal with IH : every blaming ?p -> _ |- _ =>
         specialize (IH ltac:(first [assumption | apply Hc; simpl; auto])) end.
  all: try assumption.
  all: try match goal with IH : all_blaming ?l -> _ |- _ =>
         specialize (IH ltac:(intros ?c ?I; simpl in *; intuition (subst; auto))) end.
  all: repeat match goal with
         | H : exists _, _ |- _ => destruct H
         | H : _ /\ _ |- _ => destruct H
         end.
  all: try match goal with H : every blaming ?e |- _ =>
         match e with
         | POneChar => idtac | POneOfC _ => idtac | POneCharExceptC _ => idtac
         | PAcceptWhen _ _ _ => idtac
         end;
         first [refine (class_says e _ _ _ (Accept _ _ _) _); [first [exact I|exact Hq]|solve [econstructor; eauto]]
               |refine (class_says e _ _ _ (Reject _ _) _); [first [exact I|exact Hq]|solve [econstructor; eauto]]]
         end.
  all: try solve [split; [|solve [eauto using at_refl, at_trans]];
         eauto using b_eps, b_alt, b_alt_other, b_seq, b_star_stop, star_stops].
  all: try solve [eexists; split; [|solve [eauto using at_refl, at_trans]];
         eauto using b_fail, b_seq_no].
  all: try match goal with A : _ :: _ <> [] -> _ |- _ => specialize (A ltac:(discriminate)) end.
  all: try solve [split; [|solve [eauto using at_refl, at_trans]];
         eauto using b_seq, b_star_stop, star_stops].
  all: try match goal with K : rest_at ?s ?ps ?t ?ps |- _ =>
         assert (t = s) by (exact (at_start _ _ _ K)); subst t; clear K end.
  all: try solve [split; [|solve [eauto using at_refl, at_trans]]; eauto using b_seq, b_star_stop].
  all: try solve [eexists; split; [|solve [eauto using at_refl, at_trans]];
         eauto using b_seq, b_star_stop, b_star_incomplete, at_later, star_stops].
  all: try match goal with K : in_turn _ _ _ ?s _ _ ?s' _ |- ok _ ?s ?s' /\ _ =>
         split; [|assumption] end.
  all: try match goal with K : breaks_off _ _ _ _ _ _ _ |- exists t, bad (FSeq _ _) _ _ /\ _ => idtac
         | K : breaks_off _ _ _ _ _ _ _ |- exists t, _ => eexists; split; [|eassumption] end.
  all: try match goal with |- exists t, _ => idtac
         | K : in_turn _ _ ?l _ _ _ _ _, A : _ |- ok (FSeq _ _) _ _ =>
           exact (seqs_end l _ _ A)
         | K : in_turn _ _ ?l _ _ _ _ _, A : _ |- _ => apply (seqs_end l) in A
         | K : breaks_off _ _ ?l _ _ _ _, A : _ |- _ => apply (seqs_break l) in A end.
  - (* ref *) assert (K := H0 (HE k)). destruct o; simpl in *; auto.
    + destruct K; split; auto using b_name.
    + destruct K as (t & K & P). exists t. split; auto using b_name.
  - split; [apply keyword_ok|]. exists kw. auto.
  - exists s. split; [apply keyword_bad; auto|]. exists u. auto.
  - (* change_error_message *) exists s. split; [|apply at_refl].
    match goal with B : blames _ _ _ (Bad ?t) |- _ => rewrite (one_character_stops _ _ _ _ Hq B) in B end.
    assumption.
  - (* transform_error *) destruct (Hq m pe) as (m' & ->). simpl. eauto.
  - (* iterate *) rewrite Nat2Z.id. split; [|assumption].
    match goal with A : forall j o, _ -> _ |- _ => specialize (A 0%nat _ (b_eps rules s')); rewrite Nat.add_0_r in A; exact A end.
  - eexists; split; [|solve [eauto using at_refl, at_trans]].
    match goal with L : _ \/ _ |- _ => destruct L as [|L]; [lia|] end.
    replace (Z.to_nat k) with (length rs + S (Z.to_nat k - S (length rs)))%nat by lia.
    match goal with A : forall j o, _ -> _ |- _ => apply A end. apply b_seq_no. eassumption.
  - eapply alts_ok; eauto.
  - eapply (alts_choice s ps _ os es m pe); eauto.
  - assumption.
  - assumption.
  - assumption.
  - assumption.
  - (* nth_of *)
    assert (L : (Z.to_nat k < length rs)%nat) by (apply nth_error_Some; congruence).
    assert (length rs = length l) by (eapply in_turn_length; eauto).
    destruct (Z.leb_spec 0 k); [|lia]. destruct (Z.ltb_spec k (Z.of_nat (length l))); [|lia]. assumption.
  - match goal with K : 0 <= k |- _ => apply Z.leb_le in K; rewrite K end.
    match goal with K : k < _ |- _ => apply Z.ltb_lt in K; rewrite K end. assumption.
  - replace ((0 <=? k) && (k <? Z.of_nat (length l))) with false; [exists s; split; [constructor|apply at_refl]|].
    symmetry. apply andb_false_iff. rewrite Z.leb_gt, Z.ltb_ge. auto.
  - apply in_turn_length in H. destruct l; [discriminate|assumption].
  - destruct l; [inversion H|assumption].
  - apply in_turn_length in H. rewrite app_length in H. destruct l; [simpl in H; lia|assumption].
  - destruct l; [inversion H|assumption].
  - eexists; split; [|eassumption].
    match goal with A : forall l' : list _, _ |- _ => exact (A [cfg_of p3]) end.
  - eexists; split; [|eauto using at_trans].
    match goal with A : forall l' o, _ -> _ |- _ => apply (A [cfg_of p3]) end. eassumption.
  - (* many *) split; [apply at_refl|]. split; [auto|]. split; [congruence|auto].
  - split; [eauto using at_trans|]. split; [|split].
    + intros o K. eapply b_star_more; eauto.
    + intros _ o K. eapply b_seq; eauto.
    + intros j o K. eapply b_seq; eauto.
  - intros s ps P. split; [apply at_refl|auto].
  - intros p l s ps r s1 ps1 rs s2 ps2 G IH IT IHs P. cbn [map app].
    destruct (IH (P p (or_introl eq_refl))) as (A & B).
    destruct (IHs (fun c I => P c (or_intror I))) as (C & D).
    split; [eauto using at_trans|]. intros l' o K. eapply seqs_cons; eauto.
  - intros p l s ps m pe G IH P. destruct (IH (P p (or_introl eq_refl))) as (t & A & B).
    exists t. split; [assumption|]. intros l'. apply seqs_cons_no. exact A.
  - intros p l s ps r s1 ps1 m pe G IH IT IHs P. cbn [map app].
    destruct (IH (P p (or_introl eq_refl))) as (A & B).
    destruct (IHs (fun c I => P c (or_intror I))) as (t & C & D).
    exists t. split; [eauto using at_trans|]. intros l'. eapply seqs_cons; eauto.
  - intros. constructor.
  - intros p l s ps o os G IH E IHs P. constructor; [apply IH, P; left; auto|].
    apply IHs. intros c I. apply P. right; auto.
Qed.
End Main.
