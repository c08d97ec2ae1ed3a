(** The preprocessor of the specification has one outcome. *)

From Coq Require Import ZArith List Bool Lia Sorted.
From Verif Require Import Base Messages Spec Strings Generate SpecGenerate SpecHeaders
  Properties_Messages Proofs_Generate Proofs_Headers.
Import ListNotations.
Open Scope Z_scope.

(** ** Expansion *)

Lemma cons_eq : forall (A : Type) (x y : A) (a b : list A), x :: a = y :: b -> x = y /\ a = b.
Proof. intros A x y a b E. injection E as E F. auto. Qed.

Lemma bracketed_unique : forall a, bracketed a -> forall b r s, bracketed b ->
  a ++ rparen :: r = b ++ rparen :: s -> a = b /\ r = s.
Proof.
  intros a A. induction A as [|t ts L R A IH|p ts P IHp A IH]; intros b r s B E;
    destruct B as [|u us L' R' B|q us Q B]; cbn [app] in E; apply cons_eq in E as (E1 & E);
    try congruence; try (symmetry in E1; congruence); try discriminate.
  - auto.
  - subst u. apply IH in E as (-> & ->); auto.
  - rewrite <- !app_assoc in E. cbn [app] in E. apply IHp in E as (-> & E); [|exact Q].
    apply IH in E as (-> & ->); auto.
Qed.

Definition ender (t : str) : Prop := t = comma \/ t = rparen.

Lemma argument_unique : forall a, argument a -> forall b t u r s, argument b ->
  ender t -> ender u -> a ++ t :: r = b ++ u :: s -> a = b /\ t = u /\ r = s.
Proof.
  assert (D1 : comma <> lparen) by discriminate.
  assert (D2 : rparen <> lparen) by discriminate.
  intros a A. induction A as [|t ts L R C A IH|p ts P A IH]; intros b x y r s B X Y E;
    destruct B as [|u us L' R' C' B|q us Q B]; cbn [app] in E; apply cons_eq in E as (E1 & E);
    try (exfalso; destruct X, Y; congruence); try (exfalso; congruence).
  - auto.
  - subst u. apply IH in E as (-> & -> & ->); auto.
  - rewrite <- !app_assoc in E. cbn [app] in E.
    apply bracketed_unique in E as (-> & E); [|exact P|exact Q].
    apply IH in E as (-> & -> & ->); auto.
Qed.

Lemma arguments_unique : forall a b r s, Forall argument a -> Forall argument b ->
  length a = length b -> a <> [] ->
  comma_separated a ++ rparen :: r = comma_separated b ++ rparen :: s -> a = b /\ r = s.
Proof.
  induction a as [|x a IH]; intros b r s A B L N E; [congruence|].
  destruct b as [|y b]; [discriminate|]. inversion A; subst. inversion B; subst.
  cbn [comma_separated] in E. destruct a as [|x' a], b as [|y' b]; try discriminate.
  - apply argument_unique in E as (-> & _ & ->); auto; right; reflexivity.
  - rewrite <- !app_assoc in E. cbn [app] in E.
    apply argument_unique in E as (-> & _ & E); auto; [|left; reflexivity|left; reflexivity].
    apply IH in E as (E & ->); auto; [|discriminate]. rewrite E. auto.
Qed.

Section Expands.

Variable ms : list macro.
Hypothesis one : NoDup (map macro_id ms).
Hypothesis no_cat : ~ defined ms cat.

Lemma one_macro : forall x p q b c, In (Macro x p b) ms -> In (Macro x q c) ms -> p = q /\ b = c.
Proof.
  intros x p q b c. clear no_cat. induction ms as [|d l IH]; intros P Q; [destruct P|].
  cbn [map] in one. inversion one as [|? ? N O]; subst.
  destruct P as [->|P], Q as [Q|Q].
  - injection Q as -> ->. auto.
  - exfalso. apply N. exact (in_map macro_id _ _ Q).
  - subst d. exfalso. apply N. exact (in_map macro_id _ _ P).
  - now apply IH.
Qed.

Lemma in_defined : forall x p b, In (Macro x p b) ms -> defined ms x.
Proof. intros x p b I. exact (in_map macro_id _ _ I). Qed.

Fixpoint expands_one (ts out : list str) (H : expands ms ts out) {struct H} :
  forall out', expands ms ts out' -> out = out'.
Proof.
  destruct H as [|t ts out D C H|x body ts out I H|x ps body args args' ts out I L N A E H
                 |a b x y ts out A B X Y H]; intros out' W.
  - inversion W. reflexivity.
  - inversion W as [|? ? o D' C' W'|? b ? o I' W'|? ? ? ? ? ? o I' L' N' A' E' W'|? ? ? ? ? o A' B' X' Y' W'];
      subst; try (exfalso; apply D; eapply in_defined; eassumption); try congruence.
    f_equal. exact (expands_one _ _ H _ W').
  - inversion W as [|? ? o D' C' W'|? b ? o I' W'|? ? ? ? ? ? o I' L' N' A' E' W'|? ? ? ? ? o A' B' X' Y' W'];
      subst; try (exfalso; apply D'; eapply in_defined; eassumption).
    + destruct (one_macro _ _ _ _ _ I I') as (_ & ->). exact (expands_one _ _ H _ W').
    + destruct (one_macro _ _ _ _ _ I I') as (F & _). discriminate F.
    + exfalso. apply no_cat. eapply in_defined. exact I.
  - inversion W as [|? ? o D' C' W'|? b ? o I' W'|? ps' body' args1 args2 ts' o I' L' N' A' E' W'|? ? ? ? ? o A' B' X' Y' W'];
      subst; try (exfalso; apply D'; eapply in_defined; eassumption).
    + destruct (one_macro _ _ _ _ _ I I') as (F & _). discriminate F.
    + destruct (one_macro _ _ _ _ _ I I') as (F & ->). injection F as <-.
      assert (LE : length args1 = length args) by congruence.
      assert (NE : args1 <> []).
      { intros ->. destruct ps; [congruence|]. discriminate. }
      match goal with Q : comma_separated args1 ++ _ = _ |- _ =>
        apply arguments_unique in Q as (-> & ->); auto end.
      assert (EQ : args' = args2).
      { clear -E E' expands_one. revert args2 E'. induction E as [|p q ps qs P E IH]; intros r R;
          inversion R as [|? q' ? qs' P' R']; subst; [reflexivity|].
        f_equal; [exact (expands_one _ _ P _ P')|now apply IH]. }
      subst args2. exact (expands_one _ _ H _ W').
    + exfalso. apply no_cat. eapply in_defined. exact I.
  - inversion W as [|? ? o D' C' W'|? b' ? o I' W'|? ps' body' args1 args2 ts' o I' L' N' A' E' W'|a' b' x' y' ts' o A' B' X' Y' W'];
      subst; try congruence; try (exfalso; apply no_cat; eapply in_defined; eassumption).
    match goal with Q : a' ++ comma :: _ = a ++ comma :: _ |- _ =>
      apply argument_unique in Q as (-> & _ & Q); auto; try (left; reflexivity);
      apply argument_unique in Q as (-> & _ & ->); auto; try (right; reflexivity) end.
    pose proof (expands_one _ _ X _ X') as EX. pose proof (expands_one _ _ Y _ Y') as EY.
    injection EX as ->. injection EY as ->. exact (expands_one _ _ H _ W').
Qed.

End Expands.

(** ** Directives *)

Lemma word_unique : forall x y r s, word x = true -> word y = true ->
  begins_word r = false -> begins_word s = false -> x ++ r = y ++ s -> x = y /\ r = s.
Proof.
  assert (G : forall x y r s, forallb word_char x = true -> forallb word_char y = true ->
    begins_word r = false -> begins_word s = false -> x ++ r = y ++ s -> x = y /\ r = s).
  { induction x as [|c x IH]; intros y r s X Y R S E; destruct y as [|d y]; cbn [app] in E.
    - auto.
    - subst r. cbn [forallb] in Y. apply andb_true_iff in Y as (Y & _). cbn in R. congruence.
    - subst s. cbn [forallb] in X. apply andb_true_iff in X as (X & _). cbn in S. congruence.
    - cbn [forallb] in X, Y. apply andb_true_iff in X as (_ & X). apply andb_true_iff in Y as (_ & Y).
      apply cons_eq in E as (-> & E). apply IH in E as (-> & ->); auto. }
  intros x y r s X Y. destruct x as [|c x]; [discriminate|]. destruct y as [|d y]; [discriminate|].
  now apply G.
Qed.

Lemma separated_unique : forall p q r s, forallb word p = true -> forallb word q = true ->
  separated (text ", ") p ++ text ")" ++ r = separated (text ", ") q ++ text ")" ++ s ->
  p = q /\ r = s.
Proof.
  induction p as [|x p IH]; intros q r s P Q E.
  - destruct q as [|y q].
    + apply app_inv_head, app_inv_head in E. auto.
    + exfalso. cbn [forallb] in Q. apply andb_true_iff in Q as (Y & _).
      apply word_begins in Y. destruct y as [|c y]; [discriminate|]. cbn [begins_word] in Y.
      apply (f_equal (hd 0)) in E. destruct q; cbn in E; subst c; discriminate.
  - cbn [forallb] in P. apply andb_true_iff in P as (X & P). destruct q as [|y q].
    + exfalso. apply word_begins in X. destruct x as [|c x]; [discriminate|]. cbn [begins_word] in X.
      apply (f_equal (hd 0)) in E. destruct p; cbn in E; subst c; discriminate.
    + cbn [forallb] in Q. apply andb_true_iff in Q as (Y & Q). cbn [separated] in E.
      destruct p as [|x' p], q as [|y' q]; rewrite <- ?app_assoc in E;
        apply word_unique in E as (-> & E); auto.
      * apply app_inv_head in E. auto.
      * discriminate E.
      * discriminate E.
      * apply app_inv_head in E. apply IH in E as (-> & ->); auto.
Qed.

(** The name of a definition and what follows it *)
Lemma definition_shape : forall l a, definition l a -> exists r, word (macro_id a) = true
  /\ l = text "#define " ++ macro_id a ++ r /\ begins_word r = false
  /\ ((r = [] /\ parameters a = None /\ replacement a = [])
      \/ (exists body, r = text " " ++ body /\ parameters a = None /\ replacement a = tokens body)
      \/ (exists ps body, r = text "(" ++ separated (text ", ") ps ++ text ")" ++ text " " ++ body
          /\ forallb word ps = true /\ parameters a = Some ps /\ replacement a = tokens body)).
Proof.
  intros l a [x X|x body X|x ps body X P]; cbn [macro_id parameters replacement].
  - exists []. rewrite app_nil_r. repeat split; auto.
  - exists (text " " ++ body). repeat split; auto. right. left. exists body. auto.
  - exists (text "(" ++ separated (text ", ") ps ++ text ") " ++ body). repeat split; auto.
    right. right. exists ps, body. auto.
Qed.

Lemma definition_unique : forall l a b, definition l a -> definition l b -> a = b.
Proof.
  intros l a b A B. apply definition_shape in A as (r & W & -> & R & A).
  apply definition_shape in B as (s & V & E & S & B). apply app_inv_head in E.
  apply word_unique in E as (I & E); auto. destruct a as [x p c], b as [y q d].
  cbn [macro_id parameters replacement] in *. subst y s.
  destruct A as [(-> & -> & ->)|[(u & -> & -> & ->)|(ps & u & -> & P & -> & ->)]];
    destruct B as [(E & -> & ->)|[(v & E & -> & ->)|(qs & v & E & Q & -> & ->)]];
    try discriminate E; auto.
  - apply app_inv_head in E. subst. reflexivity.
  - apply app_inv_head in E. apply separated_unique in E as (-> & E); auto.
    apply app_inv_head in E. subst. reflexivity.
Qed.

Lemma last_space : forall u v a b, ~ In 32 u -> ~ In 32 v -> a ++ 32 :: u = b ++ 32 :: v ->
  a = b /\ u = v.
Proof.
  intros u v. revert u v.
  assert (G : forall u v a b : str, ~ In 32 u -> ~ In 32 v -> u ++ 32 :: a = v ++ 32 :: b ->
    u = v /\ a = b).
  { induction u as [|c u IH]; intros [|d v] a b U V E; cbn [app] in E; apply cons_eq in E as (E1 & E).
    - auto.
    - exfalso. apply V. left. auto.
    - exfalso. apply U. left. auto.
    - subst d. apply IH in E as (-> & ->); auto; intro I; [apply U|apply V]; now right. }
  intros u v a b U V E. apply (f_equal (@rev Z)) in E. rewrite !rev_app_distr in E. cbn [rev] in E.
  rewrite <- !app_assoc in E. cbn [app] in E.
  apply G in E as (E & F); [|rewrite <- in_rev; exact U|rewrite <- in_rev; exact V].
  apply (f_equal (@rev Z)) in E, F. rewrite !rev_involutive in E, F. auto.
Qed.

Lemma print_no_space : forall k, ~ In 32 (print_number k).
Proof.
  intros k I. pose proof (print_int_chars k) as H. rewrite Forall_forall in H. specialize (H _ I).
  unfold number_char in H. cbn in H. destruct H as [H|H]; [unfold digit_char in H; slia|slia].
Qed.

Lemma condition_unique : forall ms l b c, NoDup (map macro_id ms) ->
  condition ms l b -> condition ms l c -> b = c.
Proof.
  intros ms l b c N B C. destruct B as [x D|x D|x D|x D|x n k I];
    inversion C as [y D' E|y D' E|y D' E|y D' E|y n' k' I' E]; try discriminate E; try reflexivity;
    try (subst y; contradiction).
  change (y ++ ([32; 62] ++ 32 :: print_number k') = x ++ ([32; 62] ++ 32 :: print_number k)) in E.
  rewrite !app_assoc in E.
  apply last_space in E as (E & F); [|apply print_no_space|apply print_no_space].
  apply print_int_inj in F. subst k'. apply app_inv_tail in E. subst y.
  destruct (one_macro ms N _ _ _ _ _ I I') as (_ & F). injection F as F. apply print_int_inj in F.
  subst. reflexivity.
Qed.

Lemma closed_unique : forall a, closed a -> forall b r s, closed b ->
  a ++ text "#endif" :: r = b ++ text "#endif" :: s -> a = b /\ r = s.
Proof.
  assert (X : opens (text "#endif") = false) by reflexivity.
  assert (Y : begins (text "#endif") (text "#endif") = true) by reflexivity.
  intros a A. induction A as [|l ls O E A IH|l body ls O P IHp A IH]; intros b r s B F;
    destruct B as [|k ks O' E' B|k body' ks O' P' B]; cbn [app] in F; apply cons_eq in F as (F1 & F);
    try (subst; congruence).
  - auto.
  - subst k. apply IH in F as (-> & ->); auto.
  - subst k. rewrite <- !app_assoc in F. cbn [app] in F. apply IHp in F as (-> & F); [|exact P'].
    apply IH in F as (-> & ->); auto.
Qed.

(** The kind of a line *)
Definition kind (l : str) : Z :=
  if negb (begins (text "#") l) then 0
  else if begins (text "#include <") l then 1
  else if begins (text "#define ") l then 2
  else if begins (text "#  error ") l then 3
  else 4.

Lemma kind_line : forall l, begins (text "#") l = false -> kind l = 0.
Proof. intros l H. unfold kind. rewrite H. reflexivity. Qed.
Lemma kind_include : forall l, begins (text "#include <") l = true -> kind l = 1.
Proof.
  intros l H. unfold kind. rewrite H. destruct l as [|c l]; [discriminate|].
  change (begins (text "#") (c :: l)) with ((35 =? c) && true).
  change (begins (text "#include <") (c :: l)) with ((35 =? c) && begins (text "include <") l) in H.
  apply andb_true_iff in H as (H & _). rewrite H. reflexivity.
Qed.
Lemma kind_define : forall l m, definition l m -> kind l = 2.
Proof. intros l m H. destruct H; reflexivity. Qed.
Lemma kind_error : forall e, kind (text "#  error " ++ e) = 3.
Proof. reflexivity. Qed.
Lemma kind_condition : forall ms l b, condition ms l b -> kind l = 4.
Proof. intros ms l b H. destruct H; reflexivity. Qed.

Lemma scan_one : forall ms ls o, scan ms ls o -> NoDup (map macro_id ms) ->
  forall o', scan ms ls o' -> o = o'.
Proof.
  intros ms ls o H. induction H as [ms|ms l ls o L H IH|ms l ls o L H IH|ms l m ls o L D H IH
    |ms e ls|ms l body ls o L B H IH|ms l body ls o L B H IH]; intros N o' W;
    inversion W as [|? l' ls' o2 L' W' E|? l' ls' o2 L' W'|? l' m' ls' o2 L' D' W'
      |? e' ls'|? l' body' ls' o2 L' B' W'|? l' body' ls' o2 L' B' W']; subst;
    repeat match goal with
    | K : begins (text "#") _ = false |- _ => apply kind_line in K
    | K : begins (text "#include <") _ = true |- _ => apply kind_include in K
    end;
    try pose proof (kind_define _ _ L); try pose proof (kind_define _ _ L');
    try pose proof (kind_condition _ _ _ L); try pose proof (kind_condition _ _ _ L');
    try (exfalso; rewrite ?kind_error in *; congruence);
    try (match goal with K : kind (_ :: _) = _ |- _ => solve [cbv in K; discriminate K] end).
  - reflexivity.
  - f_equal. now apply IH.
  - now apply IH.
  - pose proof (definition_unique _ _ _ L L') as <-. apply IH; [|exact W'].
    rewrite map_app. cbn [map]. apply (NoDup_Add (Add_app (macro_id m) (map macro_id ms) [])).
    rewrite app_nil_r. auto.
  - reflexivity.
  - match goal with Q : body' ++ _ = _ |- _ => apply closed_unique in Q as (-> & ->); auto end.
  - pose proof (condition_unique _ _ _ _ N L L') as X. discriminate X.
  - pose proof (condition_unique _ _ _ _ N L L') as X. discriminate X.
  - match goal with Q : body' ++ _ = _ |- _ => apply closed_unique in Q as (-> & ->); auto end.
Qed.
