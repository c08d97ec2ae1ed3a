(** C59: the parser of example/meta_hs. *)

From Coq Require Import ZArith List Bool Lia.
From Verif Require Import Base Util Combinators Variadic Parsers Deep Messages Grammar Calculator MetaHs
  Spec SpecGrammar SpecCalc SpecExamples SpecHs Proofs_Fold Proofs_Hs Proofs_Hs2.
Import ListNotations.
Open Scope Z_scope.

Local Definition c11 := default_config Std11.

(** ** Concrete readings *)

Ltac a_char := cbv; clear; intuition (try discriminate; try congruence).
Ltac a_space := repeat (apply Forall_cons; [a_char|]); apply Forall_nil.
Ltac lexeme u := exists u; split; [reflexivity|split; [a_space|a_char]].
Ltac name_ u :=
  exists u; split; [reflexivity|split; [do 2 eexists; split; [reflexivity|split; [a_char|vm_compute; a_space]]|
    split; [a_char|split; [a_space|split; a_char]]]].
Ltac key u := exists u; split; [reflexivity|split; [a_space|split; [a_char|right; a_char]]].
Ltac number_ ds u :=
  apply (et_num _ ds u); split; [reflexivity|split; [split; [discriminate|vm_compute; a_space]|
    split; [a_space|split; a_char]]].

Definition times11_def : hdef :=
  {| d_name := text "times11"; d_params := [text "n"];
     d_body := HOp BMul (HVar (text "n")) (HVar (text "val")) |}.

Example C59_reading : dtext plain times11_def (text "times11 n = n * val").
Proof.
  exists (text "n = n * val"), (text "= n * val"), (text "n * val").
  split; [name_ (text " ")|]. split; [eapply pt_cons; [name_ (text " ")|apply pt_nil]|].
  split; [lexeme (text " ")|]. do 2 (apply et_up; [lia|]).
  apply (et_op plain BMul 1 _ _ _ (text "* val") (text "val")); [reflexivity|discriminate| | |].
  - do 2 (apply et_up; [lia|]). apply et_var; [name_ (text " ")|]. intros (r & E). discriminate.
  - lexeme (text " ").
  - apply et_up; [lia|]. apply et_var; [name_ (@nil char)|]. intros (r & E). discriminate.
Qed.

(** ** C59 *)

(** A definition that is written as documented, without names starting with [if] and
    without /=, is added to the environment: its name and its tree. *)
Theorem C59_complete : forall cfg n s env d, cfg_std cfg <> Std98 -> (length s < n)%nat ->
  dtext plain d s -> literals_ok (d_body d) ->
  define cfg n s env = Ok ((d_name d, def_tree d) :: env).
Proof. intros. apply define_complete; auto. Qed.
Print Assumptions C59_complete.

Example C59_complete_example : forall env,
  define c11 100 (text "times11 n = n * val") env =
  Ok ((text "times11", ATop (ALam (AApp (AApp (ARef (text ".*.")) (ARef (text "n"))) (ARef (text "val")))
        (text "n"))) :: env).
Proof.
  intros env. apply (C59_complete c11 100 _ env times11_def); [discriminate|simpl; lia|apply C59_reading|simpl; auto].
Qed.

(** With a number that is no [int] the parser cannot be instantiated. *)
Theorem C59_large_number : forall cfg n s env d, cfg_std cfg <> Std98 -> (length s < n)%nat ->
  dtext plain d s -> ~ literals_ok (d_body d) ->
  build_parser (eval cfg hs_program n def_parser) s = BuildIllformed /\ define cfg n s env = Ill.
Proof.
  intros cfg n s env d H L T Lo. pose proof (define_bad_literal cfg H n s d T Lo L) as B.
  split; auto. unfold define. unfold hev in B. rewrite B. auto.
Qed.
Print Assumptions C59_large_number.

Local Definition large_def : hdef :=
  {| d_name := text "x"; d_params := []; d_body := HNum (text "9999999999") |}.
Example C59_large_number_example : dtext plain large_def (text "x=9999999999") /\ ~ literals_ok (d_body large_def).
Proof.
  split.
  - exists (text "=9999999999"), (text "=9999999999"), (text "9999999999").
    split; [name_ (@nil char)|]. split; [apply pt_nil|]. split; [lexeme (@nil char)|].
    do 4 (apply et_up; [lia|]). number_ (text "9999999999") (@nil char).
  - cbv. intuition congruence.
Qed.

(** Whatever is added is a definition, if [if] may be followed by anything: no /=. *)
Theorem C59_sound : forall cfg n s env env', cfg_std cfg <> Std98 -> (length s < n)%nat ->
  define cfg n s env = Ok env' ->
  exists d, dtext run_on d s /\ literals_ok (d_body d) /\ env' = (d_name d, def_tree d) :: env.
Proof. intros cfg n s env env' H L E. eapply define_sound; eauto. Qed.
Print Assumptions C59_sound.

(** Both together, for texts in which a word ends after the letters if and
    without /=: exactly the documented language. *)
Theorem C59_exact : forall cfg n s env env', cfg_std cfg <> Std98 -> (length s < n)%nat ->
  if_separate s -> without_ne s ->
  (define cfg n s env = Ok env' <->
   exists d, dtext documented d s /\ literals_ok (d_body d) /\ env' = (d_name d, def_tree d) :: env).
Proof.
  intros cfg n s env env' H L S W. split.
  - intros E. destruct (C59_sound _ _ _ _ _ H L E) as (d & T & Lo & Ee). exists d. splits; auto.
    apply plain_documented. apply separate_plain; auto.
  - intros (d & T & Lo & ->). apply C59_complete; auto. apply documented_plain; auto.
Qed.
Print Assumptions C59_exact.

Local Lemma separate_check : forall s,
  (forall k, match firstn 3 (skipn k s) with
             | [105; 102; c] => ~ name_char c | _ => True end) -> if_separate s.
Proof.
  intros s H u v ->. specialize (H (length u)). rewrite skipn_app, skipn_all, Nat.sub_diag in H.
  destruct v as [|c v]; simpl in *; auto.
Qed.
Example C59_exact_example : if_separate (text "times11 n = n * val") /\ without_ne (text "times11 n = n * val").
Proof.
  split.
  - apply separate_check. intros k. do 20 (destruct k as [|k]; [exact Logic.I|]). destruct k; exact Logic.I.
  - intros u v E. do 19 (destruct u as [|? u]; [discriminate|injection E as _ E]). destruct u; discriminate.
Qed.

(** A text has one meaning at most. *)
Theorem C59_unambiguous : forall d d' s, dtext plain d s -> dtext plain d' s ->
  literals_ok (d_body d) -> literals_ok (d_body d') -> d_name d = d_name d' /\ def_tree d = def_tree d'.
Proof.
  intros d d' s T T' Lo Lo'. assert (L : (length s < S (length s))%nat) by lia.
  assert (H : cfg_std c11 <> Std98) by discriminate.
  pose proof (C59_complete c11 _ s [] d H L T Lo) as A. pose proof (C59_complete c11 _ s [] d' H L T' Lo') as B.
  rewrite A in B. split; congruence.
Qed.
Print Assumptions C59_unambiguous.

(** With enough instantiation depth there is always an answer. *)
Theorem C59_verdict : forall cfg n s env, (2 * length s + 3 < n)%nat -> define cfg n s env <> Deep.
Proof. exact define_terminates. Qed.
Print Assumptions C59_verdict.

(** The language is not the documented one: a name that starts with [if] is taken
    for a conditional if it can be ... *)
Theorem C59_run_on_refuted : exists s env',
  define c11 100 s [] = Ok env' /\ forall d, ~ dtext documented d s.
Proof.
  exists (text "f n = iffy then 1 else 2"). eexists. split; [vm_compute; reflexivity|].
  intros d (s1 & s2 & s3 & A & B & C & D).
  assert (E1 : s1 = text "n = iffy then 1 else 2").
  { refine (proj2 (name_text_unique _ (text "f") _ _ _ A _)). name_ (text " "). }
  subst s1. inversion B as [|x xs s0 s1 t Nm B']; subst.
  - destruct C as (u & E & _). discriminate.
  - assert (E2 : s1 = text "= iffy then 1 else 2").
    { refine (proj2 (name_text_unique _ (text "n") _ _ _ Nm _)). name_ (text " "). }
    subst s1. inversion B' as [|x' xs' s0 s1 t Nm' B'']; subst.
    + destruct C as (u & E & Fu & Ns). injection E as E.
      assert (E3 : s3 = text "iffy then 1 else 2").
      { destruct u as [|c u].
        - exfalso. cbn [app] in E. rewrite <- E in Ns. apply Ns. a_char.
        - injection E as <- E. destruct u as [|c2 u]; [auto|]. injection E as <- _.
          exfalso. inversion Fu as [|? ? _ F']; subst. inversion F' as [|? ? G _]; subst. revert G. a_char. }
      subst s3.
      assert (N : name_text (text "iffy") (text "iffy then 1 else 2") (text "then 1 else 2")) by name_ (text " ").
      pose proof (name_alone _ _ _ _ _ D eq_refl _ _ N) as X. discriminate X.
      apply (then_else_fol (text "then") (text " 1 else 2")); auto. a_char.
    + destruct Nm' as (u & E & (c & v & -> & Cc & _) & _). injection E as <- _. revert Cc. a_char.
Qed.
Print Assumptions C59_run_on_refuted.

(** ... and then a documented definition may be rejected. *)
Theorem C59_if_names_refuted : exists s d,
  dtext documented d s /\ literals_ok (d_body d) /\ forall env, define c11 100 s env = Ill.
Proof.
  exists (text "f iffy = if iffy then 1 else 2").
  exists {| d_name := text "f"; d_params := [text "iffy"];
            d_body := HIf (HVar (text "iffy")) (HNum (text "1")) (HNum (text "2")) |}.
  splits.
  - exists (text "iffy = if iffy then 1 else 2"), (text "= if iffy then 1 else 2"), (text "if iffy then 1 else 2").
    split; [name_ (text " ")|]. split; [eapply pt_cons; [name_ (text " ")|apply pt_nil]|].
    split; [lexeme (text " ")|]. do 4 (apply et_up; [lia|]).
    apply (et_if documented _ _ _ _ (text "iffy then 1 else 2") (text "then 1 else 2") (text "1 else 2")
             (text "else 2") (text "2")).
    + key (text " ").
    + do 4 (apply et_up; [lia|]). apply et_var; [name_ (text " ")|exact Logic.I].
    + key (text " ").
    + do 4 (apply et_up; [lia|]). number_ (text "1") (text " ").
    + key (text " ").
    + do 4 (apply et_up; [lia|]). number_ (text "2") (@nil char).
    + left. exact Logic.I.
  - simpl. cbv. intuition congruence.
  - intros env. vm_compute. reflexivity.
Qed.
Print Assumptions C59_if_names_refuted.

(** The operator /= is documented and imported but cannot be used. *)
Theorem C59_not_equal_refuted : exists s d,
  dtext documented d s /\ literals_ok (d_body d) /\ if_separate s /\ forall env, define c11 100 s env = Ill.
Proof.
  exists (text "f n = n /= 2").
  exists {| d_name := text "f"; d_params := [text "n"];
            d_body := HOp BNe (HVar (text "n")) (HNum (text "2")) |}.
  splits.
  - exists (text "n = n /= 2"), (text "= n /= 2"), (text "n /= 2").
    split; [name_ (text " ")|]. split; [eapply pt_cons; [name_ (text " ")|apply pt_nil]|].
    split; [lexeme (text " ")|].
    apply (et_op documented BNe 3 _ _ _ (text "/= 2") (text "2")); [reflexivity|exact Logic.I| | |].
    + do 4 (apply et_up; [lia|]). apply et_var; [name_ (text " ")|exact Logic.I].
    + lexeme (text " ").
    + do 3 (apply et_up; [lia|]). number_ (text "2") (@nil char).
  - simpl. cbv. intuition congruence.
  - apply separate_check. intros k. do 13 (destruct k as [|k]; [exact Logic.I|]). destruct k; exact Logic.I.
  - intros env. vm_compute. reflexivity.
Qed.
Print Assumptions C59_not_equal_refuted.

(** The definitions of the example *)
Example C59_metafunctions : exists env,
  metafunctions c11 100 = Ok env /\ map fst (firstn 4 env) = [text "times11"; text "times4"; text "fact"; text "fib"].
Proof. eexists. split; vm_compute; reflexivity. Qed.
