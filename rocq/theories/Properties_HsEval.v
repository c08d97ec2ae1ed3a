(** C60 to C62: the evaluation of the programs of example/meta_hs. *)

From Coq Require Import ZArith List Bool Lia.
From Verif Require Import Base Util Combinators Variadic Parsers Deep Messages Grammar Calculator MetaHs
  Spec SpecGrammar SpecCalc SpecExamples SpecHs SpecHsEval Proofs_Fold Proofs_HsEval Proofs_HsEval2
  Properties_Hs.
Import ListNotations.
Open Scope Z_scope.

Local Definition c11 := default_config Std11.

(** ** Concrete programs *)

Ltac a_word := do 2 eexists; split; [reflexivity|split; [a_char|vm_compute; a_space]].
Ltac all_words :=
  repeat match goal with
  | |- _ /\ _ => split
  | |- True => exact Logic.I
  | |- Forall word [] => apply Forall_nil
  | |- Forall word (_ :: _) => apply Forall_cons
  | |- word _ => a_word
  end.
Ltac all_named :=
  let H := fresh in
  intros ? ? H; repeat (destruct H as [H|H]; [injection H as <- <-; cbn [words_in]; all_words|]); destruct H.

Lemma example_named : well_named example_code.
Proof. unfold example_code. all_named. Qed.
Ltac other_name := let E := fresh in intros E; cbn in E; decompose sum E; discriminate.
Ltac plain_part := match goal with
  | |- True => exact Logic.I
  | |- In _ _ \/ _ => first [left; cbn; tauto | right; discriminate]
  | |- _ => first [left; cbn; tauto
      | right; left; split; [other_name|do 3 eexists; reflexivity]
      | right; right; split; [other_name|eexists; reflexivity]]
  end.
Ltac all_plain :=
  let H := fresh in
  intros ? ? H; repeat (destruct H as [H|H];
    [injection H as <- <-; first [exact Logic.I|cbn [unwrapped bound computed template_call function_name];
       split; [discriminate|splits; plain_part]]|]); destruct H.

Lemma example_unwrapped : unwrapped_program example_code.
Proof. unfold example_code. all_plain. Qed.

(** ** C60: the meaning of a program *)

(** [builder::get] and the applications after it have a value exactly if the rules
    for wrapped values give it. *)
Theorem C60_exact : forall users P x zs z, well_named P -> word x ->
  ((exists n, call users n (program_env P) x zs = Ok z) <-> library_call users P x zs z).
Proof.
  intros users P x zs z N W. split.
  - intros (n & H). eapply call_sound; eauto.
  - intros H. destruct (call_complete _ _ N _ _ _ W H) as (n & Hn). exists n. apply Hn. lia.
Qed.
Print Assumptions C60_exact.

Example C60_exact_example : well_named example_code /\ word (text "times11")
  /\ call example_users 50 (program_env example_code) (text "times11") [7] = Ok 77
  /\ call example_users 50 (program_env example_code) (text "times11") [2147483647] = Ill.
Proof. split; [exact example_named|]. split; [a_word|]. split; vm_compute; reflexivity. Qed.

(** The value is the one the program has when evaluated by name: arguments are not
    evaluated before they are used, definitions see each other. *)
Theorem C60_sound : forall users P n x zs z, well_named P -> word x ->
  call users n (program_env P) x zs = Ok z -> call_means users P x zs z.
Proof. intros users P n x zs z N W H. apply erase_call. eapply call_sound; eauto. Qed.
Print Assumptions C60_sound.

(** A program gives one value. *)
Theorem C60_one_value : forall users P x zs z z',
  call_means users P x zs z -> call_means users P x zs z' -> z = z'.
Proof. intros. eapply call_unique; eauto. Qed.
Print Assumptions C60_one_value.

(** A larger depth of instantiation changes nothing but [Deep]. *)
Theorem C60_depth : forall users n n' env x zs, (n <= n')%nat ->
  call users n env x zs <> Deep -> call users n' env x zs = call users n env x zs.
Proof. intros users n n' env x zs L H. destruct (call_below users n n' env x zs L) as [E|E]; congruence. Qed.
Print Assumptions C60_depth.

Example C60_depth_example :
  call example_users 5 (program_env example_code) (text "fib") [6] = Deep
  /\ call example_users 100 (program_env example_code) (text "fib") [6] = Ok 13.
Proof. split; vm_compute; reflexivity. Qed.

(** Definitions given as texts. *)
Theorem C60_texts : forall cfg n l P env, cfg_std cfg <> Std98 -> Forall (fun s => length s < n)%nat l ->
  define_all cfg n l (program_env P) = Ok env ->
  exists ds, Forall2 (dtext run_on) ds l /\ Forall (fun d => literals_ok (d_body d)) ds
    /\ env = program_env (rev (map def_of ds) ++ P)
    /\ (well_named P -> well_named (rev (map def_of ds) ++ P)).
Proof.
  intros cfg n l P env H L. revert P env. induction L as [|s l Ls L IH]; intros P env D; cbn [define_all] in D.
  - injection D as <-. exists []. splits; [constructor|constructor|reflexivity|auto].
  - apply bind_ok in D as (env1 & D1 & D2).
    apply C59_sound in D1 as (d & T & Lo & ->); auto.
    change ((d_name d, def_tree d) :: program_env P) with (program_env (def_of d :: P)) in D2.
    destruct (IH _ _ D2) as (ds & F & Lo' & -> & N). exists (d :: ds). cbn [map rev]. rewrite <- !app_assoc. cbn [app].
    splits; try (constructor; auto; fail); auto. intros NP. apply N.
    intros x g [E|I]; [|apply NP, I]. injection E as <- <-.
    destruct (dtext_words _ _ _ T) as (W1 & W2 & W3). auto.
Qed.
Print Assumptions C60_texts.

Theorem C60_texts_defined : forall cfg n l P ds, cfg_std cfg <> Std98 -> Forall (fun s => length s < n)%nat l ->
  Forall2 (dtext plain) ds l -> Forall (fun d => literals_ok (d_body d)) ds ->
  define_all cfg n l (program_env P) = Ok (program_env (rev (map def_of ds) ++ P)).
Proof.
  intros cfg n l P ds H L F. revert P L. induction F as [|d s ds l T F IH]; intros P L Lo; cbn [define_all]; auto.
  inversion L; subst. inversion Lo; subst.
  rewrite (C59_complete cfg n s _ d); auto. cbn [bind_res map rev]. rewrite <- app_assoc. cbn [app].
  change ((d_name d, def_tree d) :: program_env P) with (program_env (def_of d :: P)). auto.
Qed.
Print Assumptions C60_texts_defined.

(** ** C61: programs with a value that get one *)

(** In a program whose definitions have parameters, whose names are all defined and
    which gives functions only computed arguments or names of functions, the
    library computes every value the program has. *)
Theorem C61_complete : forall users P x zs z, well_named P -> unwrapped_program P -> word x ->
  call_means users P x zs z ->
  exists N, forall n, (N <= n)%nat -> call users n (program_env P) x zs = Ok z.
Proof. intros users P x zs z N U W H. apply call_complete; auto. apply wrap_call; auto. Qed.
Print Assumptions C61_complete.

Theorem C61_exact : forall users P x zs z, well_named P -> unwrapped_program P -> word x ->
  ((exists n, call users n (program_env P) x zs = Ok z) <-> call_means users P x zs z).
Proof.
  intros users P x zs z N U W. split.
  - intros (n & H). eapply C60_sound; eauto.
  - intros H. destruct (C61_complete _ _ _ _ _ N U W H) as (n & Hn). exists n. apply Hn. lia.
Qed.
Print Assumptions C61_exact.

(** a function that applies a function twice, used with names of functions *)
Definition twice_code : hs_code :=
  let x := HVar (text "x") in
  [(text "main", GFun [text "x"] (HCall (HCall (HVar (text "twice")) (HVar (text "inc"))) (HOp BMul x x)));
   (text "twice", GFun [text "g"; text "x"] (HCall (HVar (text "g")) (HCall (HVar (text "g")) (HOp BAdd x (HNum (text "0"))))));
   (text "inc", GFun [text "x"] (HOp BAdd x (HNum (text "1"))))].
Example C61_exact_example : well_named twice_code /\ unwrapped_program twice_code
  /\ call example_users 60 (program_env twice_code) (text "main") [5] = Ok 27.
Proof.
  split; [unfold twice_code; all_named|]. split; [|vm_compute; reflexivity].
  unfold twice_code. all_plain.
Qed.

(** Not every program that has a value gets it.  A parameter given on as it is ... *)
Definition handing_code : hs_code :=
  [(text "h", GFun [text "n"] (HCall (HVar (text "g")) (HVar (text "n"))));
   (text "k", GFun [text "n"] (HCall (HVar (text "g")) (HNum (text "3"))));
   (text "g", GFun [text "x"] (HOp BAdd (HVar (text "x")) (HNum (text "1"))))].

Lemma handing_means : call_means example_users handing_code (text "h") [3] 4
  /\ call_means example_users handing_code (text "k") [3] 4.
Proof.
  assert (M : op_means BAdd 3 1 (NInt 4)) by (apply (om_add 3 1); unfold is_int; lia).
  split.
  - apply (call_one _ _ _ (text "n") (HCall (HVar (text "g")) (HVar (text "n")))); [reflexivity|].
    apply (call_iff _ _ _ _ (text "x") (HOp BAdd (HVar (text "x")) (HNum (text "1")))); try reflexivity.
    apply op_iff. exists 3, 1. splits; [|apply num_iff; reflexivity|exact M].
    eapply param_iff; [reflexivity|]. constructor. eapply param_iff; [reflexivity|]. constructor.
  - apply (call_one _ _ _ (text "n") (HCall (HVar (text "g")) (HNum (text "3")))); [reflexivity|].
    apply (call_iff _ _ _ _ (text "x") (HOp BAdd (HVar (text "x")) (HNum (text "1")))); try reflexivity.
    apply op_iff. exists 3, 1. splits; [|apply num_iff; reflexivity|exact M].
    eapply param_iff; [reflexivity|]. constructor. apply num_iff. reflexivity.
Qed.

Theorem C61_parameter_refuted : exists P x zs z, well_named P /\ word x
  /\ call_means example_users P x zs z
  /\ forall n, (20 <= n)%nat -> call example_users n (program_env P) x zs = Ill.
Proof.
  exists handing_code, (text "h"), [3], 4.
  split; [unfold handing_code; all_named|]. split; [a_word|]. split; [apply handing_means|].
  intros n L.
  assert (E : call example_users 20 (program_env handing_code) (text "h") [3] = Ill) by (vm_compute; reflexivity).
  rewrite <- E. apply C60_depth; auto. congruence.
Qed.
Print Assumptions C61_parameter_refuted.

(** ... and a literal is wrapped twice. *)
Theorem C61_literal_refuted : exists P x zs z, well_named P /\ word x
  /\ call_means example_users P x zs z
  /\ forall n, (20 <= n)%nat -> call example_users n (program_env P) x zs = Ill.
Proof.
  exists handing_code, (text "k"), [3], 4.
  split; [unfold handing_code; all_named|]. split; [a_word|]. split; [apply handing_means|].
  intros n L.
  assert (E : call example_users 20 (program_env handing_code) (text "k") [3] = Ill) by (vm_compute; reflexivity).
  rewrite <- E. apply C60_depth; auto. congruence.
Qed.
Print Assumptions C61_literal_refuted.

(** A definition without parameters that refers to itself cannot be instantiated
    although it has a value. *)
Definition knot_code : hs_code :=
  [(text "k", GFun [] (HIf (HOp BLt (HNum (text "1")) (HNum (text "2"))) (HNum (text "1")) (HVar (text "k"))))].

Lemma knot_bind : forall n,
  bind n (program_env knot_code) (program_env knot_code) (ARef (text "k")) = Deep
  /\ bind n (program_env knot_code) (program_env knot_code)
       (gtree (snd (hd (text "k", GInt 0) knot_code))) = Deep.
Proof.
  set (top := program_env knot_code).
  induction n as [n IH] using (well_founded_induction Wf_nat.lt_wf).
  assert (B : bind n top top (gtree (snd (hd (text "k", GInt 0) knot_code))) = Deep).
  { destruct n as [|[|n]]; [reflexivity|reflexivity|].
    assert (K := proj1 (IH n ltac:(lia))).
    cbn [hd knot_code snd gtree lambdas tree].
    set (f := AApp (AApp (AValue (KCurry TIf [])) _) _).
    assert (F : exists c, bind 20 top top f = Ok c) by (eexists; vm_compute; reflexivity).
    assert (N : bind n top top f <> Ill).
    { destruct F as (c & F). intros N. destruct (le_lt_dec n 20) as [L|L].
      - destruct (bind_below n 20 top top f L); congruence.
      - destruct (bind_below 20 n top top f ltac:(lia)); congruence. }
    change (bind (S (S n)) top top (ATop (AApp f (ARef (text "k")))))
      with (bind_res (bind n top top f) (fun f' =>
              bind_res (bind n top top (ARef (text "k"))) (fun b' => Ok (KApp f' b')))).
    rewrite K. destruct (bind n top top f); [reflexivity|congruence|reflexivity]. }
  split; auto. destruct n as [|n]; [reflexivity|]. exact (proj2 (IH n ltac:(lia))).
Qed.

Theorem C61_endless_refuted : exists P x z, well_named P /\ word x
  /\ call_means example_users P x [] z
  /\ forall n, call example_users n (program_env P) x [] = Deep.
Proof.
  exists knot_code, (text "k"), 1.
  split; [unfold knot_code; all_named|]. split; [a_word|]. split.
  - exists (NInt 1). split; [|constructor]. eapply ev_expression; try reflexivity.
    apply if_iff. exists (NBool true), true. splits; [|constructor|apply num_iff; reflexivity].
    apply op_iff. exists 1, 2. splits; [apply num_iff; reflexivity|apply num_iff; reflexivity|apply lt_have].
  - intros n. unfold call, get.
    assert (L : lookup (text "k") (program_env knot_code) = Some (gtree (snd (hd (text "k", GInt 0) knot_code)))) by reflexivity.
    rewrite L, (proj2 (knot_bind n)). reflexivity.
Qed.
Print Assumptions C61_endless_refuted.

(** ** C62: the metafunctions of the example *)

Definition fib_def : hdef :=
  {| d_name := text "fib"; d_params := [text "n"]; d_body := fib_body |}.
Definition fact_def : hdef :=
  {| d_name := text "fact"; d_params := [text "n"]; d_body := fact_body |}.
Definition times4_def : hdef :=
  {| d_name := text "times4"; d_params := [text "n"];
     d_body := HCall (HVar (text "f")) (HCall (HVar (text "f")) (HVar (text "n"))) |}.

Tactic Notation "up" integer(k) := do k (apply et_up; [lia|]).
Ltac var_ u := apply et_var; [name_ u|intros (? & E); discriminate E].

Lemma fib_text : dtext plain fib_def (text "fib n = if n<2 then 1 else fib(n-2) + fib(n-1)").
Proof.
  exists (text "n = if n<2 then 1 else fib(n-2) + fib(n-1)"), (text "= if n<2 then 1 else fib(n-2) + fib(n-1)"),
    (text "if n<2 then 1 else fib(n-2) + fib(n-1)").
  split; [name_ (text " ")|]. split; [eapply pt_cons; [name_ (text " ")|apply pt_nil]|].
  split; [lexeme (text " ")|]. up 4.
  apply (et_if plain _ _ _ _ (text "n<2 then 1 else fib(n-2) + fib(n-1)") (text "then 1 else fib(n-2) + fib(n-1)")
     (text "1 else fib(n-2) + fib(n-1)") (text "else fib(n-2) + fib(n-1)") (text "fib(n-2) + fib(n-1)")).
  - key (text " ").
  - apply (et_op plain BLt 3 _ _ _ (text "<2 then 1 else fib(n-2) + fib(n-1)") (text "2 then 1 else fib(n-2) + fib(n-1)"));
      [reflexivity|discriminate| | |].
    + up 4. var_ (@nil char).
    + lexeme (@nil char).
    + up 3. number_ (text "2") (text " ").
  - key (text " ").
  - up 4. number_ (text "1") (text " ").
  - key (text " ").
  - up 1. apply (et_op plain BAdd 2 _ _ _ (text "+ fib(n-1)") (text "fib(n-1)")); [reflexivity|discriminate| | |].
    + up 2. apply (et_call plain _ _ _ (text "(n-2) + fib(n-1)")); [up 1; var_ (@nil char)|].
      apply (et_paren plain _ _ (text "n-2) + fib(n-1)") (text ") + fib(n-1)")); [lexeme (@nil char)| |lexeme (text " ")].
      up 1. apply (et_op plain BSub 2 _ _ _ (text "-2) + fib(n-1)") (text "2) + fib(n-1)")); [reflexivity|discriminate| | |].
      * up 3. var_ (@nil char).
      * lexeme (@nil char).
      * up 2. number_ (text "2") (@nil char).
    + lexeme (text " ").
    + up 1. apply (et_call plain _ _ _ (text "(n-1)")); [up 1; var_ (@nil char)|].
      apply (et_paren plain _ _ (text "n-1)") (text ")")); [lexeme (@nil char)| |lexeme (@nil char)].
      up 1. apply (et_op plain BSub 2 _ _ _ (text "-1)") (text "1)")); [reflexivity|discriminate| | |].
      * up 3. var_ (@nil char).
      * lexeme (@nil char).
      * up 2. number_ (text "1") (@nil char).
  - left. exact Logic.I.
Qed.
Lemma fact_text : dtext plain fact_def (text "fact n = if n<1 then 1 else n * fact(n-1)").
Proof.
  exists (text "n = if n<1 then 1 else n * fact(n-1)"), (text "= if n<1 then 1 else n * fact(n-1)"),
    (text "if n<1 then 1 else n * fact(n-1)").
  split; [name_ (text " ")|]. split; [eapply pt_cons; [name_ (text " ")|apply pt_nil]|].
  split; [lexeme (text " ")|]. up 4.
  apply (et_if plain _ _ _ _ (text "n<1 then 1 else n * fact(n-1)") (text "then 1 else n * fact(n-1)")
     (text "1 else n * fact(n-1)") (text "else n * fact(n-1)") (text "n * fact(n-1)")).
  - key (text " ").
  - apply (et_op plain BLt 3 _ _ _ (text "<1 then 1 else n * fact(n-1)") (text "1 then 1 else n * fact(n-1)"));
      [reflexivity|discriminate| | |].
    + up 4. var_ (@nil char).
    + lexeme (@nil char).
    + up 3. number_ (text "1") (text " ").
  - key (text " ").
  - up 4. number_ (text "1") (text " ").
  - key (text " ").
  - up 2. apply (et_op plain BMul 1 _ _ _ (text "* fact(n-1)") (text "fact(n-1)")); [reflexivity|discriminate| | |].
    + up 2. var_ (text " ").
    + lexeme (text " ").
    + apply (et_call plain _ _ _ (text "(n-1)")); [up 1; var_ (@nil char)|].
      apply (et_paren plain _ _ (text "n-1)") (text ")")); [lexeme (@nil char)| |lexeme (@nil char)].
      up 1. apply (et_op plain BSub 2 _ _ _ (text "-1)") (text "1)")); [reflexivity|discriminate| | |].
      * up 3. var_ (@nil char).
      * lexeme (@nil char).
      * up 2. number_ (text "1") (@nil char).
  - left. exact Logic.I.
Qed.
Lemma times4_text : dtext plain times4_def (text "times4 n = f (f n)").
Proof.
  exists (text "n = f (f n)"), (text "= f (f n)"), (text "f (f n)").
  split; [name_ (text " ")|]. split; [eapply pt_cons; [name_ (text " ")|apply pt_nil]|].
  split; [lexeme (text " ")|]. up 3.
  apply (et_call plain _ _ _ (text "(f n)")); [up 1; var_ (text " ")|].
  apply (et_paren plain _ _ (text "f n)") (text ")")); [lexeme (@nil char)| |lexeme (@nil char)].
  up 3. apply (et_call plain _ _ _ (text "n)")); [up 1; var_ (text " ")|]. var_ (@nil char).
Qed.

(** The example defines the four functions. *)
Theorem C62_definitions : forall cfg n, cfg_std cfg <> Std98 -> (46 < n)%nat ->
  metafunctions cfg n = Ok (program_env example_code).
Proof.
  intros cfg n H L. unfold metafunctions.
  apply (C60_texts_defined cfg n _ [(text "val", GInt 11); (text "f", GTmpl 0)] [fib_def; fact_def; times4_def; times11_def]); auto.
  - repeat (apply Forall_cons; [cbn; lia|]). apply Forall_nil.
  - apply Forall2_cons; [exact fib_text|]. apply Forall2_cons; [exact fact_text|].
    apply Forall2_cons; [exact times4_text|]. apply Forall2_cons; [exact C59_reading|]. apply Forall2_nil.
  - repeat (apply Forall_cons; [cbn; unfold is_int; cbn; splits; auto; lia|]). apply Forall_nil.
Qed.
Print Assumptions C62_definitions.

Example C62_definitions_example : forall n, (46 < n)%nat -> metafunctions c11 n = Ok (program_env example_code).
Proof. intros n L. apply C62_definitions; [discriminate|exact L]. Qed.

(** What the functions compute is the number they are named after, if it is an
    [int]; otherwise they have no value. *)
Theorem C62_values : forall z v, is_int z ->
  ((exists n, call example_users n (program_env example_code) (text "fib") [z] = Ok v)
     <-> v = fibonacci (Z.to_nat z) /\ is_int v)
  /\ ((exists n, call example_users n (program_env example_code) (text "fact") [z] = Ok v)
     <-> v = factorial (Z.to_nat z) /\ is_int v)
  /\ ((exists n, call example_users n (program_env example_code) (text "times4") [z] = Ok v)
     <-> v = z * 4 /\ is_int v)
  /\ ((exists n, call example_users n (program_env example_code) (text "times11") [z] = Ok v)
     <-> v = z * 11 /\ is_int v).
Proof.
  intros z v I.
  assert (F : forces example_users example_code (TInt z) (NInt z)) by constructor.
  splits; (rewrite C61_exact; [|exact example_named|exact example_unwrapped|a_word]).
  - rewrite (call_one _ _ _ (text "n") fib_body) by reflexivity. rewrite (fib_exact _ z _ _ (Nat.lt_succ_diag_r _) I F).
    split; [intros (E & J); injection E as ->; auto|intros (-> & J); auto].
  - rewrite (call_one _ _ _ (text "n") fact_body) by reflexivity. rewrite (fact_exact _ z _ _ (Nat.lt_succ_diag_r _) I F).
    split; [intros (E & J); injection E as ->; auto|intros (-> & J); auto].
  - rewrite (call_one _ _ _ (text "n") (HCall (HVar (text "f")) (HCall (HVar (text "f")) (HVar (text "n"))))) by reflexivity.
    rewrite times4_exact. split; [intros (E & J); injection E as ->; auto|intros (-> & J); auto].
  - rewrite (call_one _ _ _ (text "n") (HOp BMul (HVar (text "n")) (HVar (text "val")))) by reflexivity.
    rewrite times11_exact. split; [intros (E & J); injection E as ->; auto|intros (-> & J); auto].
Qed.
Print Assumptions C62_values.

(** The handcrafted metafunctions compute the same. *)
Theorem C62_handcrafted : forall z v, is_int z ->
  ((exists n, call example_users n (program_env example_code) (text "fib") [z] = Ok v)
     <-> exists n, handcrafted_fib n z = Ok v)
  /\ ((exists n, call example_users n (program_env example_code) (text "fact") [z] = Ok v)
     <-> exists n, handcrafted_fact n z = Ok v)
  /\ ((exists n, call example_users n (program_env example_code) (text "times4") [z] = Ok v)
     <-> handcrafted_times4 z = Ok v)
  /\ ((exists n, call example_users n (program_env example_code) (text "times11") [z] = Ok v)
     <-> handcrafted_times11 z = Ok v).
Proof.
  intros z v I. destruct (C62_values z v I) as (H1 & H2 & H3 & H4). rewrite H1, H2, H3, H4.
  destruct (handcrafted_times_exact z v) as (T4 & T11). rewrite T4, T11. splits; try tauto.
  - split.
    + intros K. exists (S (Z.to_nat z)). apply handcrafted_fib_exact; auto.
    + intros (n & K). apply (handcrafted_fib_exact (S (Z.to_nat z + n)) z v I ltac:(lia)).
      eapply handcrafted_fib_more; [|exact K]. lia.
  - split.
    + intros K. exists (S (Z.to_nat z)). apply handcrafted_fact_exact; auto.
    + intros (n & K). apply (handcrafted_fact_exact (S (Z.to_nat z + n)) z v I ltac:(lia)).
      eapply handcrafted_fact_more; [|exact K]. lia.
Qed.
Print Assumptions C62_handcrafted.

Example C62_example : is_int 12 /\ is_int 13
  /\ fibonacci 12 = 233 /\ factorial 12 = 479001600 /\ is_int 479001600 /\ ~ is_int (factorial 13)
  /\ call example_users 100 (program_env example_code) (text "fact") [12] = Ok 479001600
  /\ call example_users 100 (program_env example_code) (text "fact") [13] = Ill.
Proof.
  splits; try (unfold is_int; lia); try (vm_compute; reflexivity).
  vm_compute. intros (_ & H). discriminate H.
Qed.
