(** Properties proved about rewriting repetitions. *)

From Coq Require Import ZArith List Bool Lia.
From Verif Require Import Base Util Combinators Variadic Parsers Deep Spec SpecDeep
  SpecRules SpecReplace SpecLaws SpecRepeat Proofs_Deep Proofs_Rules Proofs_Replace Proofs_Laws
  Calculator Proofs_Repeat Properties_Rules Properties_Replace Properties_Laws.
Import ListNotations.
Open Scope Z_scope.

Local Definition c11 := default_config Std11.
Local Definition nothing : program := fun _ => PFail (UserMsg 0).

(** ** C96: repetitions can be unrolled, fused and regrouped *)

(** The two sides of every law have the same results in every program. *)
Theorem C96_laws : forall sd a b, fold_law a b -> equivalent sd a b.
Proof. exact fold_laws_hold. Qed.
Print Assumptions C96_laws.

(** Applied anywhere in a program, they do not change what is compiled. *)
Theorem C96_same_compilation : forall cfg env env' e e',
  program_every (fits cfg) env -> every (fits cfg) e ->
  program_every (fits cfg) env' -> every (fits cfg) e' ->
  replaced_program fold_law env env' -> replaced fold_law e e' ->
  (forall s ps o, is_accept o \/ is_reject o ->
     ((exists n, eval cfg env n e s ps = o) <-> (exists n, eval cfg env' n e' s ps = o)))
  /\ (forall s v, compiles_to cfg env e s (Built v) <-> compiles_to cfg env' e' s (Built v))
  /\ (forall s l c m, compiles_to cfg env e s (ParsingFailed l c m)
        <-> compiles_to cfg env' e' s (ParsingFailed l c m)).
Proof.
  intros cfg env env' e e' H1 H2 H3 H4 HP HE.
  refine (C66_same_compilation cfg env env' fold_law e e' H1 H2 H3 H4 _ HP HE).
  intros a b L. split; apply fold_laws_hold; auto.
Qed.
Print Assumptions C96_same_compilation.

(** Collecting and counting afterwards is counting. *)
Definition size : mf1 := fun v => match v with VSeq l => Some (VInt (Z.of_nat (length l))) | _ => None end.
Definition count : mf2 := fun a _ => match a with VInt n => Some (VInt (n + 1)) | _ => None end.

Example C96_case_fuse :
  fold_law (PTransform (PRepeated (PLitC 97)) size) (PFoldl (PLitC 97) (Some (VInt 0)) count).
Proof.
  apply fl_left_fuse; [|reflexivity].
  intros a r. unfold after, back_inserter, push_back, size, count.
  destruct a; try reflexivity.
  - destruct (as_int r); reflexivity.
  - rewrite app_length, Nat2Z.inj_add. reflexivity.
Qed.

Example C96_case_fuse_runs :
  eval c11 nothing 9 (PTransform (PRepeated (PLitC 97)) size) (text "aaab") start
  = Accept (VInt 3) (text "b") (mkpos 1 4 97)
  /\ eval c11 nothing 9 (PFoldl (PLitC 97) (Some (VInt 0)) count) (text "aaab") start
  = Accept (VInt 3) (text "b") (mkpos 1 4 97).
Proof. split; vm_compute; reflexivity. Qed.

(** Counting from the left is counting from the right. *)
Example C96_case_turn :
  fold_law (PFoldl (PLitC 97) (Some (VInt 0)) count) (PFoldr (PLitC 97) (VInt 0) count).
Proof. apply fl_turn. intros a x y. reflexivity. Qed.

(** So is joining words, although their order matters. *)
Definition join : mf2 := fun a b =>
  match a, b with VStr x, VStr y => Some (VStr (x ++ y)) | _, _ => None end.
Definition some_words : pexpr :=
  POneOf [PKeyword (text "ab") (VStr (text "x")); PKeyword (text "c") (VStr (text "yz"))].

Example C96_case_join :
  fold_law (PFoldl some_words (Some (VStr [])) join) (PFoldr some_words (VStr []) (swap join)).
Proof.
  apply fl_turn_swapped.
  - intros a b c. unfold join. destruct a, b, c; try reflexivity. rewrite app_assoc. reflexivity.
  - intros x. unfold join. destruct x; try reflexivity. rewrite app_nil_r. reflexivity.
Qed.

Example C96_case_join_runs :
  eval c11 nothing 9 (PFoldl some_words (Some (VStr [])) join) (text "cabc") start
  = Accept (VStr (text "yzxyz")) [] (mkpos 1 5 99)
  /\ eval c11 nothing 9 (PFoldr some_words (VStr []) (swap join)) (text "cabc") start
  = Accept (VStr (text "yzxyz")) [] (mkpos 1 5 99).
Proof. split; vm_compute; reflexivity. Qed.

(** The direction matters in general ... *)
Theorem C96_turn_refuted : exists p f v, ~ equivalent Std11 (PFoldl p (Some v) f) (PFoldr p v f).
Proof.
  exists POneChar, front_inserter, (VSeq []). intros E.
  specialize (E nothing (text "ab") start (Accept (VSeq [VChar 98; VChar 97]) [] (mkpos 1 3 98))).
  assert (G : gives Std11 nothing (PFoldl POneChar (Some (VSeq [])) front_inserter) (text "ab") start
                (Accept (VSeq [VChar 98; VChar 97]) [] (mkpos 1 3 98))).
  { apply (C64_the_rules_are_exact c11 nothing).
    - intros k. constructor; [exact Logic.I|intros c []].
    - constructor; [exact Logic.I|]. intros c [<-|[]]. constructor; [exact Logic.I|intros c []].
    - left. do 3 eexists. reflexivity.
    - exists 9%nat. vm_compute. reflexivity. }
  apply E in G. apply (C64_the_rules_are_exact c11 nothing) in G as (n & G).
  - do 4 (destruct n as [|n]; [discriminate G|]). discriminate G.
  - intros k. constructor; [exact Logic.I|intros c []].
  - constructor; [exact Logic.I|]. intros c [<-|[]]. constructor; [exact Logic.I|intros c []].
  - left. do 3 eexists. reflexivity.
Qed.
Print Assumptions C96_turn_refuted.

(** ... and addition of ints is no operation with irrelevant order or brackets,
    because of overflow. *)
Theorem C96_int_overflow_refuted : ~ order_irrelevant mpl_plus /\ ~ associative mpl_plus.
Proof.
  split.
  - intros H. specialize (H (VInt 2147483647) (VInt 1) (VInt (-1))). vm_compute in H. discriminate.
  - intros H. specialize (H (VInt 2147483647) (VInt 1) (VInt (-1))). vm_compute in H. discriminate.
Qed.
Print Assumptions C96_int_overflow_refuted.

(** A function that is not defined for an element shows when the next element is
    incomplete. *)
Theorem C96_each_partial_refuted : exists p g st f s m pe,
  gives Std11 nothing (PFoldlRejectIncomplete p st (each_by g f)) s start (Reject m pe)
  /\ forall o, ~ gives Std11 nothing (PFoldlRejectIncomplete (PTransform p g) st f) s start o.
Proof.
  exists (PSequence [PLitC 97; PLitC 98]), (fun _ => None), (Some (VSeq [])), back_inserter,
    (text "aba"), (literal_expected 98), (mkpos 1 4 97).
  assert (F : program_every (fits c11) nothing)
    by (intros k; constructor; [exact Logic.I|intros c []]).
  assert (Q : every (fits c11) (PSequence [PLitC 97; PLitC 98])).
  { constructor; [split; [intros A; discriminate A|discriminate]|].
    intros c [<-|[<-|[]]];
      (constructor; [exact Logic.I|intros c [<-|[]]; constructor; [exact Logic.I|];
         intros c [<-|[]]; constructor; [exact Logic.I|intros c []]]). }
  assert (Q1 : every (fits c11) (PFoldlRejectIncomplete (PSequence [PLitC 97; PLitC 98])
                 (Some (VSeq [])) (each_by (fun _ => None) back_inserter))).
  { constructor; [exact Logic.I|]. intros c [<-|[]]. exact Q. }
  assert (Q2 : every (fits c11) (PFoldlRejectIncomplete
                 (PTransform (PSequence [PLitC 97; PLitC 98]) (fun _ => None))
                 (Some (VSeq [])) back_inserter)).
  { constructor; [exact Logic.I|]. intros c [<-|[]].
    constructor; [exact Logic.I|]. intros c [<-|[]]. exact Q. }
  split.
  - apply (C64_the_rules_are_exact c11 nothing); auto; [right; do 2 eexists; reflexivity|].
    exists 9%nat. vm_compute. reflexivity.
  - apply (C64_no_result c11 nothing); auto.
    intros n. do 5 (destruct n as [|n]; [vm_compute; auto|]). left. vm_compute. reflexivity.
Qed.
Print Assumptions C96_each_partial_refuted.

(** Right recursion is a right fold: a named parser that is an element followed
    by itself, or nothing. *)
Theorem C96_recursion : forall sd env k p v f,
  env k = POptional (PTransform (PSequence [p; PRef k]) (on_pair f)) v
  \/ env k = POneOf [PTransform (PSequence [p; PRef k]) (on_pair f); PReturn v] ->
  same_results sd env (PRef k) (PFoldr p v f).
Proof.
  intros sd env k p v f [E|E]; [apply recursion_is_fold; exact E|].
  set (B := PTransform (PSequence [p; PRef k]) (on_pair f)) in *.
  set (env' := fun j => if Nat.eqb j k then POptional B v else env j).
  assert (X : forall e s ps o, gives sd env' e s ps o <-> gives sd env e s ps o).
  { intros e. apply (C67_rewritten_program sd env' env e e); [|apply rewritten_same].
    intros j. unfold env'. destruct (Nat.eqb_spec j k) as [->|N]; [|apply rewritten_same].
    rewrite E. eapply rewritten_step; [|apply rewritten_same].
    apply replaced_here. apply law_optional. }
  intros s ps o. rewrite <- !X. apply recursion_is_fold. unfold env'.
  rewrite Nat.eqb_refl. reflexivity.
Qed.
Print Assumptions C96_recursion.

(** Evaluated: the recursive parser and the fold have the same results. *)
Theorem C96_recursion_evaluated : forall cfg env k p v f,
  program_every (fits cfg) env -> every (fits cfg) p ->
  env k = POptional (PTransform (PSequence [p; PRef k]) (on_pair f)) v
  \/ env k = POneOf [PTransform (PSequence [p; PRef k]) (on_pair f); PReturn v] ->
  (forall s ps o, is_accept o \/ is_reject o ->
    ((exists n, eval cfg env n (PRef k) s ps = o) <-> exists n, eval cfg env n (PFoldr p v f) s ps = o))
  /\ (forall s w, compiles_to cfg env (PRef k) s (Built w)
        <-> compiles_to cfg env (PFoldr p v f) s (Built w)).
Proof.
  intros cfg env k p v f F P E.
  pose proof (C96_recursion (cfg_std cfg) env k p v f E) as R.
  assert (F1 : every (fits cfg) (PRef k)) by (constructor; [exact Logic.I|intros c []]).
  assert (F2 : every (fits cfg) (PFoldr p v f))
    by (constructor; [exact Logic.I|intros c [<-|[]]; exact P]).
  assert (X := C66_same_compilation cfg env env (fun a b => a = PRef k /\ b = PFoldr p v f)
                 (PRef k) (PFoldr p v f) F F1 F F2).
  destruct X as (X1 & X2 & _).
  - intros a b (-> & ->). auto.
  - intros j. apply replaced_refl.
  - apply replaced_here. auto.
  - split; [exact X1|exact X2].
Qed.
Print Assumptions C96_recursion_evaluated.

(** A list of letters written with recursion. *)
Definition letters : program := fun _ =>
  POneOf [PTransform (PSequence [PLetter; PRef 0]) (on_pair front_inserter); PReturn (VStr [])].

Example C96_case_recursion :
  (forall sd, same_results sd letters (PRef 0) (PFoldr PLetter (VStr []) front_inserter))
  /\ eval c11 letters 20 (PRef 0) (text "ab1") start = Accept (VStr (text "ab")) (text "1") (mkpos 1 3 98)
  /\ eval c11 letters 20 (PFoldr PLetter (VStr []) front_inserter) (text "ab1") start
     = Accept (VStr (text "ab")) (text "1") (mkpos 1 3 98).
Proof.
  split; [|split; vm_compute; reflexivity].
  intros sd. apply C96_recursion. right. reflexivity.
Qed.

(** Recursion that ends with another parser is not the fold with that parser:
    the choice goes back, the fold does not. *)
Theorem C96_recursion_start_refuted : exists p sp f env,
  env 0%nat = POneOf [PTransform (PSequence [p; PRef 0]) (on_pair f); sp]
  /\ exists s,
     eval c11 env 20 (PRef 0) s start = Accept (VChar 98) [] (mkpos 1 3 98)
     /\ eval c11 env 20 (PFoldrStartWithParser p sp f) s start
        = Reject (literal_expected 97) (mkpos 1 2 97).
Proof.
  exists (PLitC 97), (PKeyword (text "ab") (VChar 98)), front_inserter,
    (fun _ => POneOf [PTransform (PSequence [PLitC 97; PRef 0]) (on_pair front_inserter);
                      PKeyword (text "ab") (VChar 98)]).
  split; [reflexivity|]. exists (text "ab"). split; vm_compute; reflexivity.
Qed.
Print Assumptions C96_recursion_start_refuted.

(** [repeated] is greedy: it stops where its parser rejects, so nothing is left
    for the same parser or another repetition of it, and repeating a non-empty
    repetition gives at most one group. *)
Theorem C96_greedy : forall cfg env p,
  program_every (fits cfg) env -> every (fits cfg) p ->
  (forall n s ps v s' ps', eval cfg env n (PRepeated p) s ps = Accept v s' ps' ->
     exists k m pe, eval cfg env k p s' ps' = Reject m pe)
  /\ same_results (cfg_std cfg) env (PSequence [PRepeated p; PRepeated p])
       (PTransform (PRepeated p) (fun r => Some (VSeq [r; VSeq []])))
  /\ same_results (cfg_std cfg) env (PRepeated (PRepeated1 p)) (PTransform (PRepeated p) one_group).
Proof.
  intros cfg env p F P. split; [|split].
  - intros n s ps v s' ps' E.
    assert (G : gives (cfg_std cfg) env (PRepeated p) s ps (Accept v s' ps')).
    { apply (C64_the_rules_are_exact cfg env); auto.
      - constructor; [exact Logic.I|]. intros c [<-|[]]. exact P.
      - left. do 3 eexists. reflexivity.
      - eauto. }
    apply repeated_iff in G as (rs & s1 & ps1 & X & M & (m & pe & G)). injection X as -> -> ->.
    apply (C64_the_rules_are_exact cfg env) in G as (k & G); auto; [eauto|].
    right. do 2 eexists. reflexivity.
  - intros s ps o. apply repeated_twice. exact (C64_at_most_one_result cfg env p F P).
  - intros s ps o. apply repeated_groups. exact (C64_at_most_one_result cfg env p F P).
Qed.
Print Assumptions C96_greedy.

Example C96_case_greedy :
  eval c11 nothing 20 (PSequence [PRepeated PDigit; PRepeated PDigit]) (text "12a") start
  = Accept (VSeq [VSeq [VChar 49; VChar 50]; VSeq []]) (text "a") (mkpos 1 3 50)
  /\ eval c11 nothing 20 (PRepeated (PRepeated1 PDigit)) (text "12a") start
  = Accept (VSeq [VSeq [VChar 49; VChar 50]]) (text "a") (mkpos 1 3 50)
  /\ exists m pe, eval c11 nothing 20 (PLastOf [PRepeated PDigit; PDigit]) (text "12a") start
       = Reject m pe.
Proof. split; [|split; [|do 2 eexists]]; vm_compute; reflexivity. Qed.

(** Lists with separators: read with the separators before the elements, a list
    ends before a separator that no element follows; read with the separators
    after the elements, such a separator is an error. *)
Theorem C96_separated : forall cfg env p sep,
  program_every (fits cfg) env -> every (fits cfg) p -> every (fits cfg) sep ->
  fits_sequence cfg 2 ->
  (forall s ps v s' ps',
     (exists n, eval cfg env n (separated_after p sep) s ps = Accept v s' ps')
     <-> exists rs, v = VSeq rs /\ alternately (cfg_std cfg) env p sep s ps rs s' ps'
           /\ no_more (cfg_std cfg) env p sep s' ps')
  /\ (forall s ps v s' ps',
     (exists n, eval cfg env n (separated_before p sep) s ps = Accept v s' ps')
     <-> exists rs, v = VSeq rs /\ alternately (cfg_std cfg) env p sep s ps rs s' ps'
           /\ exists m pe, gives (cfg_std cfg) env sep s' ps' (Reject m pe)).
Proof.
  intros cfg env p sep F P S Z.
  assert (two : forall (C : list pexpr -> pexpr) a b,
            every (fits cfg) a -> every (fits cfg) b ->
            C = PSequence \/ C = PLastOf \/ C = PFirstOf -> every (fits cfg) (C [a; b])).
  { intros C a b A B [->|[->| ->]];
      (constructor; [first [exact Z|split; [exact Z|discriminate]]|]); intros c [<-|[<-|[]]]; auto. }
  assert (rep : forall a, every (fits cfg) a -> every (fits cfg) (PRepeated a)).
  { intros a A. constructor; [exact Logic.I|]. intros c [<-|[]]. exact A. }
  assert (one := C64_at_most_one_result cfg env p F P).
  assert (onesep := C64_at_most_one_result cfg env sep F S).
  split; intros s ps v s' ps'; rewrite <- (C64_the_rules_are_exact cfg env); auto.
  - apply separators_after.
  - constructor; [exact Logic.I|]. intros c [<-|[]]. apply (two PSequence); auto.
  - left. do 3 eexists. reflexivity.
  - apply separators_before; auto.
  - constructor; [exact Logic.I|]. intros c [<-|[]]. apply (two PSequence); auto.
  - left. do 3 eexists. reflexivity.
Qed.
Print Assumptions C96_separated.

(** What the second way accepts, the first way accepts with the same result. *)
Theorem C96_separated_before_after : forall cfg env p sep,
  program_every (fits cfg) env -> every (fits cfg) p -> every (fits cfg) sep ->
  fits_sequence cfg 2 ->
  forall n s ps v s' ps', eval cfg env n (separated_before p sep) s ps = Accept v s' ps' ->
    exists k, eval cfg env k (separated_after p sep) s ps = Accept v s' ps'.
Proof.
  intros cfg env p sep F P S Z n s ps v s' ps' E.
  destruct (C96_separated cfg env p sep F P S Z) as (A & B).
  apply A. destruct (proj1 (B s ps v s' ps')) as (rs & -> & X & Y); [eauto|].
  exists rs. split; [reflexivity|]. split; [exact X|]. left. exact Y.
Qed.
Print Assumptions C96_separated_before_after.

(** Not the other way round. *)
Theorem C96_separated_refuted : exists p sep s v s' ps' m pe,
  eval c11 nothing 20 (separated_after p sep) s start = Accept v s' ps'
  /\ eval c11 nothing 20 (separated_before p sep) s start = Reject m pe.
Proof.
  exists PDigit, (PLitC 44), (text "1,2,"), (VSeq [VChar 49; VChar 50]), (text ","), (mkpos 1 4 50),
    digit_expected, (mkpos 1 5 44).
  split; vm_compute; reflexivity.
Qed.
Print Assumptions C96_separated_refuted.

Example C96_case_separated :
  eval c11 nothing 20 (separated_after PDigit (PLitC 44)) (text "1,2,3;") start
  = Accept (VSeq [VChar 49; VChar 50; VChar 51]) (text ";") (mkpos 1 6 51)
  /\ eval c11 nothing 20 (separated_before PDigit (PLitC 44)) (text "1,2,3;") start
  = Accept (VSeq [VChar 49; VChar 50; VChar 51]) (text ";") (mkpos 1 6 51).
Proof. split; vm_compute; reflexivity. Qed.
