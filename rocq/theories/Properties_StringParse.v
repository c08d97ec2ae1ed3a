(** Properties of parsing strings (StringParse.v), stated with the vocabulary of
    SpecStringParse.v and SpecDeep.v. *)

From Coq Require Import ZArith List Bool Lia.
From Verif Require Import Base Util Combinators Variadic Parsers Deep Spec SpecDeep
  Proofs_Deep Strings Proofs_Strings StringParse SpecStringParse Proofs_StringParse.
Import ListNotations.
Open Scope Z_scope.

(** ** C65: parsers do not depend on the string type *)

Lemma parsable_view : forall sd lim s, parsable sd lim s ->
  let o := ops_of sd lim in
  match s with
  | [] => so_empty o (so_string o s) = Some true
  | c :: s' => so_empty o (so_string o s) = Some false /\ so_front o (so_string o s) = Some c /\
               so_pop_front o (so_string o s) = Some (so_string o s') /\ parsable sd lim s'
  end.
Proof.
  intros sd lim s D. destruct sd; cbn [ops_of so_empty so_front so_pop_front so_string ops_98 ops_11].
  2,3: pose proof (view_11 s); destruct s; tauto.
  destruct D as [R L]. pose proof (view_98 lim s R L) as V. destruct s as [|c s]; auto.
  destruct V as (A & B & C). rewrite C. repeat split; auto.
  - exact (representable_cons c s R).
  - cbn in L. lia.
Qed.

Theorem C65_strings : forall cfg lim env e,
  let o := ops_of (cfg_std cfg) lim in
  let D := parsable (cfg_std cfg) lim in
  program_every (string_ready (so_string o) D) env ->
  every (string_ready (so_string o) D) e ->
  forall n s ps, D s ->
    eval_on o cfg env n e (so_string o s) ps = with_rest (so_string o) (eval cfg env n e s ps).
Proof.
  intros cfg lim env e o D HE He n s ps Ds.
  assert (G : forall e, string_ready (so_string o) D e -> rep_ok o D e).
  { intros e0 N. destruct e0; cbn in *; auto.
    - intros s0 ps0 D0. destruct (N s0 ps0 D0) as [A B]. split; auto.
      destruct (p s0 ps0) eqn:Q; cbn; eauto.
    - intros m ps0. destruct (f m ps0) eqn:Q; cbn; auto. now apply N in Q. }
  refine (proj1 (eval_irel o D _ cfg env _ n e _ s ps Ds)).
  - intros s0 D0. apply (parsable_view (cfg_std cfg) lim s0 D0).
  - intros k. eapply every_impl; [apply G|apply HE].
  - eapply every_impl; [apply G|apply He].
Qed.
Print Assumptions C65_strings.

(** What a compilation shows does not depend on the string type at all. *)
Theorem C65_build_parser : forall cfg lim env e,
  let o := ops_of (cfg_std cfg) lim in
  let D := parsable (cfg_std cfg) lim in
  program_every (string_ready (so_string o) D) env ->
  every (string_ready (so_string o) D) e ->
  forall n s, D s ->
    build_parser (eval_on o cfg env n e) (so_string o s) = build_parser (eval cfg env n e) s.
Proof.
  intros cfg lim env e o D HE He n s Ds. unfold build_parser.
  pose proof (C65_strings cfg lim env e HE He n s start Ds) as E. cbn zeta in E.
  fold o in E. rewrite E. destruct (eval cfg env n e s start); reflexivity.
Qed.
Print Assumptions C65_build_parser.

(** From C++11 on nothing is required of the expression or the text. *)
Theorem C65_strings_11 : forall cfg lim env e n s ps, cfg_std cfg <> Std98 ->
  eval_on (ops_of (cfg_std cfg) lim) cfg env n e s ps = eval cfg env n e s ps.
Proof.
  intros cfg lim env e n s ps S.
  assert (E : ops_of (cfg_std cfg) lim = ops_11) by (destruct (cfg_std cfg); [contradiction|reflexivity..]).
  rewrite E. clear E.
  assert (W : forall r, with_rest (so_string ops_11) r = r) by (intros []; reflexivity).
  assert (T : forall r, in_dom (fun _ => True) r) by (intros []; exact Logic.I).
  assert (G : forall e, every (rep_ok ops_11 (fun _ => True)) e).
  { intros e0. induction e0 as [e0 IH] using pexpr_children_ind. constructor; auto.
    destruct e0; cbn -[with_rest so_string]; auto.
    intros s0 ps0 _. rewrite W. auto. }
  destruct (eval_irel ops_11 (fun _ => True)) with (cfg := cfg) (env := env) (n := n) (e := e)
    (s := s) (ps := ps) as [A _]; auto.
  - intros s0 _. pose proof (parsable_view Std11 lim s0 Logic.I) as V. destruct s0; cbn in *; tauto.
  - intros k. apply G.
  - rewrite W in A. exact A.
Qed.
Print Assumptions C65_strings_11.

Lemma full_opaque : forall lim (s : str), representable s -> length s = lim ->
  so_empty (ops_98 lim) (so_string (ops_98 lim) s) = None.
Proof.
  intros lim s R L. cbn [ops_98 so_empty so_string]. unfold empty_98, end_98.
  rewrite size_98_padded by (auto; slia).
  destruct (Nat.ltb_spec (length s) lim); [slia|reflexivity].
Qed.

(** In C++98 a string of LIMIT_STRING_SIZE characters can not be parsed: nothing
    can be read from it. *)
Theorem C65_full_length : forall cfg lim env e (s : str),
  (forall s' : str, s <> s' ++ [-1]) -> length s = lim ->
  let o := ops_98 lim in
  let N := fun p : pfun => forall ps r rem ps', p (so_string o s) ps = Accept r rem ps' ->
                     rem = so_string o s /\ ps' = ps in
  program_every (natives N keeps_failing) env -> every (natives N keeps_failing) e ->
  forall n ps r rem ps',
    eval_on o cfg env n e (so_string o s) ps = Accept r rem ps' ->
    rem = so_string o s /\ ps' = ps.
Proof.
  intros cfg lim env e s R L o N HE He n. apply (eval_stuck o (so_string o s)); auto.
  now apply full_opaque.
Qed.
Print Assumptions C65_full_length.

(** Consequently a parser of complete texts never accepts such a string, whatever
    the text is and whatever the parser would do with its characters. *)
Theorem C65_full_length_entire_input : forall cfg lim env e m (s : str),
  (forall s' : str, s <> s' ++ [-1]) -> length s = lim ->
  let o := ops_98 lim in
  let N := fun p : pfun => forall ps r rem ps', p (so_string o s) ps = Accept r rem ps' ->
                     rem = so_string o s /\ ps' = ps in
  program_every (natives N keeps_failing) env -> every (natives N keeps_failing) e ->
  forall n v, build_parser (eval_on o cfg env n (PEntireInput e m)) (so_string o s) <> Built v.
Proof.
  intros cfg lim env e m s R L o N HE He n v.
  assert (Q : so_empty o (so_string o s) = None) by now apply full_opaque.
  assert (U : eval_on o cfg env n (PEntireInput e m)
              = entire_input_on o cfg (eval_on o cfg env n e) m) by (destruct n; reflexivity).
  unfold build_parser. rewrite U.
  pose proof (entire_input_stuck o _ Q cfg _ m (eval_stuck o _ Q cfg env HE n e He)) as H.
  destruct (entire_input_on o cfg (eval_on o cfg env n e) m (so_string o s) start) eqn:E;
    try discriminate.
  now apply H in E.
Qed.
Print Assumptions C65_full_length_entire_input.

(** The condition on the length is needed: the documented limit is the maximal
    length of a string, but of the strings of this length no character can be
    read. *)
Theorem C65_full_length_refuted : exists lim cfg e (s : str) v,
  cfg_std cfg = Std98 /\ (forall s' : str, s <> s' ++ [-1]) /\ length s = lim
  /\ build_parser (eval cfg (fun _ => PEmpty VVoid) 10 e) s = Built v
  /\ build_parser (eval_on (ops_98 lim) cfg (fun _ => PEmpty VVoid) 10 e) (string_98 lim s)
     = BuildIllformed.
Proof.
  exists 2%nat, (default_config Std98), (PEntireInput PInt end_of_input_expected), (text "42"), (VInt 42).
  split; [reflexivity|]. split.
  { apply representable_chars. intros c H. cbn in H. unfold no_char. lia. }
  split; [reflexivity|]. now vm_compute.
Qed.
Print Assumptions C65_full_length_refuted.

(** A keyword of that length makes its parser ill-formed on every text. *)
Theorem C65_full_length_keyword : forall cfg lim env (kw : str) r,
  (forall s' : str, kw <> s' ++ [-1]) -> length kw = lim ->
  forall n x ps, eval_on (ops_98 lim) cfg env n (PKeyword kw r) x ps = Illformed.
Proof.
  intros cfg lim env kw r R L n x ps.
  assert (Q : so_empty (ops_98 lim) (so_string (ops_98 lim) kw) = None) by now apply full_opaque.
  destruct n; cbn [eval_on keyword_on]; rewrite Q; reflexivity.
Qed.
Print Assumptions C65_full_length_keyword.

(** A declaration: the keyword [let], spaces and a number. *)
Definition let_number : pexpr :=
  PEntireInput (PSequence [PKeyword (text "let") VVoid; PSpaces; PToken PInt]) end_of_input_expected.

Lemma let_number_ready : forall f (D : str -> Prop), D (text "let") ->
  every (string_ready f D) let_number.
Proof.
  intros f D H. unfold let_number, PSpaces, PToken, PInt, PRepeated, PRepeated1, PSpace, PDigitVal, PDigit.
  repeat (apply every_intro; [cbn [string_ready]; auto|];
    let c := fresh in intros c Hc; cbn [children In] in Hc;
    repeat (destruct Hc as [<-|Hc]); try contradiction).
Qed.

Example C65_case :
  parsable Std98 16 (text "let  42 ") /\
  build_parser (eval_on (ops_98 16) (default_config Std98) (fun _ => PEmpty VVoid) 20 let_number)
    (string_98 16 (text "let  42 "))
  = Built (VSeq [VVoid; VSeq [VChar 32; VChar 32]; VInt 42]).
Proof.
  split.
  - split; [|cbn; lia]. apply representable_chars. intros c H. cbn in H. unfold no_char. lia.
  - now vm_compute.
Qed.

Example C65_case_ready : let o := ops_98 16 in let D := parsable Std98 16 in
  program_every (string_ready (so_string o) D) (fun _ => PEmpty VVoid) /\
  every (string_ready (so_string o) D) let_number.
Proof.
  split.
  - intros _. apply every_intro; cbn; auto. contradiction.
  - apply let_number_ready. split; [|cbn; lia]. apply representable_chars.
    intros c H. cbn in H. unfold no_char. lia.
Qed.

Example C65_case_error :
  build_parser (eval_on (ops_98 16) (default_config Std98) (fun _ => PEmpty VVoid) 20 let_number)
    (string_98 16 (text "let x"))
  = ParsingFailed 1 5 digit_expected /\
  build_parser (eval_on (ops_98 16) (default_config Std98) (fun _ => PEmpty VVoid) 20 let_number)
    (string_98 16 (text "let 123456789012"))
  = BuildIllformed.
Proof. now vm_compute. Qed.

Example C65_full_length_case :
  eval_on (ops_98 2) (default_config Std98) (fun _ => PEmpty VVoid) 5 (PReturn (VInt 1))
    (string_98 2 (text "ab")) start = Accept (VInt 1) (string_98 2 (text "ab")) start /\
  eval_on (ops_98 2) (default_config Std98) (fun _ => PEmpty VVoid) 5 (PLitC 97)
    (string_98 2 (text "ab")) start = Illformed /\
  eval_on (ops_98 3) (default_config Std98) (fun _ => PEmpty VVoid) 5 (PLitC 97)
    (string_98 3 (text "ab")) start = Accept (VChar 97) (string_98 3 (text "b")) (mkpos 1 2 97).
Proof. now vm_compute. Qed.
