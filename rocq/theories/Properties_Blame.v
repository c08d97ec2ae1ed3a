(** C91: LL(1) parsers blame the first impossible character. *)

From Coq Require Import ZArith List Bool Lia.
From Verif Require Import Base Util Combinators Variadic Parsers Deep Spec SpecDeep SpecRules SpecTerm
  SpecType SpecPeg SpecCfg SpecBlame Proofs_Pos Proofs_Parsers2 Proofs_Deep Proofs_Rules Proofs_Term Proofs_Type
  Proofs_PegAll Proofs_Cfg Proofs_Blame Proofs_BlameParsers
  Properties_Positions Properties_Deep Properties_Rules Properties_Term Properties_Type Properties_Peg
  Properties_Cfg.
Import ListNotations.
Open Scope Z_scope.

Local Definition c98 := default_config Std98.
Local Definition c11 := default_config Std11.

Lemma eval_says : forall cfg env e,
  program_every (fits cfg) env -> every (fits cfg) e ->
  program_every blaming env -> every blaming e ->
  forall n s ps, says env (cfg_of e) s ps (eval cfg env n e s ps).
Proof.
  intros cfg env e FE Fe BE Be n s ps. destruct (eval cfg env n e s ps) eqn:E; try exact I.
  all: apply (proj1 (gives_says (cfg_std cfg) env BE) e s ps); auto.
  all: rewrite (C64_the_rules_are_exact cfg env e FE Fe); eauto.
  - left. unfold is_accept. eauto.
  - right. unfold is_reject. eauto.
Qed.

(** A rejected text is in order up to the error, may end neither there nor go on as
    it does. *)
Theorem C91_error_position : forall cfg env e follow F,
  program_every (fits cfg) env -> every (fits cfg) e ->
  program_every blaming env -> every blaming e -> blaming_grammar env e follow F ->
  forall n s ps m q, eval cfg env n e s ps = Reject m q ->
    exists u t, s = u ++ t /\ walk ps u q
      /\ longest_beginning (cfg_rules env) (cfg_of e) u t
      /\ ~ derives (cfg_rules env) (cfg_of e) u.
Proof.
  intros cfg env e follow F FE Fe BE Be (LL & O & PE & Pe & GE & Ge) n s ps m q E.
  pose proof (eval_says cfg env e FE Fe BE Be n s ps) as S. rewrite E in S. simpl in S.
  destruct S as (t & B & u & -> & W).
  destruct (blames_good _ _ LL PE GE _ _ _ B F O Pe Ge) as (u' & X & B1 & N & C).
  apply app_inv_tail in X. subst u'. exists u, t. unfold longest_beginning. auto.
Qed.
Print Assumptions C91_error_position.

(** What is accepted is a word, and the longest beginning some word begins with. *)
Theorem C91_accepted : forall cfg env e follow F,
  program_every (fits cfg) env -> every (fits cfg) e ->
  program_every blaming env -> every blaming e -> blaming_grammar env e follow F ->
  forall n s ps r s' q, eval cfg env n e s ps = Accept r s' q ->
    exists u, s = u ++ s' /\ walk ps u q
      /\ longest_beginning (cfg_rules env) (cfg_of e) u s'
      /\ derives (cfg_rules env) (cfg_of e) u.
Proof.
  intros cfg env e follow F FE Fe BE Be (LL & O & PE & Pe & GE & Ge) n s ps r s' q E.
  pose proof (eval_says cfg env e FE Fe BE Be n s ps) as S. rewrite E in S. simpl in S.
  destruct S as (B & u & -> & W).
  destruct (blames_good _ _ LL PE GE _ _ _ B F O Pe Ge) as (u' & X & D & C).
  apply app_inv_tail in X. subst u'. exists u. unfold longest_beginning, begins.
  split; [reflexivity|]. split; [exact W|]. split; [|exact D]. split; [|exact C].
  exists []. rewrite app_nil_r. exact D.
Qed.
Print Assumptions C91_accepted.

(** The same with [entire_input]: the whole text is a word or the error is at the first
    character no word goes on with, or at the end if there is none. *)
Theorem C91_entire_input : forall cfg env e follow F me, fits_sequence cfg 2 ->
  program_every (fits cfg) env -> every (fits cfg) e ->
  program_every blaming env -> every blaming e -> blaming_grammar env e follow F ->
  forall n s ps,
    (forall r s' q, eval cfg env n (PEntireInput e me) s ps = Accept r s' q ->
       s' = [] /\ walk ps s q /\ derives (cfg_rules env) (cfg_of e) s)
    /\ (forall m q, eval cfg env n (PEntireInput e me) s ps = Reject m q ->
       ~ derives (cfg_rules env) (cfg_of e) s
       /\ exists u t, s = u ++ t /\ walk ps u q
            /\ longest_beginning (cfg_rules env) (cfg_of e) u t).
Proof.
  intros cfg env e follow F me Sq FE Fe BE Be G n s ps.
  assert (V : forall u t, longest_beginning (cfg_rules env) (cfg_of e) u t -> t <> [] ->
    ~ derives (cfg_rules env) (cfg_of e) (u ++ t)).
  { intros u [|c t] (_ & L) N; [congruence|]. intros D. apply L. exists t.
    rewrite <- app_assoc. exact D. }
  assert (X : eval cfg env n (PEntireInput e me) s ps =
    match eval cfg env n e s ps with
    | Accept r [] q => Accept r [] q
    | Accept r (c :: s') q => Reject me q
    | o => o end).
  { replace (eval cfg env n (PEntireInput e me) s ps) with (entire_input cfg (eval cfg env n e) me s ps)
      by (destruct n; reflexivity).
    apply entire_input_spec. exact Sq. }
  rewrite X. destruct (eval cfg env n e s ps) as [r [|c s'] q|m q| |] eqn:E; (split; [intros r0 s0 q0 H|intros m0 q0 H]);
    try discriminate; inversion H; subst; clear H.
  - destruct (C91_accepted _ _ _ _ _ FE Fe BE Be G _ _ _ _ _ _ E) as (u & -> & W & L & D).
    rewrite app_nil_r. auto.
  - destruct (C91_accepted _ _ _ _ _ FE Fe BE Be G _ _ _ _ _ _ E) as (u & -> & W & L & D).
    split; [apply V; auto; discriminate|]. eauto 6.
  - destruct (C91_error_position _ _ _ _ _ FE Fe BE Be G _ _ _ _ _ E) as (u & t & -> & W & L & N).
    split; [|eauto 6]. destruct t; [rewrite app_nil_r; exact N|apply V; auto; discriminate].
Qed.
Print Assumptions C91_entire_input.

(** The error is at the end exactly when the text only needs to go on. *)
Theorem C91_unfinished : forall cfg env e follow F me, fits_sequence cfg 2 ->
  program_every (fits cfg) env -> every (fits cfg) e ->
  program_every blaming env -> every blaming e -> blaming_grammar env e follow F ->
  forall n s ps m q, eval cfg env n (PEntireInput e me) s ps = Reject m q ->
    (walk ps s q <-> begins (cfg_rules env) (cfg_of e) s).
Proof.
  intros cfg env e follow F me Sq FE Fe BE Be G n s ps m q E.
  destruct (C91_entire_input cfg env e follow F me Sq FE Fe BE Be G n s ps) as (_ & A).
  destruct (A m q E) as (_ & u & t & -> & W & B & L). split.
  - intros W'. apply walk_iff in W. apply walk_iff in W'. rewrite adv_app in W'.
    assert (t = []) as -> by (apply (adv_fix t q); congruence). rewrite app_nil_r. exact B.
  - intros B'. destruct t as [|c t]; [rewrite app_nil_r; exact W|]. exfalso. apply L.
    apply (begins_longer _ _ (u ++ [c]) t). rewrite <- app_assoc. exact B'.
Qed.
Print Assumptions C91_unfinished.

(** Where the error is depends on the language only: not on the grammar, the order of
    its alternatives, the way the parser is written or the standard. *)
Theorem C91_same_error : forall cfg1 env1 e1 follow1 F1 m1 cfg2 env2 e2 follow2 F2 m2,
  fits_sequence cfg1 2 -> fits_sequence cfg2 2 ->
  program_every (fits cfg1) env1 -> every (fits cfg1) e1 ->
  program_every blaming env1 -> every blaming e1 -> blaming_grammar env1 e1 follow1 F1 ->
  program_every (fits cfg2) env2 -> every (fits cfg2) e2 ->
  program_every blaming env2 -> every blaming e2 -> blaming_grammar env2 e2 follow2 F2 ->
  (forall w, derives (cfg_rules env1) (cfg_of e1) w <-> derives (cfg_rules env2) (cfg_of e2) w) ->
  forall n1 n2 s ps,
    (forall m q r s' q', eval cfg1 env1 n1 (PEntireInput e1 m1) s ps = Reject m q ->
       eval cfg2 env2 n2 (PEntireInput e2 m2) s ps <> Accept r s' q')
    /\ (forall m q m' q', eval cfg1 env1 n1 (PEntireInput e1 m1) s ps = Reject m q ->
       eval cfg2 env2 n2 (PEntireInput e2 m2) s ps = Reject m' q' -> q = q').
Proof.
  intros cfg1 env1 e1 fo1 F1 m1 cfg2 env2 e2 fo2 F2 m2 Sq1 Sq2 FE1 Fe1 BE1 Be1 G1 FE2 Fe2 BE2 Be2 G2 L n1 n2 s ps.
  destruct (C91_entire_input cfg1 env1 e1 fo1 F1 m1 Sq1 FE1 Fe1 BE1 Be1 G1 n1 s ps) as (_ & R1).
  destruct (C91_entire_input cfg2 env2 e2 fo2 F2 m2 Sq2 FE2 Fe2 BE2 Be2 G2 n2 s ps) as (A2 & R2).
  split.
  - intros m q r s' q' E1 E2. destruct (R1 _ _ E1) as (N & _). destruct (A2 _ _ _ E2) as (_ & _ & D).
    apply N, L, D.
  - intros m q m' q' E1 E2.
    destruct (R1 _ _ E1) as (_ & u & t & -> & W & B & X).
    destruct (R2 _ _ E2) as (_ & u' & t' & Y & W' & B' & X').
    enough (u = u') as <- by (apply walk_iff in W; apply walk_iff in W'; congruence).
    assert (I : forall u, begins (cfg_rules env1) (cfg_of e1) u <-> begins (cfg_rules env2) (cfg_of e2) u)
      by (intros w; split; intros (v & D); exists v; apply L; exact D).
    destruct (app_split _ _ _ _ _ (eq_sym Y)) as [(c & w & ->)|[(-> & _)|(c & w & -> & ->)]]; auto; exfalso.
    + rewrite <- app_assoc in Y. apply app_inv_head in Y. subst t. apply X.
      apply I. apply (begins_longer _ _ (u ++ [c]) w). rewrite <- app_assoc. exact B'.
    + apply X'. apply I. apply (begins_longer _ _ (u' ++ [c]) w). rewrite <- app_assoc. exact B.
Qed.
Print Assumptions C91_same_error.

(** With a verdict on every text (C46, C47): accepted exactly when a word. *)
Theorem C91_verdict : forall cfg nul rank R K G env e r T follow F me, fits_sequence cfg 2 ->
  program_every (fits cfg) env -> every (fits cfg) e ->
  program_every blaming env -> every blaming e -> blaming_grammar env e follow F ->
  well_founded_program nul rank R K env ->
  every (loops_read nul rank R K) e -> left_ok nul rank r e = true ->
  (forall k, typed cfg G (env k) (G k)) -> typed cfg G e T ->
  forall n s ps, ((length s + 1) * (R + 1) + r + K < n)%nat ->
    ((exists v q, eval cfg env n (PEntireInput e me) s ps = Accept v [] q)
       <-> derives (cfg_rules env) (cfg_of e) s)
    /\ ((exists m q, eval cfg env n (PEntireInput e me) s ps = Reject m q)
       <-> ~ derives (cfg_rules env) (cfg_of e) s).
Proof.
  intros cfg nul rank R K G env e r T follow F me Sq FE Fe BE Be BG WF Hev LO HE He n s ps N.
  destruct (C91_entire_input cfg env e follow F me Sq FE Fe BE Be BG n s ps) as (A & B).
  assert (V : (exists v q, eval cfg env n (PEntireInput e me) s ps = Accept v [] q)
    \/ exists m q, eval cfg env n (PEntireInput e me) s ps = Reject m q).
  { destruct (C47_verdict cfg nul rank R K G env e r T WF Hev LO HE He s ps n N) as [(v & s' & q & E)|(m & q & E)];
    replace (eval cfg env n (PEntireInput e me) s ps) with (entire_input cfg (eval cfg env n e) me s ps)
      by (destruct n; reflexivity); rewrite (entire_input_spec _ _ _ _ _ Sq), E; [destruct s'|]; eauto. }
  split.
  - split.
    + intros (v & q & E). apply (A _ _ _ E).
    + intros D. destruct V as [V|(m & q & E)]; [exact V|]. destruct (B _ _ E). contradiction.
  - split.
    + intros (m & q & E). apply (B _ _ E).
    + intros D. destruct V as [(v & q & E)|V]; [|exact V]. destruct (A _ _ _ E) as (_ & _ & X). contradiction.
Qed.
Print Assumptions C91_verdict.

(** ** Examples *)

Ltac parts := repeat match goal with
    | H : _ \/ _ |- _ => destruct H
    | H : False |- _ => contradiction
    | H : ?a = ?c |- every _ ?c => subst c
    | |- blaming _ => simpl; auto
    | |- fits _ _ => unfold fits, fits_one_of, fits_sequence; try exact I;
         repeat match goal with |- _ /\ _ => split end; try discriminate; intros _; cbv; repeat constructor
    | |- forall c, In c _ -> _ => intros ?c ?H; simpl in *
    | |- every _ _ => constructor
    end.

Lemma brackets_blaming : program_every blaming brackets /\ every blaming (PRef 0).
Proof.
  split; [|constructor; [exact I|intros c []]].
  intros k. unfold brackets, PLitC, PLetter. parts.
Qed.

Lemma brackets_grammar :
  blaming_grammar brackets (PRef 0) (fun k c => (c =? 41) = true) (fun c => (c =? 41) = true).
Proof.
  destruct brackets_ll1 as (A & _ & C).
  assert (W : exists w, derives (cfg_rules brackets) (cfg_rules brackets 0) w).
  { exists [97]. simpl. apply d_alt_right. apply (d_class _ _ 97). reflexivity. }
  split; [exact A|]. split; [exact C|].
  split; [|split; [exact W|split; [|exact I]]].
  - intros k. simpl. split; [|exists 97; reflexivity].
    split; [exists 40; reflexivity|]. split; [exact W|exists 41; reflexivity].
  - intros k. simpl. split; [|auto]. intros N. inversion N.
Qed.

Local Definition too_much := UserMsg 7.

(** "((a]": the bracket that does not match is the first impossible character. *)
Example C91_case :
  eval c98 brackets 60 (PEntireInput (PRef 0) too_much) (text "((a]") start
    = Reject (unpaired 1 2 (literal_expected 41)) (mkpos 1 4 97)
  /\ longest_beginning (cfg_rules brackets) (FName 0) (text "((a") (text "]")
  /\ ~ derives (cfg_rules brackets) (FName 0) (text "((a]").
Proof.
  destruct brackets_facts as (_ & Fb & _ & Fe), brackets_blaming as (Bb & Be).
  assert (Sq : fits_sequence c98 2) by (intros _; cbv; repeat constructor).
  assert (E : eval c98 brackets 60 (PEntireInput (PRef 0) too_much) (text "((a]") start
    = Reject (unpaired 1 2 (literal_expected 41)) (mkpos 1 4 97)) by (vm_compute; reflexivity).
  split; [exact E|].
  destruct (C91_entire_input c98 brackets (PRef 0) _ _ too_much Sq Fb Fe Bb Be brackets_grammar 60 (text "((a]") start)
    as (_ & A).
  destruct (A _ _ E) as (N & u & t & X & W & L). split; [|exact N].
  assert (P : u = text "((a" /\ t = text "]").
  { apply (same_place u t (text "((a") (text "]") start (mkpos 1 4 97)); auto.
    apply walk_iff. reflexivity. }
  destruct P as (-> & ->). exact L.
Qed.


(** "((a": only the end is missing. *)
Example C91_unfinished_case : begins (cfg_rules brackets) (FName 0) (text "((a").
Proof.
  destruct brackets_facts as (_ & Fb & _ & Fe), brackets_blaming as (Bb & Be).
  assert (Sq : fits_sequence c98 2) by (intros _; cbv; repeat constructor).
  apply (C91_unfinished c98 brackets (PRef 0) _ _ too_much Sq Fb Fe Bb Be brackets_grammar 60 _ start
    (unpaired 1 2 (literal_expected 41)) (mkpos 1 4 97)).
  - vm_compute; reflexivity.
  - apply walk_iff. reflexivity.
Qed.

(** Sums, with a repetition that rejects incomplete elements:
    0 ::= 1 ('+' 1)* ; 1 ::= '(' 0 ')' | digit digit*. *)
Definition sums : program := fun k =>
  match k with
  | 0%nat => PFoldlRejectIncompleteStartWithParser (PLastOf [PLitC 43; PRef 1]) (PRef 1)
               (fun a b => Some (VSeq [a; b]))
  | _ => POneOf [PMiddleOf (PLitC 40) (PRef 0) (PLitC 41); PInt]
  end.
Definition digit_or_open (k : nat) (c : char) : bool := (c =? 40) || class_of PDigit c.

Lemma digit_class : forall c, class_of PDigit c = (48 <=? c) && (c <=? 57).
Proof. intros c. simpl. unfold says_yes, is_digit. simpl. destruct (_ && _); reflexivity. Qed.

Lemma sums_tables : tables_of (fun _ => false) digit_or_open (cfg_rules sums).
Proof.
  intros [|k]; split; try discriminate; intros c H; unfold digit_or_open in *; simpl in H |- *;
    rewrite ?orb_false_r, ?says_yes_char in H; exact H.
Qed.
Lemma sums_grammar : blaming_grammar sums (PRef 0) (fun k c => sum_follow k c = true) (fun c => (c =? 41) = true).
Proof.
  destruct (C90_tables (cfg_rules sums) _ _ sum_follow sum_rank sums_tables) as (A & _ & C).
  - intros [|k]; simpl; unfold apartb, sum_follow.
    + split; [|split; [reflexivity|]].
      * intros c H. rewrite ?orb_false_r, says_yes_char in H. rewrite orb_comm. exact H.
      * split.
        -- intros c H. rewrite ?orb_false_r, says_yes_char in H. apply Z.eqb_eq in H. subst. reflexivity.
        -- split; [exact I|]. intros c H. rewrite ?orb_false_r, says_yes_char in H. rewrite orb_comm. exact H.
    + split; [reflexivity|]. split.
      * intros c H. rewrite ?orb_false_r, says_yes_char in H. apply Z.eqb_eq in H. subst. reflexivity.
      * split; [discriminate|]. split.
        -- split; [exact I|]. split; [|exact I].
           intros c H. rewrite ?orb_false_r, says_yes_char in H. exact H.
        -- split; [exact I|]. split; [reflexivity|]. split; [|exact I].
           intros c H. pose proof (digit_class c) as D. simpl in D. rewrite D in H. chars.
  - intros [|k] j; simpl; intros H.
    + rewrite ?orb_false_r in H. apply PeanoNat.Nat.eqb_eq in H. subst. auto.
    + discriminate.
  - assert (W1 : derives (cfg_rules sums) (cfg_rules sums 1) [48]).
    { simpl. apply d_alt_right. apply (d_seq _ _ _ [48] []); [apply d_class; reflexivity|apply d_star_nil]. }
    assert (W0 : derives (cfg_rules sums) (cfg_rules sums 0) [48]).
    { simpl. apply (d_seq _ _ _ [48] []); [apply d_name; exact W1|apply d_star_nil]. }
    split; [exact A|]. split; [apply (C (FName 0) (fun c => c =? 41)); intros c H; exact H|].
    split; [|split; [exists [48]; exact W0|split; [|exact I]]].
    + intros [|k]; simpl.
      * split; [exists [48]; exact W1|]. split; [exists 43; reflexivity|exists [48]; exact W1].
      * split; [split; [exists 40; reflexivity|split; [exists [48]; exact W0|exists 41; reflexivity]]|].
        split; exists 48; reflexivity.
    + intros [|k]; simpl; auto. split; [|auto]. intros N. inversion N; subst.
      match goal with H : _ ++ _ = [] |- _ => apply app_eq_nil in H as (-> & ->) end.
      match goal with H : derives _ (FClass _) [] |- _ => inversion H end.
Qed.

(** "1+(2+)": an operand is missing; and the error of the parsers of the same language
    with [repeated] would be elsewhere, see below. *)
Example C91_sums_case :
  eval c11 sums 60 (PEntireInput (PRef 0) too_much) (text "1+(2+)") start
    = Reject none_of_the_expected_cases_found (mkpos 1 6 43)
  /\ forall m n q, eval c11 sums n (PEntireInput (PRef 0) too_much) (text "1+(2+)") start = Reject m q ->
       exists u t, text "1+(2+)" = u ++ t /\ walk start u q
         /\ longest_beginning (cfg_rules sums) (FName 0) u t.
Proof.
  split; [vm_compute; reflexivity|]. intros m n q E.
  assert (Sq : fits_sequence c11 2) by (intros H; discriminate).
  refine (proj2 (proj2 (C91_entire_input c11 sums (PRef 0) _ _ too_much Sq _ _ _ _ sums_grammar n _ start) _ _ E)).
  - intros [|k]; unfold sums, PInt, PDigitVal, PDigit, PLitC; parts.
  - parts.
  - intros [|k]; unfold sums, PInt, PDigitVal, PDigit, PLitC; parts.
  - parts.
Qed.

(** The alternatives in the other order and another standard: the errors stay. *)
Local Definition brackets' : program := fun _ =>
  POneOf [PLetter; PMiddleOf (PLitC 40) (PRef 0) (PLitC 41)].
Lemma brackets_tables' : tables_of (fun _ => false) letter_or_open (cfg_rules brackets').
Proof.
  intros k. split; [discriminate|]. intros c H. unfold letter_or_open. simpl in H |- *.
  rewrite ?orb_false_r, says_yes_char in H. rewrite orb_comm. exact H.
Qed.
Lemma brackets_grammar' :
  blaming_grammar brackets' (PRef 0) (fun k c => (c =? 41) = true) (fun c => (c =? 41) = true).
Proof.
  destruct (C90_tables (cfg_rules brackets') _ _ (fun _ c => c =? 41) (fun _ => 0%nat) brackets_tables') as (A & _ & C).
  - intros k. simpl. split; [reflexivity|]. split.
    + intros c H. rewrite ?orb_false_r, says_yes_char. apply Z.eqb_neq. intros ->. discriminate H.
    + split; [discriminate|]. split; [exact I|]. split; [exact I|]. split; [|exact I].
      intros c H. rewrite ?orb_false_r, says_yes_char in H. exact H.
  - intros k j H. discriminate.
  - assert (W : exists w, derives (cfg_rules brackets') (cfg_rules brackets' 0) w).
    { exists [97]. simpl. apply d_alt_left. apply (d_class _ _ 97). reflexivity. }
    split; [exact A|]. split; [intros c H; exact H|].
    split; [|split; [exact W|split; [|exact I]]].
    + intros k. simpl. split; [exists 97; reflexivity|].
      split; [exists 40; reflexivity|]. split; [exact W|exists 41; reflexivity].
    + intros k. simpl. auto.
Qed.
Example C91_same_error_case : forall n1 n2 s ps m q m' q',
  eval c98 brackets n1 (PEntireInput (PRef 0) too_much) s ps = Reject m q ->
  eval c11 brackets' n2 (PEntireInput (PRef 0) too_much) s ps = Reject m' q' -> q = q'.
Proof.
  intros n1 n2 s ps.
  destruct brackets_facts as (_ & Fb & _ & Fe), brackets_blaming as (Bb & Be).
  assert (Sq : fits_sequence c98 2) by (intros _; cbv; repeat constructor).
  assert (Sq' : fits_sequence c11 2) by (intros H; discriminate).
  refine (proj2 (C91_same_error c98 brackets (PRef 0) _ _ too_much c11 brackets' (PRef 0) _ _ too_much Sq Sq'
    Fb Fe Bb Be brackets_grammar _ _ _ _ brackets_grammar' _ n1 n2 s ps)).
  - intros k. unfold brackets', PLitC, PLetter. parts.
  - parts.
  - intros k. unfold brackets', PLitC, PLetter. parts.
  - parts.
  - intros w. split; intros D; (eapply reordered_derives; [|exact D|apply ro_same]);
      intros k; apply ro_swap; apply ro_same.
Qed.

(** ** The conditions are needed *)

Local Definition anything : program := fun _ => POneChar.
Lemma anything_tables : forall g F,
  one_decides_t (fun _ => false) (fun _ _ => true) (fun _ _ => true) g F ->
  ll1_grammar (cfg_rules anything) (fun _ _ => true = true)
  /\ one_decides (cfg_rules anything) (fun _ _ => true = true) g (fun c => F c = true).
Proof.
  intros g F H. destruct (C90_tables (cfg_rules anything) (fun _ => false) (fun _ _ => true) (fun _ _ => true)
    (fun _ => 0%nat)) as (A & _ & C); auto.
  - intros k. split; [discriminate|auto].
  - intros k. exact I.
  - intros k j X. discriminate.
Qed.
Ltac lits := intros ?c ?H; rewrite ?orb_false_r, ?says_yes_char in *;
  match goal with H : _ = true |- _ => apply Z.eqb_eq in H; subst; reflexivity end.
Local Definition ab := PLastOf [PLitC 97; PLitC 98].

(** A repetition that gives up what it began: (ab)* c and "ax", where the error is
    at the a although the a is in order. *)
Theorem C91_repetition_refuted : exists cfg env e follow F n s ps m q,
  program_every (fits cfg) env /\ every (fits cfg) e /\ program_every blaming env
  /\ blaming_grammar env e follow F
  /\ eval cfg env n e s ps = Reject m q
  /\ ~ exists u t, s = u ++ t /\ walk ps u q /\ longest_beginning (cfg_rules env) (cfg_of e) u t.
Proof.
  exists c11, anything, (PLastOf [PRepeated ab; PLitC 99]),
    (fun _ _ => true = true), (fun c => false = true), 3%nat, (text "ax"), start, (literal_expected 99), start.
  split; [intros k; parts|]. split; [unfold ab, PRepeated, PLitC; parts|]. split; [intros k; parts|].
  split; [|split; [vm_compute; reflexivity|]].
  - destruct (anything_tables (cfg_of (PLastOf [PRepeated ab; PLitC 99])) (fun _ => false)) as (A & B).
    { simpl. split; [|exact I]. split; [reflexivity|]. split; [lits|auto]. }
    split; [exact A|]. split; [exact B|]. split; [intros k; exists 97; reflexivity|].
    split; [split; [split; [exists 97|exists 98]; reflexivity|exists 99; reflexivity]|]. split; [intros k; exact I|simpl; auto].
  - intros (u & t & E & W & L).
    destruct (same_place u t [] (text "ax") start start (eq_sym E) W (walk_nil start)) as (-> & ->).
    destruct L as (_ & L). apply L. exists [98; 99]. simpl.
    apply (d_seq _ _ _ [97; 98] [99]); [|apply d_class; reflexivity].
    apply (d_star_more _ _ [97; 98] []); [|apply d_star_nil].
    apply (d_seq _ _ _ [97] [98]); apply d_class; reflexivity.
Qed.
Print Assumptions C91_repetition_refuted.

(** A new error message moves the error to where the parser started. *)
Theorem C91_change_error_message_refuted : exists cfg env p m0 follow F n s ps m q,
  program_every (fits cfg) env /\ every (fits cfg) p /\ program_every blaming env /\ every blaming p
  /\ blaming_grammar env (PChangeErrorMessage p m0) follow F
  /\ eval cfg env n (PChangeErrorMessage p m0) s ps = Reject m q
  /\ ~ exists u t, s = u ++ t /\ walk ps u q
        /\ longest_beginning (cfg_rules env) (cfg_of (PChangeErrorMessage p m0)) u t.
Proof.
  exists c11, anything, ab, too_much,
    (fun _ _ => true = true), (fun c => false = true), 3%nat, (text "ax"), start, too_much, start.
  split; [intros k; parts|]. split; [unfold ab, PLitC; parts|]. split; [intros k; parts|].
  split; [unfold ab, PLitC; parts|].
  split; [|split; [vm_compute; reflexivity|]].
  - destruct (anything_tables (cfg_of ab) (fun _ => false)) as (A & B); [simpl; auto|].
    split; [exact A|]. split; [exact B|]. split; [intros k; exists 97; reflexivity|].
    split; [split; [exists 97|exists 98]; reflexivity|]. split; [intros k; exact I|simpl; auto].
  - intros (u & t & E & W & L).
    destruct (same_place u t [] (text "ax") start start (eq_sym E) W (walk_nil start)) as (-> & ->).
    destruct L as (_ & L). apply L. exists [98].
    apply (d_seq _ _ _ [97] [98]); apply d_class; reflexivity.
Qed.
Print Assumptions C91_change_error_message_refuted.

(** So does an optional part of more than one character: (ab)? c and "ax". *)
Theorem C91_optional_refuted : exists cfg env e follow F n s ps m q,
  program_every (fits cfg) env /\ every (fits cfg) e /\ program_every blaming env /\ every blaming e
  /\ ll1_grammar (cfg_rules env) follow /\ one_decides (cfg_rules env) follow (cfg_of e) F
  /\ (forall k, productive (cfg_rules env) (cfg_rules env k)) /\ productive (cfg_rules env) (cfg_of e)
  /\ eval cfg env n e s ps = Reject m q
  /\ ~ exists u t, s = u ++ t /\ walk ps u q /\ longest_beginning (cfg_rules env) (cfg_of e) u t.
Proof.
  exists c11, anything, (PLastOf [POptional ab VVoid_; PLitC 99]),
    (fun _ _ => true = true), (fun c => false = true), 3%nat, (text "ax"), start, (literal_expected 99), start.
  split; [intros k; parts|]. split; [unfold ab, PLitC; parts|]. split; [intros k; parts|].
  split; [unfold ab, PLitC; parts|].
  destruct (anything_tables (cfg_of (PLastOf [POptional ab VVoid_; PLitC 99])) (fun _ => false)) as (A & B).
  { simpl. split; [|exact I]. split; [reflexivity|]. split; [discriminate || (intros c H; reflexivity)|].
    split; [intros _; lits|auto]. }
  split; [exact A|]. split; [exact B|]. split; [intros k; exists 97; reflexivity|].
  split; [split; [split; [split; [exists 97|exists 98]; reflexivity|exact I]|exists 99; reflexivity]|].
  split; [vm_compute; reflexivity|].
  intros (u & t & E & W & L).
  destruct (same_place u t [] (text "ax") start start (eq_sym E) W (walk_nil start)) as (-> & ->).
  destruct L as (_ & L). apply L. exists [98; 99]. simpl.
  apply (d_seq _ _ _ [97; 98] [99]); [|apply d_class; reflexivity].
  apply d_alt_left. apply (d_seq _ _ _ [97] [98]); apply d_class; reflexivity.
Qed.
Print Assumptions C91_optional_refuted.
