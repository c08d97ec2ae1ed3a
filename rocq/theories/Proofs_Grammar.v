(** Proofs about the rule parser of grammar.hpp (C39). *)

From Coq Require Import ZArith List Bool Lia.
From Verif Require Import Base Util Combinators Variadic Parsers Deep Grammar Spec SpecDeep SpecTerm
  SpecType SpecGrammar Proofs_Pos Proofs_Fold Proofs_Variadic Proofs_Parsers Proofs_Parsers2
  Proofs_Deep Proofs_Final1 Proofs_Final2 Proofs_Final3 Proofs_Final5 Proofs_Term Proofs_Type
  Properties_Deep Properties_Term Properties_Type.
Import ListNotations.
Open Scope Z_scope.

(** ** The rule parser always gives a verdict *)

Definition nul0 : nat -> bool := fun _ => false.
Definition rank0 : nat -> nat := fun _ => 0%nat.

Ltac every_solve :=
  repeat first
    [ progress (intros; simpl in *; subst)
    | match goal with
      | H : _ \/ _ |- _ => destruct H
      | H : False |- _ => destruct H
      end
    | apply every_intro; [simpl; auto|] ].

Lemma rule_program_well_founded : well_founded_program nul0 rank0 1 0 rule_program.
Proof.
  constructor.
  - intros k. unfold rule_program, expression.
    every_solve; auto.
  - reflexivity.
  - reflexivity.
Qed.

Lemma rule_parser_loops : every (loops_read nul0 rank0 1 0) rule_parser.
Proof. unfold rule_parser. every_solve; auto. Qed.
Lemma name_token_loops : every (loops_read nul0 rank0 1 0) name_token.
Proof. unfold name_token. every_solve; auto. Qed.

Definition a_char : ty := fun v => exists c, v = VChar c.
Definition a_gram : ty := fun v => exists e, v = VGram e.
Definition a_str : ty := fun v => exists s, v = VStr s.
Definition anything : ty := fun _ => True.

Section Rules.

Variable cfg : config.
Hypothesis fits_g : grammar_fits cfg.

Lemma fo : forall k, (k <= 5)%nat -> fits_one_of cfg k.
Proof. intros k L E. destruct fits_g as (H & _). specialize (H E). lia. Qed.
Lemma fs : forall k, (k <= 3)%nat -> fits_sequence cfg k.
Proof. intros k L E. destruct fits_g as (_ & H & _). specialize (H E). lia. Qed.
Lemma fe : fits_one_char_except cfg 1.
Proof. apply fits_g. Qed.

Definition Gg : nat -> ty := fun _ => a_gram.

Lemma lit_char : forall c, typed cfg Gg (PLitC c) a_char.
Proof. intros c. eapply T_sub; [apply lit_typed|]. intros v ->. eexists; eauto. Qed.

Lemma digit_char_typed : typed cfg Gg PDigit a_char.
Proof.
  unfold PDigit. eapply T_sub.
  - eapply T_accept_when; [apply T_change_error_message, T_one_char|]. intros v (d & ->). discriminate.
  - intros v (H & _). exact H.
Qed.

Lemma space_typed : typed cfg Gg PSpace a_char.
Proof.
  unfold PSpace. eapply T_sub.
  - eapply T_accept_when; [apply T_one_char|]. intros v (d & ->). discriminate.
  - intros v (H & _). exact H.
Qed.

Definition a_seq : ty := fun v => exists l, v = VSeq l.

Lemma repeated_typed : forall p A, typed cfg Gg p A -> typed cfg Gg (PRepeated p) a_seq.
Proof.
  intros p A H. eapply T_foldl; [exact H | eexists; eauto|].
  intros v w (l & ->) _. eexists; split; [reflexivity|]. eexists; eauto.
Qed.

Lemma token_typed : forall p A, typed cfg Gg p A -> typed cfg Gg (PToken p) A.
Proof.
  intros p A H. unfold PToken. eapply T_first_of; [apply fs; simpl; lia|].
  constructor; [exact H|]. constructor; [|constructor].
  eapply repeated_typed. apply space_typed.
Qed.

Lemma one_of_typed : forall l A, (length l <= 5)%nat -> (forall p, In p l -> typed cfg Gg p A) ->
  typed cfg Gg (POneOf l) A.
Proof.
  intros l A L H. apply T_one_of; [apply fo; auto|].
  clear L. induction l as [|p l IH]; simpl; constructor.
  - apply H; simpl; auto.
  - apply IH. intros q I. apply H. simpl; auto.
Qed.

Lemma char_token_typed : typed cfg Gg char_token a_char.
Proof.
  unfold char_token. eapply T_middle_of; [apply fs; lia | apply lit_char | | apply token_typed, lit_char].
  apply one_of_typed; [simpl; lia|]. intros p [<-|[<-|[]]].
  - eapply (T_last_of _ _ _ _ [_]); [apply fs; simpl; lia|]. simpl app.
    constructor; [apply lit_char|]. constructor; [|constructor].
    apply one_of_typed; [simpl; lia|].
    intros p [<-|[<-|[<-|[<-|[<-|[]]]]]]; try apply lit_char.
    all: eapply T_always; [apply lit_char | eexists; eauto].
  - eapply T_sub; [apply T_one_char_except_c, fe|]. intros v (c & -> & _). eexists; eauto.
Qed.

Lemma name_token_typed : typed cfg Gg name_token a_str.
Proof.
  unfold name_token. apply token_typed.
  eapply (T_foldr1 _ _ _ a_char).
  - apply one_of_typed; [simpl; lia|]. intros p [<-|[<-|[]]]; [|apply lit_char].
    apply one_of_typed; [simpl; lia|]. intros p [<-|[<-|[]]]; [|apply digit_char_typed].
    eapply T_sub; [apply letter_typed|]. intros v (c & -> & _). eexists; eauto.
  - eexists; eauto.
  - intros v w (s & ->) (c & ->). eexists; split; [reflexivity|]. eexists; eauto.
Qed.

Lemma name_expression_typed : typed cfg Gg name_expression a_gram.
Proof.
  apply one_of_typed; [simpl; lia|]. intros p [<-|[<-|[<-|[]]]].
  - eapply T_transform; [apply char_token_typed|]. intros v (c & ->).
    eexists; split; [reflexivity|]. eexists; eauto.
  - eapply T_transform; [apply name_token_typed|]. intros v (c & ->).
    eexists; split; [reflexivity|]. eexists; eauto.
  - eapply T_middle_of; [apply fs; lia | apply token_typed, lit_char | apply (T_ref cfg Gg 0) |
      apply token_typed, lit_char].
Qed.

Lemma repeated_expression_typed : typed cfg Gg repeated_expression a_gram.
Proof.
  eapply (T_foldl_swp _ _ _ _ a_char); [| apply name_expression_typed|intros (e & X); discriminate X|].
  - apply one_of_typed; [simpl; lia|]. intros p [<-|[<-|[]]]; apply token_typed, lit_char.
  - intros v w (e & ->) (c & ->). eexists; split; [reflexivity|]. eexists; eauto.
Qed.

Lemma seq_expression_typed : typed cfg Gg seq_expression a_gram.
Proof.
  eapply T_foldl_swp; [apply repeated_expression_typed | apply repeated_expression_typed|intros (e & X); discriminate X|].
  intros v w (e & ->) (c & ->). eexists; split; [reflexivity|]. eexists; eauto.
Qed.

Lemma expression_typed : typed cfg Gg expression a_gram.
Proof.
  eapply T_foldl_swp; [| apply seq_expression_typed|intros (e & X); discriminate X|].
  - eapply (T_last_of _ _ _ _ [_]); [apply fs; simpl; lia|]. simpl app.
    constructor; [apply token_typed, lit_char|]. constructor; [|constructor].
    apply seq_expression_typed.
  - intros v w (e & ->) (c & ->). eexists; split; [reflexivity|]. eexists; eauto.
Qed.

Lemma rule_program_typed : forall k, typed cfg Gg (rule_program k) (Gg k).
Proof. intros k. apply expression_typed. Qed.

Definition rule_type : ty := seq_of [a_str; anything; a_gram].

Lemma rule_parser_typed : typed cfg Gg rule_parser rule_type.
Proof.
  apply T_entire_input; [apply fs; lia|].
  apply T_sequence; [apply fs; simpl; lia | discriminate|].
  constructor; [apply name_token_typed|]. constructor.
  { apply token_typed. apply T_keyword. exact I. }
  constructor; [|constructor]. apply (T_ref cfg Gg 0).
Qed.

Notation ev := (eval cfg rule_program).

(** Enough depth for the text [s]. *)
Definition enough (n : nat) (s : str) : Prop := (2 * length s + 3 < n)%nat.

Lemma verdict : forall p T n s ps, every (loops_read nul0 rank0 1 0) p ->
  left_ok nul0 rank0 1 p = true -> typed cfg Gg p T -> enough n s -> finishes (ev n p) s ps.
Proof.
  intros p T n s ps H L Ty E.
  eapply (C47_verdict cfg nul0 rank0 1 0 Gg rule_program p 1 T rule_program_well_founded H L
    rule_program_typed Ty). unfold enough in E. lia.
Qed.

(** ** Parsers of single characters *)

Definition chars (P : char -> Prop) (p : pfun) : Prop :=
  (forall s ps v s' ps', p s ps = Accept v s' ps' <->
     exists c, P c /\ s = c :: s' /\ v = VChar c /\ walk ps [c] ps')
  /\ (forall s ps, finishes p s ps).

Lemma class_chars : forall P m1 m2 p, char_class_parser P m1 m2 p ->
  (forall c, {P c} + {~ P c}) -> chars P p.
Proof.
  intros P m1 m2 p H D. split.
  - intros. apply (class_accept P m1 m2 p H D).
  - intros. apply (class_finishes P m1 m2 p H D).
Qed.

Lemma lit_chars : forall c, chars (fun d => d = c) (lit_c c).
Proof. intros c. eapply class_chars; [apply lit_c_class|]. intros d. apply Z.eq_dec. Qed.

Lemma alphanum_chars : chars alphanum_char (alphanum cfg).
Proof.
  eapply class_chars; [apply alphanum_class, fo; lia|].
  intros c. unfold alphanum_char. destruct (letter_dec c), (digit_dec c); tauto.
Qed.

Lemma except_chars : chars (fun d => d <> 39) (one_char_except_c cfg [39]).
Proof.
  assert (C : char_class_parser (fun d => d <> 39) unexpected_end_of_input unexpected_character
            (one_char_except_c cfg [39])).
  { destruct (one_char_except_c_class cfg [39] fe) as (A & B & C). split; [|split]; auto.
    - intros c s ps ps' H. apply A. intros [<-|[]]. auto.
    - intros c s ps H. apply B. simpl. intros N. apply N.
      destruct (Z.eq_dec c 39); [left; auto | contradiction]. }
  eapply class_chars; [exact C|].
  intros d. destruct (Z.eq_dec d 39); [right|left]; tauto.
Qed.

Lemma first_accepting_cons : forall p l s ps o,
  first_accepting (p :: l) s ps o <->
  (p s ps = o /\ accepts p s ps /\ (forall q, In q l -> finishes q s ps))
  \/ (rejects p s ps /\ first_accepting l s ps o).
Proof.
  intros p l s ps o. split.
  - intros (F & l1 & q & l2 & E & R & Eq & A). destruct l1 as [|q1 l1]; simpl in E; injection E; intros; subst.
    + left. repeat split; auto. intros q' I'. apply F. simpl; auto.
    + right. split; [apply R; simpl; auto|]. split.
      * intros q' I'. apply F. simpl; auto.
      * exists l1, q, l2. repeat split; auto. intros q' I'. apply R. simpl; auto.
  - intros [(E & A & F)|(R & F & l1 & q & l2 & -> & R2 & Eq & A)].
    + split.
      * intros q [<-|I']; auto. left; auto.
      * exists [], p, l. repeat split; auto. intros q [].
    + split.
      * intros q' [<-|I']; auto. right; auto.
      * exists (p :: l1), q, l2. repeat split; auto. intros q' [<-|I']; auto.
Qed.

Lemma first_accepting_nil : forall s ps o, ~ first_accepting [] s ps o.
Proof. intros s ps o (_ & l1 & p & l2 & E & _). destruct l1; discriminate. Qed.

Lemma one_of_finishes : forall l s ps, fits_one_of cfg (length l) ->
  (forall q, In q l -> finishes q s ps) -> finishes (one_of cfg l) s ps.
Proof.
  intros l s ps F H. destruct (one_of cfg l s ps) eqn:E.
  - left; do 3 eexists; eauto.
  - right; do 2 eexists; eauto.
  - apply one_of_cfg_unfinished_iff in E; auto. destruct E as (l1 & p & l2 & -> & _ & E & _).
    destruct (H p) as [(r & s' & ps' & E')|(m & pe & E')]; [apply in_or_app; simpl; auto| |]; congruence.
  - apply one_of_cfg_unfinished_iff in E; auto. destruct E as (l1 & p & l2 & -> & _ & E & _).
    destruct (H p) as [(r & s' & ps' & E')|(m & pe & E')]; [apply in_or_app; simpl; auto| |]; congruence.
Qed.

Lemma finishes_rejects : forall p s ps, finishes p s ps ->
  (forall v s' ps', p s ps <> Accept v s' ps') -> rejects p s ps.
Proof. intros p s ps [(v & s' & ps' & E)|R] H; auto. destruct (H _ _ _ E). Qed.

Lemma rejects_not_accept : forall p s ps v s' ps', rejects p s ps -> p s ps <> Accept v s' ps'.
Proof. intros p s ps v s' ps' (m & pe & E). congruence. Qed.

Lemma chars_one_of : forall P Q p q, chars P p -> chars Q q ->
  chars (fun c => P c \/ Q c) (one_of cfg [p; q]).
Proof.
  intros P Q p q (A1 & F1) (A2 & F2). split.
  - intros s ps v s' ps'. rewrite one_of_cfg_accept by (apply fo; simpl; lia).
    rewrite !first_accepting_cons. split.
    + intros [(E & _)|(_ & [(E & _)|(_ & E)])].
      * apply A1 in E as (c & H). exists c. tauto.
      * apply A2 in E as (c & H). exists c. tauto.
      * destruct (first_accepting_nil _ _ _ E).
    + intros (c & H & -> & -> & W).
      destruct (F1 (c :: s') ps) as [(r & s1 & ps1 & E)|R].
      * left. assert (E' := E). apply A1 in E' as (d & _ & Ed & -> & W').
        injection Ed; intros; subst. rewrite (walk_functional _ _ _ W' _ W) in E. rewrite E.
        split; auto. split; [do 3 eexists; eauto|]. intros q' [<-|[]]. auto.
      * right. split; auto. left.
        assert (E : q (c :: s') ps = Accept (VChar c) s' ps').
        { apply A2. exists c. repeat split; auto. destruct H as [H|H]; auto.
          exfalso. apply (rejects_not_accept _ _ _ (VChar c) s' ps' R). apply A1. eauto. }
        split; auto. split; [do 3 eexists; eauto | intros ? []].
  - intros s ps. apply one_of_finishes; [apply fo; simpl; lia|].
    intros r [<-|[<-|[]]]; auto.
Qed.

Lemma name_chars : chars name_char (one_of cfg [alphanum cfg; lit_c 95]).
Proof.
  destruct (chars_one_of _ _ _ _ alphanum_chars (lit_chars 95)) as (A & F). split; auto.
  intros. rewrite A. split; intros (c & H & R); exists c; split; auto;
    unfold name_char, alphanum_char in *; tauto.
Qed.

Lemma chars_runs : forall P p, chars P p ->
  forall rs s ps s' ps', runs p s ps rs s' ps' <->
    exists w, s = w ++ s' /\ Forall P w /\ rs = map VChar w /\ walk ps w ps'.
Proof.
  intros P p (A & _) rs. induction rs as [|r rs IH]; intros s ps s' ps'; split.
  - intros R; inversion R; subst. exists []. repeat split; auto. constructor.
  - intros (w & -> & _ & E & W). destruct w; [|discriminate].
    apply walk_nil_iff in W as ->. constructor.
  - intros R. apply runs_cons_inv in R as (s1 & ps1 & E & R).
    apply A in E as (c & Pc & -> & -> & W).
    apply IH in R as (w & -> & F & -> & W2).
    exists (c :: w). repeat split; auto. eapply walk_cons; eauto.
  - intros (w & -> & F & E & W). destruct w as [|c w]; [discriminate|].
    simpl in E; injection E; intros -> ->.
    apply walk_cons_inv in W as (ps1 & W1 & W2). inversion F; subst.
    econstructor.
    + apply A. exists c. repeat split; eauto.
    + apply IH. exists w; auto.
Qed.

(** ** Cutting tokens off a text *)

Inductive cut : str -> list tok -> str -> Prop :=
| cut_nil : forall s, cut s [] s
| cut_cons : forall k l w t ts rem,
    lexeme k l -> Forall space_char w -> not_starting_with space_char t ->
    (is_name k -> w = [] -> not_starting_with name_char t) ->
    cut t ts rem -> cut (l ++ w ++ t) (k :: ts) rem.

Lemma cut_cons_inv : forall s k ts rem, cut s (k :: ts) rem -> exists l w t, s = l ++ w ++ t /\
  lexeme k l /\ Forall space_char w /\ not_starting_with space_char t /\
  (is_name k -> w = [] -> not_starting_with name_char t) /\ cut t ts rem.
Proof. intros s k ts rem H. inversion H; subst. exists l, w, t. repeat split; auto. Qed.

Lemma cut_app : forall s ts m us rem, cut s ts m -> cut m us rem -> cut s (ts ++ us) rem.
Proof. intros s ts m us rem H. induction H; simpl; auto. intros. constructor; auto. Qed.

Lemma cut_app_inv : forall ts s us rem, cut s (ts ++ us) rem ->
  exists m, cut s ts m /\ cut m us rem.
Proof.
  induction ts as [|k ts IH]; simpl; intros s us rem H.
  - exists s. split; auto. constructor.
  - apply cut_cons_inv in H as (l & w & t & -> & ? & ? & ? & ? & H). destruct (IH _ _ _ H) as (m & A & B).
    exists m. split; auto. constructor; auto.
Qed.

Lemma cut_one : forall k l w t, lexeme k l -> Forall space_char w ->
  not_starting_with space_char t -> (is_name k -> w = [] -> not_starting_with name_char t) ->
  cut (l ++ w ++ t) [k] t.
Proof. intros. constructor; auto. constructor. Qed.

Lemma cut_one_inv : forall s k rem, cut s [k] rem -> exists l w, s = l ++ w ++ rem /\
  lexeme k l /\ Forall space_char w /\ not_starting_with space_char rem /\
  (is_name k -> w = [] -> not_starting_with name_char rem).
Proof.
  intros s k rem H. apply cut_cons_inv in H as (l & w & t & -> & ? & ? & ? & ? & H).
  inversion H; subst. exists l, w. auto.
Qed.

Lemma lexeme_nonempty : forall k l, lexeme k l -> l <> [].
Proof. intros k l H. destruct H; auto; discriminate. Qed.

Lemma lexeme_no_space : forall k l t, lexeme k l -> not_starting_with space_char (l ++ t).
Proof.
  intros k l t H. destruct H; simpl; try (unfold space_char; lia).
  destruct s as [|c s]; [congruence|]. simpl. inversion H0; subst.
  unfold name_char, letter_char, digit_char, space_char in *. lia.
Qed.

Lemma spells_cut : forall ts s, spells ts s <-> cut s ts [].
Proof.
  intros ts s. split; intros H.
  - induction H; constructor; auto.
    destruct H1; simpl; auto. eapply lexeme_no_space; eauto.
  - remember [] as rem in H. induction H; subst; constructor; auto.
Qed.

Lemma cut_length : forall s ts rem, cut s ts rem -> (length rem + length ts <= length s)%nat.
Proof.
  intros s ts rem H. induction H; simpl; try lia.
  rewrite !app_length. apply lexeme_nonempty in H. destruct l; [congruence|]. simpl. lia.
Qed.

(** ** The token parsers *)

Lemma ev_token : forall n p, ev n (PToken p) = token cfg n (ev n p).
Proof. destruct n; reflexivity. Qed.
Lemma ev_lit : forall n c, ev n (PLitC c) = lit_c c.
Proof. destruct n; reflexivity. Qed.
Lemma ev_define : forall n, ev n define_token = token cfg n (keyword [58; 58; 61] VVoid_).
Proof. destruct n; reflexivity. Qed.
Lemma ev_name : forall n, ev n name_token =
  token cfg n (foldr1 n (one_of cfg [alphanum cfg; lit_c 95]) (VStr []) front_inserter).
Proof. destruct n; reflexivity. Qed.

(** [p] reads the tokens in [F]. *)
Definition sound_tok (F : tok -> value -> Prop) (p : pfun) : Prop :=
  forall s ps v s' ps', p s ps = Accept v s' ps' -> exists k, F k v /\ cut s [k] s'.
Definition complete_tok (F : tok -> value -> Prop) (n : nat) (p : pfun) : Prop :=
  forall k v s ps s', F k v -> cut s [k] s' -> (length s < n)%nat ->
    exists ps', p s ps = Accept v s' ps'.

Lemma token_lit_sound : forall n k c, lexeme k [c] -> ~ is_name k ->
  sound_tok (fun k' v => k' = k /\ v = VChar c) (ev n (PToken (PLitC c))).
Proof.
  intros n k c L N s ps v s' ps' E.
  rewrite ev_token, ev_lit in E. apply token_accept in E; [|apply fs; lia].
  destruct E as (s1 & ps1 & w & E & -> & Fw & Ns & _ & _).
  apply (lit_chars c) in E as (d & -> & -> & -> & _).
  exists k. split; auto. apply (cut_one k [c] w s'); auto. tauto.
Qed.

Lemma token_lit_complete : forall n k c, (forall l, lexeme k l -> l = [c]) ->
  complete_tok (fun k' v => k' = k /\ v = VChar c) n (ev n (PToken (PLitC c))).
Proof.
  intros n k c L k' v s ps s' (-> & ->) C Ln.
  apply cut_one_inv in C as (l & w & -> & Lk & Fw & Ns & _). apply L in Lk as ->.
  exists (adv (adv ps [c]) w).
  rewrite ev_token, ev_lit. apply token_accept; [apply fs; lia|].
  exists (w ++ s'), (adv ps [c]), w. repeat split; auto.
  - apply (lit_chars c). exists c. repeat split; auto. apply walk_adv.
  - rewrite !app_length in Ln. lia.
  - apply walk_adv.
Qed.

Lemma define_sound : forall n, sound_tok (fun k' v => k' = TDef /\ v = VVoid_) (ev n define_token).
Proof.
  intros n s ps v s' ps' E.
  rewrite ev_define in E. apply token_accept in E; [|apply fs; lia].
  destruct E as (s1 & ps1 & w & E & -> & Fw & Ns & _ & _).
  apply keyword_accept in E as (-> & -> & _).
  exists TDef. split; auto. apply (cut_one TDef [58; 58; 61] w s'); auto; [constructor|].
  intros (x & X); discriminate.
Qed.

Lemma define_complete : forall n, complete_tok (fun k' v => k' = TDef /\ v = VVoid_) n (ev n define_token).
Proof.
  intros n k v s ps s' (-> & ->) C Ln.
  apply cut_one_inv in C as (l & w & -> & Lk & Fw & Ns & _). inversion Lk; subst.
  exists (adv (adv ps [58; 58; 61]) w).
  rewrite ev_define. apply token_accept; [apply fs; lia|].
  rewrite !app_length in Ln.
  exists (w ++ s'), (adv ps [58; 58; 61]), w.
  assert (K : keyword [58; 58; 61] VVoid_ ([58; 58; 61] ++ w ++ s') ps
              = Accept VVoid_ (w ++ s') (adv ps [58; 58; 61])).
  { apply keyword_accept. repeat split; auto. apply walk_adv. }
  splits; auto; try lia. apply walk_adv.
Qed.

Lemma rfold_string : forall w, rfold front_inserter (map VChar w) (VStr []) = Some (VStr w).
Proof. induction w as [|c w IH]; simpl; auto. rewrite IH. reflexivity. Qed.

Definition name_of (k : tok) (v : value) : Prop := exists s, k = TName s /\ v = VStr s.

Lemma name_sound : forall n, sound_tok name_of (ev n name_token).
Proof.
  intros n s ps v s' ps' E.
  rewrite ev_name in E. apply token_accept in E;
    [|apply fs; lia].
  destruct E as (s1 & ps1 & w & E & -> & Fw & Ns & _ & _).
  apply foldr1_accept in E as (rs & m & pe & Ne & _ & R & Rej & Fo).
  apply (chars_runs _ _ name_chars) in R as (x & -> & Fx & -> & _).
  rewrite rfold_string in Fo. injection Fo; intros <-.
  exists (TName x). split; [exists x; auto|].
  apply (cut_one (TName x) x w s'); auto.
  - constructor; auto. destruct x; [destruct (Ne eq_refl) | discriminate].
  - intros _ ->. destruct s' as [|c s']; simpl; auto. intros Nc.
    simpl in Rej. destruct name_chars as (A & _).
    assert (E : one_of cfg [alphanum cfg; lit_c 95] (c :: s') ps1
                = Accept (VChar c) s' (adv ps1 [c])).
    { apply A. exists c. repeat split; auto. apply walk_adv. }
    rewrite E in Rej. discriminate.
Qed.

Lemma name_complete : forall n, complete_tok name_of n (ev n name_token).
Proof.
  intros n k v s ps s' (x & -> & ->) C Ln.
  apply cut_one_inv in C as (l & w & -> & Lk & Fw & Ns & Nn). inversion Lk; subst.
  rewrite !app_length in Ln.
  exists (adv (adv ps l) w).
  rewrite ev_name. apply token_accept;
    [apply fs; lia|].
  exists (w ++ s'), (adv ps l), w. repeat split; auto; [| |apply walk_adv]; [|lia].
  apply foldr1_accept.
  assert (Rej : rejects (one_of cfg [alphanum cfg; lit_c 95]) (w ++ s') (adv ps l)).
  { apply finishes_rejects; [apply name_chars|]. intros v s1 ps1 E.
    apply name_chars in E as (c & Nc & E & _).
    destruct w as [|d w]; simpl in E.
    - subst s'. apply Nn; auto. eexists; eauto.
    - injection E; intros _ ->. inversion Fw; subst.
      unfold name_char, letter_char, digit_char, space_char in *. lia. }
  destruct Rej as (m & pe & Rej).
  exists (map VChar l), m, pe. repeat split.
  - destruct l; [congruence | discriminate].
  - rewrite map_length. lia.
  - apply (chars_runs _ _ name_chars). exists l. repeat split; auto. apply walk_adv.
  - exact Rej.
  - apply rfold_string.
Qed.

(** *** Character literals *)

Inductive escape : char -> char -> Prop :=
| es_n : escape 110 10
| es_r : escape 114 13
| es_t : escape 116 9
| es_b : escape 92 92
| es_a : escape 39 39.

Definition escape_parsers : list pfun :=
  [always (lit_c 110) (VChar 10); always (lit_c 114) (VChar 13); always (lit_c 116) (VChar 9);
   lit_c 92; lit_c 39].

Lemma always_lit : forall a b s ps v s' ps', always (lit_c a) (VChar b) s ps = Accept v s' ps' <->
  s = a :: s' /\ v = VChar b /\ walk ps [a] ps'.
Proof.
  intros a b s ps v s' ps'. unfold always. destruct (lit_chars a) as (A & _). split.
  - destruct (lit_c a s ps) as [x s1 ps1 | | | ] eqn:E; intros H; try discriminate.
    inversion H; subst. apply A in E as (c & -> & -> & _ & W). auto.
  - intros (-> & -> & W).
    assert (E : lit_c a (a :: s') ps = Accept (VChar a) s' ps').
    { apply A. exists a. repeat split; auto. }
    rewrite E. reflexivity.
Qed.

Lemma always_finishes : forall a b s ps, finishes (always (lit_c a) (VChar b)) s ps.
Proof.
  intros a b s ps. unfold finishes, accepts, rejects, always.
  destruct (proj2 (lit_chars a) s ps) as [(r & s1 & ps1 & E)|(m & pe & E)]; rewrite E;
    [left | right]; eauto.
Qed.

Lemma escape_parsers_finish : forall q s ps, In q escape_parsers -> finishes q s ps.
Proof.
  intros q s ps [<-|[<-|[<-|[<-|[<-|[]]]]]]; try apply always_finishes; apply lit_chars.
Qed.

Lemma lit_accept : forall a s ps v s' ps', lit_c a s ps = Accept v s' ps' <->
  s = a :: s' /\ v = VChar a /\ walk ps [a] ps'.
Proof.
  intros a s ps v s' ps'. rewrite (proj1 (lit_chars a)). split.
  - intros (c & -> & H). exact H.
  - intros H. exists a. auto.
Qed.

Lemma escape_accept : forall s ps v s' ps',
  one_of cfg escape_parsers s ps = Accept v s' ps' <->
  exists d c, escape d c /\ s = d :: s' /\ v = VChar c /\ walk ps [d] ps'.
Proof.
  intros s ps v s' ps'. rewrite one_of_cfg_accept by (apply fo; simpl; lia).
  split.
  - intros H. unfold escape_parsers in H. rewrite !first_accepting_cons, !always_lit, !lit_accept in H.
    destruct H as [((-> & -> & W) & _)|(_ & [((-> & -> & W) & _)|(_ & [((-> & -> & W) & _)|
      (_ & [((-> & -> & W) & _)|(_ & [((-> & -> & W) & _)|(_ & H)])])])])];
      try (do 2 eexists; split; [constructor|]; auto; fail).
    destruct (first_accepting_nil _ _ _ H).
  - intros (d & c & H & -> & -> & W). split; [intros; apply escape_parsers_finish; auto|].
    assert (Rj : forall a b, d <> a -> rejects (always (lit_c a) (VChar b)) (d :: s') ps).
    { intros a b N. apply finishes_rejects; [apply always_finishes|]. intros v s1 ps1 E.
      apply always_lit in E as (E & _). congruence. }
    assert (Rl : forall a, d <> a -> rejects (lit_c a) (d :: s') ps).
    { intros a N. apply finishes_rejects; [apply lit_chars|]. intros v s1 ps1 E.
      apply lit_accept in E as (E & _). congruence. }
    assert (Aj : forall b, always (lit_c d) (VChar b) (d :: s') ps = Accept (VChar b) s' ps')
      by (intros b; apply always_lit; auto).
    assert (Al : lit_c d (d :: s') ps = Accept (VChar d) s' ps') by (apply lit_accept; auto).
    unfold escape_parsers.
    destruct H.
    + exists [], (always (lit_c 110) (VChar 10)). eexists. splits; [reflexivity | intros ? [] | auto | do 3 eexists; auto].
    + eexists [_], (always (lit_c 114) (VChar 13)), _. splits; [reflexivity | | auto | do 3 eexists; auto].
      intros q [<-|[]]. apply Rj. discriminate.
    + eexists [_; _], (always (lit_c 116) (VChar 9)), _. splits; [reflexivity | | auto | do 3 eexists; auto].
      intros q [<-|[<-|[]]]; apply Rj; discriminate.
    + eexists [_; _; _], (lit_c 92), _. splits; [reflexivity | | auto | do 3 eexists; eauto].
      intros q [<-|[<-|[<-|[]]]]; apply Rj; discriminate.
    + eexists [_; _; _; _], (lit_c 39), _. splits; [reflexivity | | auto | do 3 eexists; eauto].
      intros q [<-|[<-|[<-|[<-|[]]]]]; try apply Rl; try apply Rj; discriminate.
Qed.

Definition body_parser : pfun :=
  one_of cfg [last_of cfg [lit_c 92; one_of cfg escape_parsers]; one_char_except_c cfg [39]].

Lemma ev_char : forall n, ev n char_token =
  middle_of cfg (lit_c 39) body_parser (token cfg n (lit_c 39)).
Proof. destruct n; reflexivity. Qed.

Lemma escaped_accept : forall s ps v s' ps',
  last_of cfg [lit_c 92; one_of cfg escape_parsers] s ps = Accept v s' ps' <->
  exists d c, escape d c /\ s = 92 :: d :: s' /\ v = VChar c /\ walk ps [92; d] ps'.
Proof.
  intros s ps v s' ps'. rewrite last_of_2 by (apply fs; lia). split.
  - destruct (lit_c 92 s ps) as [x s1 ps1 | | | ] eqn:E; intros H; try discriminate.
    apply lit_accept in E as (-> & _ & W). apply escape_accept in H as (d & c & H & -> & -> & W2).
    exists d, c. repeat split; auto. eapply walk_cons; eauto.
  - intros (d & c & H & -> & -> & W). apply walk_cons_inv in W as (ps1 & W1 & W2).
    assert (E : lit_c 92 (92 :: d :: s') ps = Accept (VChar 92) (d :: s') ps1)
      by (apply lit_accept; auto).
    rewrite E. apply escape_accept. exists d, c. auto.
Qed.

Lemma escaped_finishes : forall s ps,
  finishes (last_of cfg [lit_c 92; one_of cfg escape_parsers]) s ps.
Proof.
  intros s ps. unfold finishes, accepts, rejects. rewrite last_of_2 by (apply fs; lia).
  destruct (proj2 (lit_chars 92) s ps) as [(r & s1 & ps1 & E)|(m & pe & E)]; rewrite E.
  - apply (one_of_finishes escape_parsers s1 ps1); [apply fo; simpl; lia|].
    intros q I. apply escape_parsers_finish; auto.
  - right; eauto.
Qed.

Lemma body_accept : forall s ps v s' ps', body_parser s ps = Accept v s' ps' <->
  (exists d c, escape d c /\ s = 92 :: d :: s' /\ v = VChar c /\ walk ps [92; d] ps')
  \/ (exists c, c <> 39 /\ (forall d c' t, escape d c' -> s <> 92 :: d :: t)
       /\ s = c :: s' /\ v = VChar c /\ walk ps [c] ps').
Proof.
  intros s ps v s' ps'. unfold body_parser. rewrite one_of_cfg_accept by (apply fo; simpl; lia).
  rewrite !first_accepting_cons, escaped_accept. split.
  - intros [(H & _)|(R & [(E & _)|(_ & E)])].
    + left; exact H.
    + apply except_chars in E as (c & N & -> & -> & W). right. exists c.
      repeat split; auto. intros d c' t Es E. injection E; intros -> ->.
      apply (rejects_not_accept _ _ _ (VChar c') t (adv ps [92; d]) R).
      apply escaped_accept. exists d, c'. repeat split; auto. apply walk_adv.
    + destruct (first_accepting_nil _ _ _ E).
  - intros [H|(c & N & Ne & -> & -> & W)].
    + left. split; auto. split.
      * apply escaped_accept in H. do 3 eexists; eauto.
      * intros q [<-|[]]. apply except_chars.
    + right. split.
      * apply finishes_rejects; [apply escaped_finishes|]. intros v s1 ps1 E.
        apply escaped_accept in E as (d & c' & Es & E & _). apply (Ne d c' s1); auto.
      * left. assert (E : one_char_except_c cfg [39] (c :: s') ps = Accept (VChar c) s' ps')
          by (apply except_chars; eauto).
        split; auto. split; [do 3 eexists; eauto | intros ? []].
Qed.

Definition char_of (k : tok) (v : value) : Prop := exists c, k = TChar c /\ v = VChar c.

Lemma char_sound : forall n, sound_tok char_of (ev n char_token).
Proof.
  intros n s ps v s' ps' E. rewrite ev_char, middle_of_spec in E by (apply fs; lia).
  destruct (lit_c 39 s ps) as [x1 s1 ps1 | | | ] eqn:E1; try discriminate.
  destruct (body_parser s1 ps1) as [x2 s2 ps2 | | | ] eqn:E2; try discriminate.
  destruct (token cfg n (lit_c 39) s2 ps2) as [x3 s3 ps3 | | | ] eqn:E3; try discriminate.
  inversion E; subst x2 s3 ps3. clear E.
  apply lit_accept in E1 as (-> & _ & _).
  apply token_accept in E3; [|apply fs; lia]. destruct E3 as (t & ps4 & w & E3 & -> & Fw & Ns & _ & _).
  apply lit_accept in E3 as (-> & _ & _).
  apply body_accept in E2.
  assert (B : exists c b, v = VChar c /\ char_body c b /\ s1 = b ++ 39 :: w ++ s').
  { destruct E2 as [(d & c & Es & -> & -> & _)|(c & N & Ne & -> & -> & _)].
    - exists c, [92; d]. repeat split; auto. destruct Es; constructor.
    - exists c, [c]. repeat split; auto. constructor; auto. intros ->.
      apply (Ne 39 39 (w ++ s')); [constructor | auto]. }
  destruct B as (c & b & -> & B & ->).
  exists (TChar c). split; [exists c; auto|].
  assert (X : cut ((39 :: b ++ [39]) ++ w ++ s') [TChar c] s').
  { apply cut_one; auto; [constructor; auto|]. intros (x & X); discriminate. }
  simpl in X. rewrite <- app_assoc in X. exact X.
Qed.

Lemma char_complete : forall n, complete_tok char_of n (ev n char_token).
Proof.
  intros n k v s ps s' (c & -> & ->) C Ln.
  apply cut_one_inv in C as (l & w & -> & Lk & Fw & Ns & _). inversion Lk; subst.
  rewrite !app_length in Ln.
  assert (X : (39 :: b ++ [39]) ++ w ++ s' = 39 :: b ++ 39 :: w ++ s')
    by (simpl; rewrite <- app_assoc; auto).
  enough (Y : exists ps', ev n char_token (39 :: b ++ 39 :: w ++ s') ps = Accept (VChar c) s' ps')
    by (rewrite <- X in Y; exact Y).
  clear X.
  set (ps1 := adv ps [39]).
  assert (W : exists ps2, walk ps1 b ps2) by (exists (adv ps1 b); apply walk_adv).
  destruct W as (ps2 & W). set (ps3 := adv ps2 [39]).
  exists (adv ps3 w).
  rewrite ev_char, middle_of_spec by (apply fs; lia).
  assert (E1 : lit_c 39 (39 :: b ++ 39 :: w ++ s') ps = Accept (VChar 39) (b ++ 39 :: w ++ s') ps1)
    by (apply lit_accept; repeat split; auto; apply walk_adv).
  assert (E2 : body_parser (b ++ 39 :: w ++ s') ps1 = Accept (VChar c) (39 :: w ++ s') ps2).
  { apply body_accept.
    destruct H0;
      [right | left; do 2 eexists; (splits; [| reflexivity | reflexivity | exact W]); constructor ..].
    exists c. splits; auto. intros d c' t _ E. injection E; intros; subst. auto. }
  assert (E3 : token cfg n (lit_c 39) (39 :: w ++ s') ps2 = Accept (VChar 39) s' (adv ps3 w)).
  { apply token_accept; [apply fs; lia|]. exists (w ++ s'), ps3, w.
    splits; auto; try lia; try apply walk_adv.
    all: apply lit_accept; repeat split; auto; apply walk_adv. }
  rewrite E1, E2, E3. reflexivity.
Qed.

(** ** Expressions *)

Definition star_or_plus : pexpr := POneOf [repeated_token; repeated1_token].
Definition or_seq : pexpr := PLastOf [or_token; seq_expression].

Lemma ev_atom : forall n, ev n name_expression =
  one_of cfg [transform (ev n char_token) build_char; transform (ev n name_token) build_name;
              middle_of cfg (ev n open_bracket_token) (ev n (PRef 0)) (ev n close_bracket_token)].
Proof. destruct n; reflexivity. Qed.
Lemma ev_star_or_plus : forall n, ev n star_or_plus = one_of cfg [ev n repeated_token; ev n repeated1_token].
Proof. destruct n; reflexivity. Qed.
Lemma ev_rep : forall n, ev n repeated_expression =
  foldl_start_with_parser n (ev n star_or_plus) (ev n name_expression) build_repeated.
Proof. destruct n; reflexivity. Qed.
Lemma ev_seq : forall n, ev n seq_expression =
  foldl_start_with_parser n (ev n repeated_expression) (ev n repeated_expression) build_sequence.
Proof. destruct n; reflexivity. Qed.
Lemma ev_or_seq : forall n, ev n or_seq = last_of cfg [ev n or_token; ev n seq_expression].
Proof. destruct n; reflexivity. Qed.
Lemma ev_expr : forall n, ev n expression =
  foldl_start_with_parser n (ev n or_seq) (ev n seq_expression) build_selection.
Proof. destruct n; reflexivity. Qed.

Definition sound_expr (X : gexpr -> list tok -> Prop) (p : pfun) : Prop :=
  forall s ps v rem ps', p s ps = Accept v rem ps' ->
  exists e ts, v = VGram e /\ X e ts /\ cut s ts rem.

Lemma transform_accept : forall p f s ps v s' ps', transform p f s ps = Accept v s' ps' ->
  exists u, p s ps = Accept u s' ps' /\ f u = Some v.
Proof.
  intros p f s ps v s' ps' H. unfold transform in H.
  destruct (p s ps) as [u s1 ps1 | | | ]; try discriminate.
  destruct (f u) as [w|] eqn:F; inversion H; subst. exists u. auto.
Qed.

Lemma star_sound : forall n, sound_tok (fun k v => k = TStar /\ v = VChar 42) (ev n repeated_token).
Proof. intros n. apply token_lit_sound; [constructor|]. intros (x & X); discriminate. Qed.
Lemma plus_sound : forall n, sound_tok (fun k v => k = TPlus /\ v = VChar 43) (ev n repeated1_token).
Proof. intros n. apply token_lit_sound; [constructor|]. intros (x & X); discriminate. Qed.
Lemma or_sound : forall n, sound_tok (fun k v => k = TBar /\ v = VChar 124) (ev n or_token).
Proof. intros n. apply token_lit_sound; [constructor|]. intros (x & X); discriminate. Qed.
Lemma open_sound : forall n, sound_tok (fun k v => k = TOpen /\ v = VChar 40) (ev n open_bracket_token).
Proof. intros n. apply token_lit_sound; [constructor|]. intros (x & X); discriminate. Qed.
Lemma close_sound : forall n, sound_tok (fun k v => k = TClose /\ v = VChar 41) (ev n close_bracket_token).
Proof. intros n. apply token_lit_sound; [constructor|]. intros (x & X); discriminate. Qed.

Lemma atom_sound : forall n, sound_expr choice (ev n (PRef 0)) -> sound_expr atom (ev n name_expression).
Proof.
  intros n SE s ps v rem ps' E. rewrite ev_atom in E.
  apply one_of_cfg_accept in E; [|apply fo; simpl; lia].
  rewrite !first_accepting_cons in E.
  destruct E as [(E & _)|(_ & [(E & _)|(_ & [(E & _)|(_ & E)])])].
  - apply transform_accept in E as (u & E & F). apply char_sound in E as (k & (c & -> & ->) & C).
    simpl in F. inversion F; subst. do 2 eexists. splits; [reflexivity | constructor | exact C].
  - apply transform_accept in E as (u & E & F). apply name_sound in E as (k & (c & -> & ->) & C).
    simpl in F. inversion F; subst. do 2 eexists. splits; [reflexivity | constructor | exact C].
  - rewrite middle_of_spec in E by (apply fs; lia).
    destruct (ev n open_bracket_token s ps) as [x1 s1 ps1 | | | ] eqn:E1; try discriminate.
    destruct (ev n (PRef 0) s1 ps1) as [x2 s2 ps2 | | | ] eqn:E2; try discriminate.
    destruct (ev n close_bracket_token s2 ps2) as [x3 s3 ps3 | | | ] eqn:E3; try discriminate.
    inversion E; subst.
    apply open_sound in E1 as (k1 & (-> & _) & C1). apply SE in E2 as (e & ts & -> & X & C2).
    apply close_sound in E3 as (k3 & (-> & _) & C3).
    exists e, (TOpen :: ts ++ [TClose]). splits; auto; [constructor; auto|].
    apply (cut_app _ [TOpen] s1); auto. eapply cut_app; eauto.
  - destruct (first_accepting_nil _ _ _ E).
Qed.

Lemma star_or_plus_sound : forall n,
  sound_tok (fun k v => k = TStar /\ v = VChar 42 \/ k = TPlus /\ v = VChar 43) (ev n star_or_plus).
Proof.
  intros n s ps v s' ps' E. rewrite ev_star_or_plus in E.
  apply one_of_cfg_accept in E; [|apply fo; simpl; lia].
  rewrite !first_accepting_cons in E. destruct E as [(E & _)|(_ & [(E & _)|(_ & E)])].
  - apply star_sound in E as (k & F & C). exists k. auto.
  - apply plus_sound in E as (k & F & C). exists k. auto.
  - destruct (first_accepting_nil _ _ _ E).
Qed.

Lemma lfold_sound : forall (X : gexpr -> list tok -> Prop) p f,
  (forall e ts s m ps r rem ps' v, X e ts -> cut s ts m -> p m ps = Accept r rem ps' ->
     f (VGram e) r = Some v -> exists e' ts', v = VGram e' /\ X e' ts' /\ cut s ts' rem) ->
  forall rs s e ts s1 ps1 rem ps' v, X e ts -> cut s ts s1 -> runs p s1 ps1 rs rem ps' ->
    lfold f rs (VGram e) = Some v -> exists e' ts', v = VGram e' /\ X e' ts' /\ cut s ts' rem.
Proof.
  intros X p f H rs. induction rs as [|r rs IH]; intros s e ts s1 ps1 rem ps' v HX C R F.
  - inversion R; subst. simpl in F. inversion F; subst. eauto.
  - apply runs_cons_inv in R as (s2 & ps2 & E & R). simpl in F.
    destruct (f (VGram e) r) as [v1|] eqn:F1; [|discriminate].
    destruct (H _ _ _ _ _ _ _ _ _ HX C E F1) as (e' & ts' & -> & X' & C'). eauto.
Qed.

Lemma rep_sound : forall n, sound_expr choice (ev n (PRef 0)) ->
  sound_expr repetition (ev n repeated_expression).
Proof.
  intros n SE s ps v rem ps' E. rewrite ev_rep in E.
  apply foldl_swp_accept in E as (v0 & s1 & ps1 & rs & m & pe & E0 & _ & _ & R & _ & F).
  apply (atom_sound n SE) in E0 as (e & ts & -> & A & C). apply re_atom in A.
  eapply (lfold_sound repetition); [|exact A | exact C | exact R | exact F].
  clear - fits_g. intros e ts s m ps r rem ps' v X C E F.
  apply star_or_plus_sound in E as (k & [(-> & ->)|(-> & ->)] & C2); simpl in F; inversion F; subst;
    do 2 eexists; (splits; [reflexivity | constructor; exact X | eapply cut_app; eauto]).
Qed.

Lemma seq_sound : forall n, sound_expr choice (ev n (PRef 0)) ->
  sound_expr concatenation (ev n seq_expression).
Proof.
  intros n SE s ps v rem ps' E. rewrite ev_seq in E.
  apply foldl_swp_accept in E as (v0 & s1 & ps1 & rs & m & pe & E0 & _ & _ & R & _ & F).
  apply (rep_sound n SE) in E0 as (e & ts & -> & A & C). apply co_one in A.
  eapply (lfold_sound concatenation); [|exact A | exact C | exact R | exact F].
  clear - fits_g SE. intros e ts s m ps r rem ps' v X C E F.
  apply (rep_sound n SE) in E as (b & us & -> & Y & C2). simpl in F; inversion F; subst.
  exists (GSeq e b), (ts ++ us). splits; [reflexivity | apply co_more; auto | eapply cut_app; eauto].
Qed.

Lemma or_seq_accept : forall n s ps v rem ps', sound_expr choice (ev n (PRef 0)) ->
  ev n or_seq s ps = Accept v rem ps' ->
  exists e ts, v = VGram e /\ concatenation e ts /\ cut s (TBar :: ts) rem.
Proof.
  intros n s ps v rem ps' SE E. rewrite ev_or_seq, last_of_2 in E by (apply fs; lia).
  destruct (ev n or_token s ps) as [x1 s1 ps1 | | | ] eqn:E1; try discriminate.
  apply or_sound in E1 as (k & (-> & _) & C). apply (seq_sound n SE) in E as (e & ts & -> & X & C2).
  exists e, ts. splits; auto. apply (cut_app _ [TBar] s1); auto.
Qed.

Lemma expr_sound : forall n, sound_expr choice (ev n (PRef 0)) ->
  sound_expr choice (ev n expression).
Proof.
  intros n SE s ps v rem ps' E. rewrite ev_expr in E.
  apply foldl_swp_accept in E as (v0 & s1 & ps1 & rs & m & pe & E0 & _ & _ & R & _ & F).
  apply (seq_sound n SE) in E0 as (e & ts & -> & A & C). apply ch_one in A.
  eapply (lfold_sound choice); [|exact A | exact C | exact R | exact F].
  clear - fits_g SE. intros e ts s m ps r rem ps' v X C E F.
  apply or_seq_accept in E as (b & us & -> & Y & C2); auto. simpl in F; inversion F; subst.
  exists (GSel e b), (ts ++ TBar :: us). splits; [reflexivity | apply ch_more; auto | eapply cut_app; eauto].
Qed.

Lemma ref_sound : forall n, sound_expr choice (ev n (PRef 0)).
Proof.
  induction n as [|n IH]; [intros s ps v rem ps' E; discriminate|].
  intros s ps v rem ps' E. apply (expr_sound n IH s ps v rem ps' E).
Qed.

(** ** Completeness *)

Lemma star_complete : forall n, complete_tok (fun k v => k = TStar /\ v = VChar 42) n (ev n repeated_token).
Proof. intros n. apply token_lit_complete. intros l H; inversion H; auto. Qed.
Lemma plus_complete : forall n, complete_tok (fun k v => k = TPlus /\ v = VChar 43) n (ev n repeated1_token).
Proof. intros n. apply token_lit_complete. intros l H; inversion H; auto. Qed.
Lemma or_complete : forall n, complete_tok (fun k v => k = TBar /\ v = VChar 124) n (ev n or_token).
Proof. intros n. apply token_lit_complete. intros l H; inversion H; auto. Qed.
Lemma open_complete : forall n, complete_tok (fun k v => k = TOpen /\ v = VChar 40) n (ev n open_bracket_token).
Proof. intros n. apply token_lit_complete. intros l H; inversion H; auto. Qed.
Lemma close_complete : forall n, complete_tok (fun k v => k = TClose /\ v = VChar 41) n (ev n close_bracket_token).
Proof. intros n. apply token_lit_complete. intros l H; inversion H; auto. Qed.

(** The first tokens of an expression. *)
Definition starter (k : tok) : Prop :=
  match k with TChar _ | TName _ | TOpen => True | _ => False end.

Lemma atom_starts : forall e ts, atom e ts -> exists k us, ts = k :: us /\ starter k.
Proof. intros e ts H. destruct H; do 2 eexists; split; try reflexivity; simpl; auto. Qed.
Lemma repetition_starts : forall e ts, repetition e ts -> exists k us, ts = k :: us /\ starter k.
Proof.
  intros e ts H. induction H; [eapply atom_starts; eauto| |];
    destruct IHrepetition as (k & us & -> & S); do 2 eexists; split; try reflexivity; auto.
Qed.
Lemma concatenation_starts : forall e ts, concatenation e ts -> exists k us, ts = k :: us /\ starter k.
Proof.
  intros e ts H. induction H; [eapply repetition_starts; eauto|].
  destruct IHconcatenation as (k & vs & -> & S); do 2 eexists; split; try reflexivity; auto.
Qed.

Definition starter_char (c : char) : Prop := c = 39 \/ c = 40 \/ name_char c.

Lemma cut_starts : forall s k ts rem, cut s (k :: ts) rem -> starter k ->
  exists c t, s = c :: t /\ starter_char c.
Proof.
  intros s k ts rem C S. apply cut_cons_inv in C as (l & w & t & -> & L & _).
  unfold starter_char. destruct L; simpl in S; try contradiction; simpl;
    try (do 2 eexists; split; [reflexivity | auto]; fail).
  destruct s as [|c s]; [congruence|]. inversion H0; subst. exists c, (s ++ w ++ t). split; auto.
Qed.

Lemma cut_head : forall s k ts rem c, cut s (k :: ts) rem -> (forall l, lexeme k l -> l = [c]) ->
  exists t, s = c :: t.
Proof.
  intros s k ts rem c C H. apply cut_cons_inv in C as (l & w & t & -> & L & _).
  apply H in L as ->. exists (w ++ t). reflexivity.
Qed.

Lemma enough_le : forall n (s t : str), enough n s -> (length t <= length s)%nat -> enough n t.
Proof. unfold enough. intros. lia. Qed.

Lemma star_or_plus_rejects : forall n s ps, enough n s ->
  not_starting_with (fun c => c = 42 \/ c = 43) s -> rejects (ev n star_or_plus) s ps.
Proof.
  intros n s ps En N. apply finishes_rejects.
  - eapply verdict; [every_solve; auto | reflexivity | | exact En].
    apply one_of_typed; [simpl; lia|].
    intros p [<-|[<-|[]]]; apply token_typed, lit_char.
  - intros v s' ps' E. apply star_or_plus_sound in E as (k & [(-> & _)|(-> & _)] & C).
    + apply (cut_head _ _ _ _ 42) in C as (t & ->); [|intros l H; inversion H; auto]. simpl in N. auto.
    + apply (cut_head _ _ _ _ 43) in C as (t & ->); [|intros l H; inversion H; auto]. simpl in N. auto.
Qed.

Lemma rep_rejects : forall n s ps, enough n s ->
  not_starting_with starter_char s -> rejects (ev n repeated_expression) s ps.
Proof.
  intros n s ps En N. apply finishes_rejects.
  - eapply verdict; [every_solve; auto | reflexivity | apply repeated_expression_typed | exact En].
  - intros v s' ps' E. apply (rep_sound n (ref_sound n)) in E as (e & ts & _ & X & C).
    apply repetition_starts in X as (k & us & -> & S).
    apply cut_starts in C as (c & t & -> & Sc); auto.
Qed.

Lemma or_seq_rejects : forall n s ps, enough n s ->
  not_starting_with (fun c => c = 124) s -> rejects (ev n or_seq) s ps.
Proof.
  intros n s ps En N. apply finishes_rejects.
  - eapply verdict; [every_solve; auto | reflexivity | | exact En].
    eapply (T_last_of _ _ _ _ [_]); [apply fs; simpl; lia|]. simpl app.
    constructor; [apply token_typed, lit_char|]. constructor; [|constructor].
    apply seq_expression_typed.
  - intros v s' ps' E. apply or_seq_accept in E as (e & ts & _ & X & C); [|apply ref_sound].
    apply (cut_head _ _ _ _ 124) in C as (t & ->); [|intros l H; inversion H; auto]. simpl in N. auto.
Qed.

Definition complete_expr (X : gexpr -> list tok -> Prop) (follow : str -> Prop) (n : nat) (p : pfun) : Prop :=
  forall e ts s ps rem, X e ts -> cut s ts rem -> follow rem -> enough n s ->
  exists ps', p s ps = Accept (VGram e) rem ps'.

Definition follow_expr (s : str) : Prop := s = [] \/ exists t, s = 41 :: t.
Definition follow_seq (s : str) : Prop := follow_expr s \/ exists t, s = 124 :: t.
Definition follow_rep (s : str) : Prop := not_starting_with (fun c => c = 42 \/ c = 43) s.

Definition ref_complete (n : nat) : Prop :=
  forall e ts s ps rem, choice e ts -> cut s ts rem -> follow_expr rem ->
  (2 * length s + 4 < n)%nat -> exists ps', ev n (PRef 0) s ps = Accept (VGram e) rem ps'.

Lemma enough_length : forall n (s : str), enough n s -> (length s < n)%nat.
Proof. unfold enough. intros. lia. Qed.

Lemma atom_complete : forall n, ref_complete n -> complete_expr atom (fun _ => True) n (ev n name_expression).
Proof.
  intros n RC e ts s ps rem A C _ En.
  assert (Ln := enough_length _ _ En).
  rewrite ev_atom.
  set (p1 := transform (ev n char_token) build_char).
  set (p2 := transform (ev n name_token) build_name).
  set (p3 := middle_of cfg (ev n open_bracket_token) (ev n (PRef 0)) (ev n close_bracket_token)).
  assert (F1 : finishes p1 s ps).
  { replace p1 with (ev n (PTransform char_token build_char)) by (destruct n; reflexivity).
    eapply verdict; [every_solve; auto | reflexivity | | exact En].
    eapply (T_transform _ _ _ _ a_gram); [apply char_token_typed|]. intros v (c & ->).
    eexists; split; [reflexivity|]. eexists; eauto. }
  assert (F2 : finishes p2 s ps).
  { replace p2 with (ev n (PTransform name_token build_name)) by (destruct n; reflexivity).
    eapply verdict; [every_solve; auto | reflexivity | | exact En].
    eapply (T_transform _ _ _ _ a_gram); [apply name_token_typed|]. intros v (c & ->).
    eexists; split; [reflexivity|]. eexists; eauto. }
  assert (F3 : finishes p3 s ps).
  { replace p3 with (ev n bracket_expression) by (destruct n; reflexivity).
    eapply verdict; [every_solve; auto | reflexivity | | exact En].
    eapply T_middle_of; [apply fs; lia | apply token_typed, lit_char | apply (T_ref cfg Gg 0) |
      apply token_typed, lit_char]. }
  assert (G : exists ps', first_accepting [p1; p2; p3] s ps (Accept (VGram e) rem ps')).
  { destruct A as [c | x | e ts X].
    - destruct (char_complete n (TChar c) (VChar c) s ps rem) as (ps' & E); auto; [exists c; auto|].
      exists ps'. rewrite first_accepting_cons. left.
      assert (E1 : p1 s ps = Accept (VGram (GChar c)) rem ps') by (unfold p1, transform; rewrite E; auto).
      splits; auto; [do 3 eexists; eauto|]. intros q [<-|[<-|[]]]; auto.
    - destruct (name_complete n (TName x) (VStr x) s ps rem) as (ps' & E); auto; [exists x; auto|].
      exists ps'. rewrite !first_accepting_cons. right. split.
      + apply finishes_rejects; auto. intros v s' ps1 E1.
        apply transform_accept in E1 as (u & E1 & _). apply char_sound in E1 as (k & (c & -> & _) & C1).
        apply cut_one_inv in C as (l & w & -> & L & _). apply cut_one_inv in C1 as (l1 & w1 & Eq & L1 & _).
        inversion L; subst. inversion L1; subst.
        destruct l as [|d l]; [congruence|]. simpl in Eq. injection Eq; intros _ ->.
        inversion H1; subst. unfold name_char, letter_char, digit_char in *. lia.
      + left.
        assert (E1 : p2 s ps = Accept (VGram (GName x)) rem ps') by (unfold p2, transform; rewrite E; auto).
        splits; auto; [do 3 eexists; eauto|]. intros q [<-|[]]; auto.
    - change (TOpen :: ts ++ [TClose]) with ([TOpen] ++ ts ++ [TClose]) in C.
      apply cut_app_inv in C as (s1 & C1 & C). apply cut_app_inv in C as (s2 & C2 & C3).
      assert (L1 := cut_length _ _ _ C1). assert (L2 := cut_length _ _ _ C2). simpl in L1.
      destruct (open_complete n TOpen (VChar 40) s ps s1) as (ps1 & E1); auto.
      destruct (RC e ts s1 ps1 s2) as (ps2 & E2); auto.
      { right. eapply cut_head; eauto. intros l H; inversion H; auto. }
      { unfold enough in En. lia. }
      destruct (close_complete n TClose (VChar 41) s2 ps2 rem) as (ps3 & E3); auto; [lia|].
      exists ps3. rewrite !first_accepting_cons. right. split; [|right; split].
      + apply finishes_rejects; auto. intros v s' ps' E.
        apply transform_accept in E as (u & E & _). apply char_sound in E as (k & (c & -> & _) & C).
        apply cut_one_inv in C1 as (l & w & -> & L & _). apply cut_one_inv in C as (l1 & w1 & Eq & L' & _).
        inversion L; subst. inversion L'; subst. discriminate.
      + apply finishes_rejects; auto. intros v s' ps' E.
        apply transform_accept in E as (u & E & _). apply name_sound in E as (k & (x & -> & _) & C).
        apply cut_one_inv in C1 as (l & w & -> & L & _). apply cut_one_inv in C as (l1 & w1 & Eq & L' & _).
        inversion L; subst. inversion L'; subst. destruct l1 as [|d l1]; [congruence|].
        simpl in Eq. injection Eq; intros _ <-. inversion H1; subst.
        unfold name_char, letter_char, digit_char in *. lia.
      + left.
        assert (E : p3 s ps = Accept (VGram e) rem ps3).
        { unfold p3. rewrite middle_of_spec by (apply fs; lia). rewrite E1, E2, E3. auto. }
        splits; auto; [do 3 eexists; eauto|]. intros q []. }
  destruct G as (ps' & G). exists ps'. apply one_of_cfg_accept; auto. apply fo; simpl; lia.
Qed.

Lemma lfold_snoc : forall f rs r v, lfold f (rs ++ [r]) v =
  match lfold f rs v with Some x => f x r | None => None end.
Proof.
  intros f rs r. induction rs as [|r1 rs IH]; intros v; simpl.
  - destruct (f v r); auto.
  - destruct (f v r1); auto.
Qed.

Lemma runs_snoc : forall p rs s ps s1 ps1 r s2 ps2, runs p s ps rs s1 ps1 ->
  p s1 ps1 = Accept r s2 ps2 -> runs p s ps (rs ++ [r]) s2 ps2.
Proof.
  intros p rs s ps s1 ps1 r s2 ps2 R E. eapply runs_app; eauto. econstructor; eauto. constructor.
Qed.

Lemma runs_len : forall p, consuming p -> forall rs s ps s' ps', runs p s ps rs s' ps' ->
  (length rs + length s' <= length s)%nat.
Proof.
  intros p H rs. induction rs as [|r rs IH]; intros s ps s' ps' R.
  - inversion R; subst. simpl; lia.
  - apply runs_cons_inv in R as (s1 & ps1 & E & R). apply H in E. apply IH in R. simpl. lia.
Qed.

(** The start and the loop of a fold reach [rem] with the result [e]. *)
Definition reaches (f : mf2) (sp p : pfun) (s : str) (ps : pos) (e : gexpr) (rem : str) : Prop :=
  exists v0 s1 ps1 rs ps', sp s ps = Accept v0 s1 ps1 /\ v0 <> VVoid /\ runs p s1 ps1 rs rem ps'
    /\ lfold f rs v0 = Some (VGram e).

Lemma reaches_start : forall f sp p s ps e rem, 
  (exists ps', sp s ps = Accept (VGram e) rem ps') -> reaches f sp p s ps e rem.
Proof.
  intros f sp p s ps e rem (ps' & E). exists (VGram e), rem, ps', [], ps'. splits; auto; [discriminate|constructor].
Qed.

Lemma reaches_more : forall f sp p s ps e m e' r rem, reaches f sp p s ps e m ->
  (forall ps1, exists ps', p m ps1 = Accept r rem ps') -> f (VGram e) r = Some (VGram e') ->
  reaches f sp p s ps e' rem.
Proof.
  intros f sp p s ps e m e' r rem (v0 & s1 & ps1 & rs & ps2 & E0 & V & R & F) H F'.
  destruct (H ps2) as (ps' & E). exists v0, s1, ps1, (rs ++ [r]), ps'. splits; auto.
  - eapply runs_snoc; eauto.
  - rewrite lfold_snoc, F. auto.
Qed.

Lemma reaches_accept : forall n f sp p s ps e rem, reaches f sp p s ps e rem ->
  (forall ps', rejects p rem ps') -> consuming p -> (forall v s1 ps1, sp s ps = Accept v s1 ps1 ->
    (length s1 <= length s)%nat) -> (length s < n)%nat ->
  exists ps', foldl_start_with_parser n p sp f s ps = Accept (VGram e) rem ps'.
Proof.
  intros n f sp p s ps e rem (v0 & s1 & ps1 & rs & ps' & E0 & V & R & F) Rj Cp Sp Ln.
  exists ps'. apply foldl_swp_accept. destruct (Rj ps') as (m & pe & E).
  exists v0, s1, ps1, rs, m, pe. splits; auto.
  apply Sp in E0. apply runs_len in R; auto. lia.
Qed.

Lemma star_or_plus_consuming : forall n, consuming (ev n star_or_plus).
Proof.
  intros n s ps r s' ps' E. apply star_or_plus_sound in E as (k & _ & C).
  apply cut_length in C. simpl in C. lia.
Qed.

Lemma rep_consuming : forall n, consuming (ev n repeated_expression).
Proof.
  intros n s ps r s' ps' E. apply (rep_sound n (ref_sound n)) in E as (e & ts & _ & X & C).
  apply repetition_starts in X as (k & us & -> & _). apply cut_length in C. simpl in C. lia.
Qed.

Lemma or_seq_consuming : forall n, consuming (ev n or_seq).
Proof.
  intros n s ps r s' ps' E. apply or_seq_accept in E as (e & ts & _ & X & C); [|apply ref_sound].
  apply cut_length in C. simpl in C. lia.
Qed.

Lemma sound_expr_length : forall X p, sound_expr X p ->
  forall s ps v s' ps', p s ps = Accept v s' ps' -> (length s' <= length s)%nat.
Proof.
  intros X p H s ps v s' ps' E. apply H in E as (e & ts & _ & _ & C). apply cut_length in C. lia.
Qed.

Lemma rep_complete : forall n, ref_complete n ->
  complete_expr repetition follow_rep n (ev n repeated_expression).
Proof.
  intros n RC e ts s ps rem X C Fo En. rewrite ev_rep.
  apply reaches_accept.
  - clear Fo. revert s ps rem C En. induction X; intros s ps rem C En.
    + apply reaches_start. apply (atom_complete n RC e ts); auto.
    + apply cut_app_inv in C as (m & C1 & C2).
      eapply (reaches_more _ _ _ _ _ e m _ (VChar 42)); [apply IHX; auto | | reflexivity].
      intros ps1. assert (L := cut_length _ _ _ C1). assert (Ln := enough_length _ _ En).
      destruct (star_complete n TStar (VChar 42) m ps1 rem) as (ps' & E); auto; [lia|].
      exists ps'. rewrite ev_star_or_plus. apply one_of_cfg_accept; [apply fo; simpl; lia|].
      rewrite first_accepting_cons. left. splits; auto; [do 3 eexists; eauto|].
      intros q [<-|[]].
      eapply verdict; [| | apply token_typed, lit_char | eapply enough_le; [exact En | lia]];
        [every_solve; auto | reflexivity].
    + apply cut_app_inv in C as (m & C1 & C2).
      eapply (reaches_more _ _ _ _ _ e m _ (VChar 43)); [apply IHX; auto | | reflexivity].
      intros ps1. assert (L := cut_length _ _ _ C1). assert (Ln := enough_length _ _ En).
      destruct (plus_complete n TPlus (VChar 43) m ps1 rem) as (ps' & E); auto; [lia|].
      exists ps'. rewrite ev_star_or_plus. apply one_of_cfg_accept; [apply fo; simpl; lia|].
      rewrite !first_accepting_cons. right. split.
      * apply finishes_rejects.
        { eapply verdict; [| | apply token_typed, lit_char | eapply enough_le; [exact En | lia]];
            [every_solve; auto | reflexivity]. }
        intros v s' ps2 E2. apply star_sound in E2 as (k & (-> & _) & C3).
        apply (cut_head _ _ _ _ 42) in C3 as (t & ->); [|intros l H; inversion H; auto].
        apply (cut_head _ _ _ _ 43) in C2 as (t' & E2); [|intros l H; inversion H; auto].
        discriminate.
      * left. splits; auto; [do 3 eexists; eauto | intros ? []].
  - intros ps'. apply star_or_plus_rejects; auto. eapply enough_le; eauto.
    apply cut_length in C. lia.
  - apply star_or_plus_consuming.
  - intros v s1 ps1 E. eapply sound_expr_length; [apply (atom_sound n (ref_sound n)) | eauto].
  - apply enough_length; auto.
Qed.

Lemma starter_follow_rep : forall s k ts rem, cut s (k :: ts) rem -> starter k -> follow_rep s.
Proof.
  intros s k ts rem C S. apply cut_starts in C as (c & t & -> & Sc); auto.
  unfold follow_rep, starter_char, name_char, letter_char, digit_char in *. simpl. lia.
Qed.

Lemma follow_seq_rep : forall s, follow_seq s -> follow_rep s.
Proof. intros s [[->|(t & ->)]|(t & ->)]; unfold follow_rep; simpl; auto; lia. Qed.

Lemma follow_seq_starter : forall s, follow_seq s -> not_starting_with starter_char s.
Proof.
  intros s [[->|(t & ->)]|(t & ->)]; simpl; auto;
    unfold starter_char, name_char, letter_char, digit_char; lia.
Qed.

Lemma seq_complete : forall n, ref_complete n ->
  complete_expr concatenation follow_seq n (ev n seq_expression).
Proof.
  intros n RC e ts s ps rem X C Fo En. rewrite ev_seq.
  apply reaches_accept.
  - apply follow_seq_rep in Fo. revert s ps rem C Fo En. induction X; intros s ps rem C Fo En.
    + apply reaches_start. apply (rep_complete n RC e ts); auto.
    + apply cut_app_inv in C as (m & C1 & C2).
      assert (L := cut_length _ _ _ C1).
      eapply (reaches_more _ _ _ _ _ a m _ (VGram b)); [apply IHX; auto | | reflexivity].
      * destruct (repetition_starts _ _ H) as (k & vs & -> & S). eapply starter_follow_rep; eauto.
      * intros ps1. apply (rep_complete n RC b us); auto. eapply enough_le; eauto. lia.
  - intros ps'. apply rep_rejects; [|apply follow_seq_starter; auto]. eapply enough_le; eauto.
    apply cut_length in C. lia.
  - apply rep_consuming.
  - intros v s1 ps1 E. eapply sound_expr_length; [apply (rep_sound n (ref_sound n)) | eauto].
  - apply enough_length; auto.
Qed.

Lemma expr_complete : forall n, ref_complete n ->
  complete_expr choice follow_expr n (ev n expression).
Proof.
  intros n RC e ts s ps rem X C Fo En. rewrite ev_expr.
  apply reaches_accept.
  - assert (Fs : follow_seq rem) by (left; auto). clear Fo.
    revert s ps rem C Fs En. induction X; intros s ps rem C Fs En.
    + apply reaches_start. apply (seq_complete n RC e ts); auto.
    + apply cut_app_inv in C as (m & C1 & C2).
      assert (L := cut_length _ _ _ C1).
      eapply (reaches_more _ _ _ _ _ a m _ (VGram b)); [apply IHX; auto | | reflexivity].
      * right. apply (cut_head _ _ _ _ 124) in C2; auto. intros l Hl; inversion Hl; auto.
      * intros ps1. apply (cut_app_inv [TBar]) in C2 as (m2 & C2 & C3).
        assert (L2 := cut_length _ _ _ C2). assert (Ln := enough_length _ _ En).
        destruct (or_complete n TBar (VChar 124) m ps1 m2) as (ps2 & E2); auto; [lia|].
        destruct (seq_complete n RC b us m2 ps2 rem) as (ps3 & E3); auto.
        { eapply enough_le; eauto. lia. }
        exists ps3. rewrite ev_or_seq, last_of_2 by (apply fs; lia). rewrite E2. auto.
  - intros ps'. apply or_seq_rejects; [eapply enough_le; eauto; apply cut_length in C; lia|].
    destruct Fo as [->|(t & ->)]; simpl; auto; lia.
  - apply or_seq_consuming.
  - intros v s1 ps1 E. eapply sound_expr_length; [apply (seq_sound n (ref_sound n)) | eauto].
  - apply enough_length; auto.
Qed.

Lemma ref_completes : forall n, ref_complete n.
Proof.
  induction n as [|n IH]; intros e ts s ps rem X C Fo L; [lia|].
  apply (expr_complete n IH e ts s ps rem X C Fo). unfold enough. lia.
Qed.

(** ** Rules *)

Lemma ev_rule : forall n, ev n rule_parser =
  entire_input cfg (sequence cfg [ev n name_token; ev n define_token; ev n (PRef 0)]) end_of_input_expected.
Proof. destruct n; reflexivity. Qed.

Lemma rule_accept : forall n s ps v s' ps', ev n rule_parser s ps = Accept v s' ps' ->
  exists name e, v = VSeq [VStr name; VVoid_; VGram e] /\ rule_text name e s.
Proof.
  intros n s ps v s' ps' E. rewrite ev_rule in E. apply entire_input_accept in E; [|apply fs; lia].
  destruct E as (E & ->).
  apply sequence_cfg_accept in E; [|apply fs; simpl; lia | discriminate].
  destruct E as (rs & -> & R).
  apply in_row_cons_inv in R as (r1 & rs1 & s1 & ps1 & -> & E1 & R).
  apply in_row_cons_inv in R as (r2 & rs2 & s2 & ps2 & -> & E2 & R).
  apply in_row_cons_inv in R as (r3 & rs3 & s3 & ps3 & -> & E3 & R).
  inversion R; subst.
  apply name_sound in E1 as (k1 & (x & -> & ->) & C1). apply define_sound in E2 as (k2 & (-> & ->) & C2).
  apply ref_sound in E3 as (e & ts & -> & X & C3).
  exists x, e. split; auto. exists ts. split; auto. apply spells_cut.
  apply (cut_app _ [TName x] s1); auto. apply (cut_app _ [TDef] s2); auto.
Qed.

Lemma rule_complete : forall n name e s ps, rule_text name e s -> (2 * length s + 4 < n)%nat ->
  exists ps', ev n rule_parser s ps = Accept (VSeq [VStr name; VVoid_; VGram e]) [] ps'.
Proof.
  intros n name e s ps (ts & X & S) L. apply spells_cut in S.
  apply (cut_app_inv [TName name]) in S as (s1 & C1 & S).
  apply (cut_app_inv [TDef]) in S as (s2 & C2 & C3).
  assert (L1 := cut_length _ _ _ C1). assert (L2 := cut_length _ _ _ C2).
  destruct (name_complete n (TName name) (VStr name) s ps s1) as (ps1 & E1); auto; [exists name; auto | lia|].
  destruct (define_complete n TDef VVoid_ s1 ps1 s2) as (ps2 & E2); auto; [lia|].
  destruct (ref_completes n e ts s2 ps2 []) as (ps3 & E3); auto; [left; auto | lia|].
  exists ps3. rewrite ev_rule. apply entire_input_accept; [apply fs; lia|]. split; auto.
  apply sequence_cfg_accept; [apply fs; simpl; lia | discriminate|].
  eexists. split; [reflexivity|]. econstructor; eauto. econstructor; eauto. econstructor; eauto.
  constructor.
Qed.

Lemma rule_finishes : forall n s ps, enough n s -> finishes (ev n rule_parser) s ps.
Proof.
  intros n s ps En. eapply verdict; [apply rule_parser_loops | reflexivity | apply rule_parser_typed | exact En].
Qed.

Lemma rebuild_ok : forall n s name, rebuild cfg n s = Ok name ->
  exists rest, s = name ++ rest /\ writable name /\ not_starting_with name_char rest.
Proof.
  intros n s name H. unfold rebuild, build_parser in H.
  destruct (ev n name_token s start) as [v s' ps' | | | ] eqn:E; try discriminate.
  apply name_sound in E as (k & (x & -> & ->) & C). inversion H; subst.
  apply cut_one_inv in C as (l & w & -> & L & Fw & Ns & Nn). inversion L; subst.
  exists (w ++ s'). splits; auto; [split; auto|].
  destruct w as [|c w]; simpl; [apply Nn; auto; eexists; eauto|].
  inversion Fw; subst. unfold name_char, letter_char, digit_char, space_char in *. lia.
Qed.

Lemma spaces_split : forall s : str, exists w t, s = w ++ t /\ Forall space_char w
  /\ not_starting_with space_char t.
Proof.
  induction s as [|c s (w & t & E & F & N)].
  - exists [], []. splits; auto. exact I.
  - destruct (space_dec c) as [H|H].
    + exists (c :: w), t. splits; auto. simpl. f_equal. exact E.
    + exists [], (c :: s). splits; auto.
Qed.

Lemma rebuild_complete : forall n name rest, writable name -> not_starting_with name_char rest ->
  (length (name ++ rest) < n)%nat -> rebuild cfg n (name ++ rest) = Ok name.
Proof.
  intros n name rest (Ne & Fn) N L. unfold rebuild, build_parser.
  destruct (spaces_split rest) as (w & t & -> & Fw & Nt).
  destruct (name_complete n (TName name) (VStr name) (name ++ w ++ t) start t) as (ps' & E); auto.
  - exists name; auto.
  - apply (cut_one (TName name) name w t); auto; [constructor; auto|]. intros _ ->. exact N.
  - rewrite E. reflexivity.
Qed.

Lemma parse_rule_ok : forall n s name e, parse_rule cfg n s = Ok (name, e) -> rule_text name e s.
Proof.
  intros n s name e H. unfold parse_rule, build_parser in H.
  destruct (ev n rule_parser s start) as [v s' ps' | | | ] eqn:E; try discriminate.
  apply rule_accept in E as (x & e' & -> & R). simpl in H. inversion H; subst. auto.
Qed.

Lemma parse_rule_complete : forall n s name e, rule_text name e s -> (2 * length s + 4 < n)%nat ->
  parse_rule cfg n s = Ok (name, e).
Proof.
  intros n s name e R L. unfold parse_rule, build_parser.
  destruct (rule_complete n name e s start R L) as (ps' & E). rewrite E. reflexivity.
Qed.

Lemma parse_rule_verdict : forall n s, enough n s -> parse_rule cfg n s <> Deep.
Proof.
  intros n s En H. unfold parse_rule, build_parser in H.
  destruct (rule_finishes n s start En) as [(v & s' & ps' & E)|(m & pe & E)].
  - assert (E' := E). apply rule_accept in E' as (x & e' & -> & R). rewrite E in H. discriminate.
  - rewrite E in H. discriminate.
Qed.

End Rules.

(** ** Printing *)

Lemma show_levels : forall e,
  choice e (show 0 e) /\ concatenation e (show 1 e) /\ repetition e (show 2 e).
Proof.
  assert (U : forall e ts, repetition e ts -> choice e ts /\ concatenation e ts /\ repetition e ts)
    by (intros; splits; auto using ch_one, co_one).
  assert (V : forall e ts, concatenation e ts -> atom e (TOpen :: ts ++ [TClose]))
    by (intros; constructor; apply ch_one; auto).
  induction e as [c | s | a IHa | a IHa | a IHa b IHb | a IHa b IHb]; simpl.
  - apply U. apply re_atom. constructor.
  - apply U. apply re_atom. constructor.
  - apply U. apply re_star. apply IHa.
  - apply U. apply re_plus. apply IHa.
  - assert (X : concatenation (GSeq a b) (show 1 a ++ show 2 b)) by (apply co_more; tauto).
    splits; auto using ch_one. apply re_atom. apply V. exact X.
  - assert (X : choice (GSel a b) (show 0 a ++ TBar :: show 1 b)) by (apply ch_more; tauto).
    splits; auto; [apply co_one|]; apply re_atom; constructor; exact X.
Qed.

Lemma char_text_body : forall c, char_body c (char_text c).
Proof.
  intros c. unfold char_text.
  destruct (Z.eqb_spec c 39) as [->|A]; [constructor|].
  destruct (Z.eqb_spec c 92) as [->|B]; [constructor|].
  destruct (Z.eqb_spec c 10) as [->|C]; constructor; auto.
Qed.

Definition tok_writable (k : tok) : Prop := forall s, k = TName s -> writable s.

Lemma tok_text_lexeme : forall k, tok_writable k -> lexeme k (tok_text k).
Proof.
  intros k W. destruct k; simpl; constructor; try apply char_text_body; apply (W s); auto.
Qed.

Lemma spaced_spells : forall ts, Forall tok_writable ts ->
  spells ts (flat_map (fun k => tok_text k ++ [32]) ts).
Proof.
  intros ts H. induction H as [|k ts W _ IH]; simpl; [constructor|].
  rewrite <- app_assoc. constructor; auto.
  - apply tok_text_lexeme; auto.
  - repeat constructor.
  - intros _ E. discriminate.
Qed.

Lemma show_writable : forall e, names_writable e -> forall l, Forall tok_writable (show l e).
Proof.
  assert (P : forall k, (forall s, k <> TName s) -> tok_writable k)
    by (intros k H s E; destruct (H s E)).
  assert (IB : forall b ts, Forall tok_writable ts -> Forall tok_writable (in_brackets b ts)).
  { intros b ts H. destruct b; simpl; auto. constructor; [apply P; discriminate|].
    apply Forall_app; split; auto. constructor; auto. apply P; discriminate. }
  induction e as [c | s | a IHa | a IHa | a IHa b IHb | a IHa b IHb]; simpl; intros W l.
  - constructor; auto. apply P; discriminate.
  - constructor; auto. intros x E. inversion E; subst. auto.
  - apply Forall_app; split; auto. constructor; auto. apply P; discriminate.
  - apply Forall_app; split; auto. constructor; auto. apply P; discriminate.
  - apply IB. destruct W. apply Forall_app; split; auto.
  - apply IB. destruct W. apply Forall_app; split; auto. constructor; auto. apply P; discriminate.
Qed.

Lemma print_rule_text : forall name e, writable name -> names_writable e ->
  rule_text name e (print_rule name e).
Proof.
  intros name e Wn We. exists (show 0 e). split; [apply show_levels|].
  apply spaced_spells. constructor; [|constructor; [|apply show_writable; auto]].
  - intros x E. inversion E; subst. auto.
  - intros x E. discriminate.
Qed.

(** Declarations keep the start symbol. *)
Lemma declarations_keep_start : forall cfg n ds g start,
  add_decls cfg n (empty_grammar start) ds = Ok g -> g_start g = start.
Proof.
  intros cfg n ds g start. change start with (g_start (empty_grammar start)) at 2.
  generalize (empty_grammar start) as g0. clear start.
  induction ds as [|d ds IH]; intros g0 H; cbn [add_decls] in H.
  - injection H as <-. reflexivity.
  - destruct (add_decl cfg n g0 d) as [g1| |] eqn:E; try discriminate. rewrite (IH g1 H).
    destruct d; simpl in E; unfold add_rule, add_import in E.
    + destruct (parse_rule cfg n def) as [(nm & e)| |]; try discriminate. injection E as <-. reflexivity.
    + destruct (rebuild cfg n name); try discriminate. injection E as <-. reflexivity.
Qed.
