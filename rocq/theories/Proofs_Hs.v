(** Proofs about the parser of example/meta_hs (C59). *)

From Coq Require Import ZArith List Bool Lia.
From Verif Require Import Base Util Combinators Variadic Parsers Deep Messages Grammar Calculator Examples
  Functions MetaHs Spec SpecDeep SpecTerm SpecType SpecGrammar SpecCalc SpecExamples SpecFun SpecHs Proofs_Pos
  Proofs_Fold Proofs_Variadic Proofs_Parsers Proofs_Parsers2 Proofs_Deep Proofs_Final1 Proofs_Final2
  Proofs_Final3 Proofs_Final5 Proofs_Term Proofs_Grammar Proofs_Calc Proofs_Calc2 Proofs_Examples
  Proofs_Functions.
Import ListNotations.
Open Scope Z_scope.

(** ** Chains in general *)

Section Chain.

Variables E J : Type.
Variable X : E -> str -> str -> Prop.
Variable It : J -> str -> str -> Prop.
Variable bld : E -> J -> E.
Variable den : E -> option value.
Variable di : J -> option value.

Inductive chain : E -> str -> str -> Prop :=
| ch_one : forall e s t, X e s t -> chain e s t
| ch_more : forall a j s s1 t, chain a s s1 -> It j s1 t -> chain (bld a j) s t.

Inductive ltail : E -> str -> E -> str -> Prop :=
| lt_end : forall a s, ltail a s a s
| lt_more : forall a j s s1 e t, It j s s1 -> ltail (bld a j) s1 e t -> ltail a s e t.

Lemma ltail_snoc : forall a s e t, ltail a s e t -> forall j t', It j t t' -> ltail a s (bld e j) t'.
Proof.
  intros a s e t H. induction H as [a s | a j s s1 e t I H IH]; intros j' t' I'.
  - econstructor; eauto. constructor.
  - econstructor; eauto.
Qed.

Lemma chain_ltail : forall e s t, chain e s t -> exists a s1, X a s s1 /\ ltail a s1 e t.
Proof.
  intros e s t H. induction H as [e s t H | a j s s1 t H IH I].
  - exists e, t. split; auto. constructor.
  - destruct IH as (a0 & s0 & A & T). exists a0, s0. split; auto. eapply ltail_snoc; eauto.
Qed.

Definition completes {A : Type} (n : nat) (P : str -> Prop) (Y : A -> str -> str -> Prop)
  (d : A -> option value) (p : pfun) : Prop :=
  forall e s t ps, Y e s t -> P t -> (length s < n)%nat ->
  match d e with
  | Some v => exists ps', p s ps = Accept v t ps'
  | None => p s ps = Illformed
  end.
Definition sounds {A : Type} (n : nat) (P : str -> Prop) (Y : A -> str -> str -> Prop)
  (d : A -> option value) (p : pfun) : Prop :=
  forall s ps v t ps', (length s < n)%nat -> p s ps = Accept v t ps' ->
  exists e, Y e s t /\ d e = Some v /\ P t.

Variable f : mf2.
Variables P St : str -> Prop.
Hypothesis ShX : forall e s t, X e s t -> (length t < length s)%nat.
Hypothesis ShI : forall j s t, It j s t -> (length t < length s)%nat.
Hypothesis step : forall a j x y, den a = Some x -> di j = Some y -> f x y = den (bld a j).
Hypothesis strict_l : forall a j, den a = None -> den (bld a j) = None.
Hypothesis strict_r : forall a j, di j = None -> den (bld a j) = None.
Variable N : nat.
Variables q p : pfun.

Lemma chain_shorter : forall e s t, chain e s t -> (length t < length s)%nat.
Proof.
  intros e s t H. induction H as [e s t H | a j s s1 t H IH I]; eauto.
  apply ShI in I. lia.
Qed.

Section Complete.
Hypothesis front : forall j s t, It j s t -> P s.
Hypothesis Hp : completes N P X den p.
Hypothesis Hq : completes N P It di q.
Hypothesis Hr : forall s ps, P s -> St s -> exists m, q s ps = Reject m ps.

Lemma ltail_front : forall a s e t, ltail a s e t -> P t -> P s.
Proof. intros a s e t H Pt. inversion H; subst; eauto. Qed.

Lemma ltail_none : forall a s e t, ltail a s e t -> den a = None -> den e = None.
Proof. intros a s e t H. induction H; auto. Qed.

Lemma ltail_complete : forall a s e t, ltail a s e t -> P t -> St t ->
  forall n ps, (length s < n)%nat -> (length s < N)%nat ->
  match den e with
  | Some v => exists ps', foldl_reject_incomplete n q (den a) f s ps = Accept v t ps'
  | None => foldl_reject_incomplete n q (den a) f s ps = Illformed
  end.
Proof.
  intros a s e t H Pt Nt. induction H as [a s | a j s s1 e t I H IH]; intros n ps L L'.
  - destruct n; [lia|]. cbn [foldl_reject_incomplete].
    destruct (Hr s ps Pt Nt) as (m & ->).
    rewrite (proj2 (pos_equal_to_iff ps ps) eq_refl). destruct (den a); eauto.
  - destruct n; [lia|]. cbn [foldl_reject_incomplete].
    pose proof (ShI _ _ _ I).
    assert (P1 : P s1) by (eapply ltail_front; eauto).
    pose proof (Hq j s s1 ps I P1 L') as C.
    destruct (di j) as [y|] eqn:Dj.
    + destruct C as (ps' & ->).
      destruct (den a) as [x|] eqn:Da.
      * rewrite (step a j x y) by auto. apply IH; auto; lia.
      * rewrite (ltail_none _ _ _ _ H) by auto. auto.
    + rewrite (ltail_none _ _ _ _ H) by auto. rewrite C. auto.
Qed.

Lemma chain_complete : (forall e, den e <> Some VVoid) ->
  completes N (fun t => P t /\ St t) chain den (foldl_reject_incomplete_start_with_parser N q p f).
Proof.
  intros Nv e s t ps C (Pt & Nt) L. apply chain_ltail in C as (a & s1 & A & T).
  assert (P1 : P s1) by (eapply ltail_front; eauto).
  pose proof (Hp a s s1 ps A P1 L) as Ca. unfold foldl_reject_incomplete_start_with_parser.
  pose proof (ShX _ _ _ A).
  destruct (den a) as [x|] eqn:Da.
  - destruct Ca as (ps1 & ->). rewrite type_of_some by (intros ->; exact (Nv _ Da)).
    rewrite <- Da. apply ltail_complete; auto; lia.
  - rewrite (ltail_none _ _ _ _ T) by auto. rewrite Ca. auto.
Qed.
End Complete.

Section Sound.
Hypothesis Hp : sounds N P X den p.
Hypothesis Hq : forall s ps y t ps', P s -> (length s < N)%nat -> q s ps = Accept y t ps' ->
  exists j, It j s t /\ di j = Some y /\ P t.
Hypothesis Hr : forall s ps m, P s -> (length s < N)%nat -> q s ps = Reject m ps -> St s.

Lemma runs_chain_sound : forall s ps rs t ps', runs q s ps rs t ps' -> forall s0 a x v,
  chain a s0 s -> P s -> (length s0 < N)%nat -> den a = Some x -> lfold f rs x = Some v ->
  exists e, chain e s0 t /\ den e = Some v /\ P t.
Proof.
  intros s ps rs t ps' H. induction H as [s ps | s ps r s1 ps1 rs s2 ps2 E1 H IH]; intros s0 a x v C Ps L D F.
  - cbn [lfold] in F. injection F as <-. exists a. auto.
  - pose proof (chain_shorter _ _ _ C).
    destruct (Hq s ps r s1 ps1) as (j & I & Dj & P1); [auto|lia|auto|].
    cbn [lfold] in F. rewrite (step a j x r) in F by auto.
    destruct (den (bld a j)) as [x'|] eqn:D'; [|discriminate].
    apply (IH s0 (bld a j) x' v); auto. apply ch_more with s; auto.
Qed.

Lemma chain_sound :
  sounds N (fun t => P t /\ St t) chain den (foldl_reject_incomplete_start_with_parser N q p f).
Proof.
  intros s ps v t ps' L A. apply foldl_ri_swp_accept in A as (v0 & s1 & ps1 & rs & m & A0 & _ & _ & R & E0 & F).
  destruct (Hp _ _ _ _ _ L A0) as (a & C & D & P1).
  destruct (runs_chain_sound _ _ _ _ _ R s a v0 v) as (e & C' & D' & Pt); auto.
  { constructor. auto. }
  exists e. splits; auto. apply (Hr t ps' m); auto. apply chain_shorter in C'. lia.
Qed.
End Sound.

End Chain.

(** ** Texts *)

Lemma lexeme_total : forall w s, exists t, lexeme_text w (w ++ s) t.
Proof.
  intros w s. destruct (take_while space_char space_dec s) as (u & t & -> & F & N).
  exists t, u. auto.
Qed.
Lemma lexeme_shorter : forall w s t, w <> [] -> lexeme_text w s t -> (length t < length s)%nat.
Proof.
  intros w s t Ne (u & -> & _). rewrite !app_length. destruct w; [congruence|]. cbn [length]. slia.
Qed.
Lemma word_not_nil : forall w, word w -> w <> [].
Proof. intros w (c & u & -> & _). discriminate. Qed.
Lemma name_shorter : forall x s t, name_text x s t -> (length t < length s)%nat.
Proof.
  intros x s t (u & -> & W & _). apply word_not_nil in W. rewrite !app_length.
  destruct x; [congruence|]. cbn [length]. slia.
Qed.
Lemma key_shorter : forall l k s t, k <> [] -> key_text l k s t -> (length t < length s)%nat.
Proof.
  intros l k s t Ne (u & -> & _). rewrite !app_length. destruct k; [congruence|]. cbn [length]. slia.
Qed.
Lemma number_shorter : forall ds w t s, leading_number ds w t s -> (length t < length s)%nat.
Proof.
  intros ds w t s (-> & (Ne & _) & _). rewrite !app_length. destruct ds; [congruence|]. cbn [length]. slia.
Qed.
Lemma op_text_not_nil : forall o, op_text o <> [].
Proof. intros []; vm_compute; discriminate. Qed.

Lemma etext_shorter : forall r k e s t, etext r k e s t -> (length t < length s)%nat.
Proof.
  intros r k e s t H. induction H; eauto using number_shorter, name_shorter.
  - apply lexeme_shorter in H; [|vm_compute; discriminate].
    apply lexeme_shorter in H1; [|vm_compute; discriminate]. lia.
  - apply key_shorter in H; [|vm_compute; discriminate].
    apply key_shorter in H1; [|vm_compute; discriminate].
    apply key_shorter in H3; [|vm_compute; discriminate]. lia.
  - lia.
  - apply lexeme_shorter in H2; [|apply op_text_not_nil]. lia.
Qed.

Lemma letter_dec : forall c, {letter_char c} + {~ letter_char c}.
Proof.
  intros c. unfold letter_char. apply or_dec.
  - destruct (Z_le_dec 97 c); [|right; slia]. destruct (Z_le_dec c 122); [left|right]; slia.
  - destruct (Z_le_dec 65 c); [|right; slia]. destruct (Z_le_dec c 90); [left|right]; slia.
Qed.
Lemma name_char_dec : forall c, {name_char c} + {~ name_char c}.
Proof.
  intros c. unfold name_char. apply or_dec; [apply letter_dec|apply or_dec; [apply digit_dec|apply eq_char_dec]].
Qed.

(** the first character of an expression *)
Definition exp_char (c : char) : Prop := name_char c \/ c = 40.

Lemma etext_starts : forall r k e s t, etext r k e s t -> exists c u, s = c :: u /\ exp_char c.
Proof.
  intros r k e s t H. induction H; auto.
  - destruct H as (-> & (Ne & F) & _). destruct ds as [|c ds]; [congruence|].
    inversion F; subst. cbn [app]. do 2 eexists. split; [reflexivity|].
    left. right. left. auto.
  - destruct H as (u & -> & (c & v & -> & C & _) & _). cbn [app]. do 2 eexists. split; [reflexivity|].
    left. unfold name_char. destruct C; auto.
  - destruct H as (u & -> & _). exists 40, (u ++ s1). split; [reflexivity|]. right. reflexivity.
  - destruct H as (u & -> & _). exists 105, (102 :: u ++ s1). split; [reflexivity|].
    left. left. unfold letter_char. lia.
Qed.

Lemma words : forall s, not_starting_with (fun c => letter_char c \/ c = 95) s
  \/ exists w r, s = w ++ r /\ word w /\ not_starting_with name_char r.
Proof.
  intros [|c s]; [left; simpl; auto|].
  assert (D : {letter_char c \/ c = 95} + {~ (letter_char c \/ c = 95)}).
  { apply or_dec; [apply letter_dec|apply eq_char_dec]. }
  destruct D as [D|D]; [|left; auto]. right.
  destruct (take_while name_char name_char_dec s) as (w & r & -> & F & N).
  exists (c :: w), r. splits; auto. exists c, w. auto.
Qed.

Lemma word_chars : forall w, word w -> Forall name_char w.
Proof.
  intros w (c & u & -> & C & F). constructor; auto. unfold name_char. destruct C; auto.
Qed.
Lemma space_not_name : forall c, space_char c -> ~ name_char c.
Proof. unfold space_char, name_char, letter_char, digit_char. intros c H. slia. Qed.

Lemma word_reading_unique : forall w r w' r', word w -> word w' -> not_starting_with name_char r ->
  not_starting_with name_char r' -> w ++ r = w' ++ r' -> w = w' /\ r = r'.
Proof.
  intros. apply (split_unique name_char w r w' r'); auto using word_chars.
Qed.

Lemma name_text_unique : forall x x' s t t', name_text x s t -> name_text x' s t' -> x = x' /\ t = t'.
Proof.
  intros x x' s t t' (u & E & W & _ & F & N & S) (u' & E' & W' & _ & F' & N' & S').
  rewrite E in E'. apply word_reading_unique in E' as (-> & E'); auto.
  destruct (split_unique _ _ _ _ _ E' F F' S S'). auto.
Qed.

Definition spaces_then (u t : str) : Prop := Forall space_char u /\ not_starting_with space_char t.

Lemma spaces_total : forall s, exists u t, s = u ++ t /\ spaces_then u t.
Proof.
  intros s. destruct (take_while space_char space_dec s) as (u & t & -> & F & N).
  exists u, t. split; auto. split; auto.
Qed.

(** ** Tokens *)

Lemma token_acc : forall cfg n p s ps v u t ps1, fits_sequence cfg 2 -> p s ps = Accept v (u ++ t) ps1 ->
  spaces_then u t -> (length u < n)%nat -> token cfg n p s ps = Accept v t (adv ps1 u).
Proof.
  intros cfg n p s ps v u t ps1 Fs E (F & N) L. apply token_accept; auto.
  exists (u ++ t), ps1, u. splits; auto. apply walk_adv.
Qed.
Lemma token_snd : forall cfg n p s ps v t ps', fits_sequence cfg 2 -> token cfg n p s ps = Accept v t ps' ->
  exists u ps1, p s ps = Accept v (u ++ t) ps1 /\ spaces_then u t.
Proof.
  intros cfg n p s ps v t ps' Fs H. apply token_accept in H as (s1 & ps1 & u & E & -> & F & N & _); auto.
  exists u, ps1. split; auto. split; auto.
Qed.

Lemma push_fold : forall w x, lfold str_push_back (map VChar w) (VStr x) = Some (VStr (x ++ w)).
Proof.
  induction w as [|c w IH]; intros x; cbn [map lfold].
  - rewrite app_nil_r. auto.
  - cbn [str_push_back as_int]. rewrite IH, <- app_assoc. auto.
Qed.

Definition hev (cfg : config) (n : nat) (e : pexpr) : pfun := eval cfg hs_program n e.

Section Hs.

Variable cfg : config.
Hypothesis H11 : cfg_std cfg <> Std98.

Local Notation ev := (hev cfg).

Lemma fs : forall k, fits_sequence cfg k.
Proof. intros k E. contradiction. Qed.
Lemma fo : forall k, fits_one_of cfg k.
Proof. intros k E. contradiction. Qed.
Lemma one_of_eq : forall l, one_of cfg l = one_of_11 l.
Proof. intros l. unfold one_of. destruct (cfg_std cfg); congruence. Qed.

Definition lead (c : char) : Prop := letter_char c \/ c = 95.

Definition word_p : pexpr :=
  PFoldlRejectIncompleteStartWithParser
    (POneOf [PAlphanum; PLitC 95])
    (PTransform (POneOf [PLetter; PLitC 95]) (str_push_back (VStr []))) str_push_back.

Lemma ev_word : forall n, ev n word_p =
  foldl_reject_incomplete_start_with_parser n (one_of cfg [alphanum cfg; lit_c 95])
    (transform (one_of cfg [letter; lit_c 95]) (str_push_back (VStr []))) str_push_back.
Proof. intros [|n]; reflexivity. Qed.

Lemma name_char_reads : reads name_char VChar (one_of cfg [alphanum cfg; lit_c 95]).
Proof.
  apply (reads_ext (fun c => alphanum_char c \/ c = 95)).
  - intros c. unfold alphanum_char, name_char. tauto.
  - apply reads_or; auto using fo.
    + intros c. unfold alphanum_char. apply or_dec; [apply letter_dec|apply digit_dec].
    + apply eq_char_dec.
    + eapply class_reads. apply alphanum_class, fo.
    + apply lit_reads.
Qed.
Lemma lead_reads : reads lead VChar (one_of cfg [letter; lit_c 95]).
Proof.
  apply reads_or; auto using fo, letter_dec.
  - apply eq_char_dec.
  - eapply class_reads. apply letter_class.
  - apply lit_reads.
Qed.

Lemma word_reject : forall n s ps, not_starting_with lead s -> exists m, ev n word_p s ps = Reject m ps.
Proof.
  intros n s ps N. rewrite ev_word. unfold foldl_reject_incomplete_start_with_parser, transform.
  destruct (proj2 lead_reads s ps N) as (m & ->). eauto.
Qed.
Lemma word_accept : forall n w r ps, word w -> not_starting_with name_char r -> (length w <= n)%nat ->
  ev n word_p (w ++ r) ps = Accept (VStr w) r (adv ps w).
Proof.
  intros n w r ps (c & u & -> & C & F) N L. rewrite ev_word.
  unfold foldl_reject_incomplete_start_with_parser, transform. cbn [app].
  rewrite (proj1 lead_reads) by auto. cbn [str_push_back as_int app type_of].
  rewrite (reads_foldl_ri _ _ _ name_char_reads); auto.
  unfold lfold_o. rewrite push_fold. reflexivity.
Qed.

Lemma ev_name_p : forall n, ev n hs_name =
  token cfg n (accept_when (ev n word_p) (not_keyword hs_keywords) keywords_are_not_allowed).
Proof. intros [|n]; reflexivity. Qed.

Lemma reserved_dec : forall w, {reserved w} + {~ reserved w}.
Proof. intros w. unfold reserved. repeat apply or_dec; apply list_eq_dec; apply Z.eq_dec. Qed.

Lemma not_keyword_reserved : forall w, not_keyword hs_keywords (VStr w) =
  Some (if reserved_dec w then false else true).
Proof.
  intros w. cbn [not_keyword]. f_equal.
  change hs_keywords with [text "if"; text "then"; text "else"].
  cbn [forallb]. unfold reserved in *.
  destruct (list_eq_dec Z.eq_dec w (text "if")), (list_eq_dec Z.eq_dec w (text "then")),
    (list_eq_dec Z.eq_dec w (text "else")); destruct reserved_dec as [R|R]; unfold reserved in R;
    try tauto; reflexivity.
Qed.

Lemma name_acc : forall n x s t ps, name_text x s t -> (length s < n)%nat ->
  exists ps', ev n hs_name s ps = Accept (VStr x) t ps'.
Proof.
  intros n x s t ps (u & -> & W & R & F & N & S) L. rewrite !app_length in L.
  exists (adv (adv ps x) u). rewrite ev_name_p. apply token_acc; auto using fs; [|split; auto|lia].
  unfold accept_when. rewrite word_accept by (auto; lia). rewrite not_keyword_reserved.
  destruct (reserved_dec x); [contradiction|auto].
Qed.

Lemma name_rej_word : forall n w r ps, reserved w -> not_starting_with name_char r ->
  (length w <= n)%nat -> exists m, ev n hs_name (w ++ r) ps = Reject m ps.
Proof.
  intros n w r ps R N L. rewrite ev_name_p. exists keywords_are_not_allowed.
  apply token_reject; auto using fs.
  assert (W : word w).
  { destruct R as [-> | [-> | ->]]; vm_compute text; do 2 eexists; (split; [reflexivity|]);
      (split; [left; unfold letter_char; slia|]);
      repeat (apply Forall_cons; [unfold name_char, letter_char; slia|]); apply Forall_nil. }
  unfold accept_when. rewrite word_accept by auto. rewrite not_keyword_reserved.
  destruct (reserved_dec w); [auto|contradiction].
Qed.
Lemma name_rej_char : forall n s ps, not_starting_with lead s -> exists m, ev n hs_name s ps = Reject m ps.
Proof.
  intros n s ps N. rewrite ev_name_p. destruct (word_reject n s ps N) as (m & E). exists m.
  apply token_reject; auto using fs. unfold accept_when. rewrite E. auto.
Qed.

Lemma name_cases : forall s, not_starting_with lead s
  \/ (exists w r, s = w ++ r /\ reserved w /\ not_starting_with name_char r)
  \/ exists x t, name_text x s t.
Proof.
  intros s. destruct (words s) as [N|(w & r & -> & W & N)]; auto.
  right. destruct (reserved_dec w) as [R|R].
  - left. exists w, r. auto.
  - right. destruct (spaces_total r) as (u & t & -> & F & S). exists w, t, u. splits; auto.
Qed.

Lemma name_snd : forall n s ps v t ps', (length s < n)%nat -> ev n hs_name s ps = Accept v t ps' ->
  exists x, v = VStr x /\ name_text x s t.
Proof.
  intros n s ps v t ps' L E. destruct (name_cases s) as [N|[(w & r & -> & R & N)|(x & t' & T)]].
  - destruct (name_rej_char n s ps N) as (m & E'). congruence.
  - rewrite app_length in L. destruct (name_rej_word n w r ps) as (m & E'); auto; [lia|congruence].
  - destruct (name_acc n x s t' ps T L) as (ps1 & E'). rewrite E in E'. injection E' as -> -> _.
    exists x. auto.
Qed.
Lemma name_finishes : forall n s ps, (length s < n)%nat -> finishes (ev n hs_name) s ps.
Proof.
  intros n s ps L. destruct (name_cases s) as [N|[(w & r & -> & R & N)|(x & t' & T)]].
  - destruct (name_rej_char n s ps N) as (m & E'). eapply finishes_reject; eauto.
  - rewrite app_length in L. destruct (name_rej_word n w r ps) as (m & E'); auto; [lia|].
    eapply finishes_reject; eauto.
  - destruct (name_acc n x s t' ps T L) as (ps1 & E'). left. do 3 eexists. eauto.
Qed.

(** Keywords *)
Definition key_p (k : str) : pexpr := PToken (PKeyword k VVoid_).
Lemma ev_key : forall n k, ev n (key_p k) = token cfg n (keyword k VVoid_).
Proof. intros [|n] k; reflexivity. Qed.

Lemma key_acc : forall n l k s t ps, key_text l k s t -> (length s < n)%nat ->
  exists ps', ev n (key_p k) s ps = Accept VVoid_ t ps'.
Proof.
  intros n l k s t ps (u & -> & F & N & _) L. rewrite !app_length in L.
  exists (adv (adv ps k) u). rewrite ev_key. apply token_acc; auto using fs; [|split; auto|lia].
  apply keyword_accept. splits; auto. apply walk_adv.
Qed.
Lemma key_snd : forall n k s ps v t ps', ev n (key_p k) s ps = Accept v t ps' -> key_text true k s t.
Proof.
  intros n k s ps v t ps' E. rewrite ev_key in E. apply token_snd in E as (u & ps1 & E & F & N); auto using fs.
  apply keyword_accept in E as (-> & _). exists u. auto.
Qed.
Lemma key_rej : forall n k s ps, ~ prefix k s -> exists m pe, ev n (key_p k) s ps = Reject m pe.
Proof.
  intros n k s ps P. rewrite ev_key.
  destruct (keyword_finishes k VVoid_ s ps) as [(v & s' & ps' & E)|(m & pe & E)].
  - apply keyword_accept in E as (-> & _). exfalso. apply P. exists s'. auto.
  - exists m, pe. apply token_reject; auto using fs.
Qed.
Lemma key_rej_first : forall n c k s ps, not_starting_with (fun d => d = c) s ->
  exists m, ev n (key_p (c :: k)) s ps = Reject m ps.
Proof.
  intros n c k s ps N. rewrite ev_key. exists (literal_expected c). apply token_reject; auto using fs.
  apply keyword_reject. exists [], c, k, s. splits; auto. constructor.
Qed.

(** Characters *)
Lemma ev_char_token : forall n c, ev n (PToken (PLitC c)) = token cfg n (lit_c c).
Proof. intros [|n] c; reflexivity. Qed.
Lemma char_token_reads : forall n c, reads_token n c (VChar c) (ev n (PToken (PLitC c))).
Proof. intros n c. rewrite ev_char_token. apply token_reads_token, fs. Qed.

Lemma reads_token_sound : forall n c v p, reads_token n c v p -> forall s ps v' t ps', (length s < n)%nat ->
  p s ps = Accept v' t ps' -> v' = v /\ char_token_text c s t.
Proof.
  intros n c v p (A & R) s ps v' t ps' L E. destruct s as [|d s].
  - destruct (R [] ps Logic.I) as (m & E'). congruence.
  - destruct (Z.eq_dec d c) as [->|Nd].
    + destruct (token_text_total c s) as (t' & T). destruct (A _ _ ps T L) as (ps1 & E').
      rewrite E in E'. injection E' as -> -> _. auto.
    + destruct (R (d :: s) ps Nd) as (m & E'). congruence.
Qed.

Lemma ev_always_token : forall n c r, ev n (PToken (always_c_str c r)) = token cfg n (always (lit_c c) (VStr r)).
Proof. intros [|n] c r; reflexivity. Qed.
Lemma always_token_reads : forall n c r, reads_token n c (VStr r) (ev n (PToken (always_c_str c r))).
Proof.
  intros n c r. rewrite ev_always_token. split.
  - intros s t ps (w & -> & F & N) L. cbn [length] in L. rewrite app_length in L.
    exists (adv (next_pos c ps) w). apply token_acc; auto using fs; [|split; auto|slia].
    unfold always. rewrite (proj1 (lit_reads c)); auto.
  - intros s ps N. destruct (proj2 (lit_reads c) s ps N) as (m & E). exists m. apply token_reject; auto using fs.
    unfold always. rewrite E. auto.
Qed.

(** Operators *)

Lemma lit_eq : forall c d s ps, lit_c c (d :: s) ps =
  if d =? c then Accept (VChar d) s (next_pos d ps) else Reject (literal_expected c) ps.
Proof.
  intros c d s ps. destruct (d =? c) eqn:E.
  - apply Z.eqb_eq in E as ->. apply (proj1 (lit_reads c)). auto.
  - unfold lit_c, accept_when, change_error_message. cbn. rewrite E. auto.
Qed.
Lemma lit_nil : forall c ps, lit_c c [] ps = Reject (literal_expected c) ps.
Proof. reflexivity. Qed.

Lemma last_2 : forall (p q : pfun) s ps, last_of cfg [p; q] s ps =
  match p s ps with Accept _ s1 ps1 => q s1 ps1 | o => o end.
Proof. intros. apply last_of_2. apply fs. Qed.
Lemma last_3 : forall (p q r : pfun) s ps, last_of cfg [p; q; r] s ps =
  match p s ps with
  | Accept _ s1 ps1 => match q s1 ps1 with Accept _ s2 ps2 => r s2 ps2 | o => o end
  | o => o
  end.
Proof.
  intros p q r s ps. rewrite last_of_cfg; [|apply fs|discriminate].
  change [p; q; r] with ([p; q] ++ [r]). rewrite last_of_11_snoc. cbn [sequence_11]. unfold transform, return_.
  destruct (p s ps) as [v1 s1 ps1| | |]; auto. destruct (q s1 ps1) as [v2 s2 ps2| | |]; auto.
Qed.

Definition cmp_inner : pexpr :=
  POneOf
    [PLastOf [PLitC 61; PLitC 61; PReturn (VStr (literal ".==."))];
     PLastOf [PLitC 47; PLitC 61; PReturn (VStr (literal "./=."))];
     PLastOf [PLitC 60; POneOf [always_c_str 61 (literal ".<=."); PReturn (VStr (literal ".<."))]];
     PLastOf [PLitC 62; POptional (always_c_str 61 (literal ".>=.")) (VStr (literal ".>."))]].

Lemma ev_cmp : forall n, ev n hs_cmp = token cfg n (ev n cmp_inner).
Proof. intros [|n]; reflexivity. Qed.

Lemma ev_cmp_inner : forall n, ev n cmp_inner =
  one_of_11
    [last_of cfg [lit_c 61; lit_c 61; return_ (VStr (op_name BEq))];
     last_of cfg [lit_c 47; lit_c 61; return_ (VStr (op_name BNe))];
     last_of cfg [lit_c 60; one_of_11 [always (lit_c 61) (VStr (op_name BLe)); return_ (VStr (op_name BLt))]];
     last_of cfg [lit_c 62; optional (always (lit_c 61) (VStr (op_name BGe))) (VStr (op_name BGt))]].
Proof. intros n. rewrite <- !one_of_eq. destruct n; reflexivity. Qed.

Lemma later_here : forall m m' ps, exists k, later_result m ps m' ps = Reject k ps.
Proof. intros m m' ps. unfold later_result. destruct (pos_less ps ps); eauto. Qed.

Lemma next_not_less : forall c ps, pos_less ps (next_pos c ps) = true.
Proof. intros. apply pos_less_iff. apply next_pos_lt. Qed.
Lemma not_less_next : forall c ps, pos_less (next_pos c ps) ps = false.
Proof. intros. apply pos_less_false_iff. left. apply next_pos_lt. Qed.
Lemma not_less_self : forall ps, pos_less ps ps = false.
Proof. intros. apply pos_less_false_iff. apply pos_le_refl. Qed.

Ltac run_more :=
  repeat (cbn [Z.eqb Pos.eqb]; cbv beta iota; unfold always, return_, optional, fail, later_result;
          rewrite ?lit_eq, ?lit_nil, ?next_not_less, ?not_less_next, ?not_less_self).
Ltac run_cmp :=
  rewrite ev_cmp_inner; cbn [one_of_11]; rewrite ?last_2, ?last_3, ?lit_eq, ?lit_nil; run_more.

Lemma cmp_eq : forall n s ps, ev n cmp_inner (61 :: 61 :: s) ps =
  Accept (VStr (op_name BEq)) s (next_pos 61 (next_pos 61 ps)).
Proof. intros. run_cmp. reflexivity. Qed.
Lemma cmp_eq1 : forall n s ps, not_starting_with (fun c => c = 61) s ->
  exists m, ev n cmp_inner (61 :: s) ps = Reject m (next_pos 61 ps).
Proof.
  intros n s ps N. run_cmp. destruct s as [|c s].
  - run_more. eauto.
  - run_more. assert (E : c =? 61 = false) by (apply Z.eqb_neq; auto). rewrite E. run_more. eauto.
Qed.
Lemma cmp_le : forall n s ps, ev n cmp_inner (60 :: 61 :: s) ps =
  Accept (VStr (op_name BLe)) s (next_pos 61 (next_pos 60 ps)).
Proof. intros. run_cmp. reflexivity. Qed.
Lemma cmp_ge : forall n s ps, ev n cmp_inner (62 :: 61 :: s) ps =
  Accept (VStr (op_name BGe)) s (next_pos 61 (next_pos 62 ps)).
Proof. intros. run_cmp. reflexivity. Qed.
Lemma cmp_lt : forall n s ps, not_starting_with (fun c => c = 61) s -> ev n cmp_inner (60 :: s) ps =
  Accept (VStr (op_name BLt)) s (next_pos 60 ps).
Proof.
  intros n s ps N. run_cmp. destruct s as [|c s].
  - run_more. reflexivity.
  - run_more. assert (E : c =? 61 = false) by (apply Z.eqb_neq; auto). rewrite E. run_more. reflexivity.
Qed.
Lemma cmp_gt : forall n s ps, not_starting_with (fun c => c = 61) s -> ev n cmp_inner (62 :: s) ps =
  Accept (VStr (op_name BGt)) s (next_pos 62 ps).
Proof.
  intros n s ps N. run_cmp. destruct s as [|c s].
  - run_more. reflexivity.
  - run_more. assert (E : c =? 61 = false) by (apply Z.eqb_neq; auto). rewrite E. run_more. reflexivity.
Qed.
Lemma cmp_none : forall n s ps, not_starting_with (fun c => c = 61 \/ c = 47 \/ c = 60 \/ c = 62) s ->
  exists m, ev n cmp_inner s ps = Reject m ps.
Proof.
  intros n s ps N. destruct s as [|c s].
  - run_cmp. eauto.
  - unfold not_starting_with in N. run_cmp.
    assert (E : c =? 61 = false) by (apply Z.eqb_neq; tauto). rewrite E.
    assert (E1 : c =? 47 = false) by (apply Z.eqb_neq; tauto). rewrite E1.
    assert (E2 : c =? 60 = false) by (apply Z.eqb_neq; tauto). rewrite E2.
    assert (E3 : c =? 62 = false) by (apply Z.eqb_neq; tauto). rewrite E3. run_more. eauto.
Qed.

Definition opp (k : nat) : pexpr :=
  match k with
  | 1%nat => POneOf [hs_mult; hs_div]
  | 2%nat => POneOf [hs_plus; hs_minus]
  | _ => hs_cmp
  end.
(** the characters operators of a level start with *)
Definition starter (k : nat) (c : char) : Prop :=
  match k with
  | 1%nat => c = 42 \/ c = 47
  | 2%nat => c = 43 \/ c = 45
  | _ => c = 60 \/ c = 61 \/ c = 62
  end.
Definition not_eq_sign (s : str) : Prop := not_starting_with (fun c => c = 61) s.
Definition not_slash (s : str) : Prop := not_starting_with (fun c => c = 47) s.

Section TwoOps.
Variables c1 c2 : char.
Variables r1 r2 : str.
Hypothesis Ne : c1 <> c2.
Let two (n : nat) : pfun :=
  one_of cfg [ev n (PToken (always_c_str c1 r1)); ev n (PToken (always_c_str c2 r2))].

Lemma two_first : forall n s t ps, char_token_text c1 s t -> (length s < n)%nat ->
  exists ps', two n s ps = Accept (VStr r1) t ps'.
Proof.
  intros n s t ps T L. destruct (proj1 (always_token_reads n c1 r1) s t ps T L) as (ps' & E).
  exists ps'. apply one_of_2_first; auto using fo.
  destruct (proj2 (always_token_reads n c2 r2) s ps) as (m & E').
  - destruct T as (w & -> & _). simpl. auto.
  - eapply finishes_reject; eauto.
Qed.
Lemma two_second : forall n s t ps, char_token_text c2 s t -> (length s < n)%nat ->
  exists ps', two n s ps = Accept (VStr r2) t ps'.
Proof.
  intros n s t ps T L. destruct (proj1 (always_token_reads n c2 r2) s t ps T L) as (ps' & E).
  exists ps'. apply one_of_2_second; auto using fo.
  destruct (proj2 (always_token_reads n c1 r1) s ps) as (m & E').
  - destruct T as (w & -> & _). simpl. auto.
  - do 2 eexists; eauto.
Qed.
Lemma two_none : forall n s ps, not_starting_with (fun c => c = c1 \/ c = c2) s ->
  exists m, two n s ps = Reject m ps.
Proof.
  intros n s ps N.
  destruct (proj2 (always_token_reads n c1 r1) s ps) as (m & E).
  { destruct s; simpl in *; auto. }
  destruct (proj2 (always_token_reads n c2 r2) s ps) as (m' & E').
  { destruct s; simpl in *; auto. }
  eapply one_of_2_near; eauto using fo.
Qed.
Lemma two_total : forall n s ps, (length s < n)%nat ->
  (not_starting_with (fun c => c = c1 \/ c = c2) s /\ exists m, two n s ps = Reject m ps)
  \/ (exists t ps', char_token_text c1 s t /\ two n s ps = Accept (VStr r1) t ps')
  \/ (exists t ps', char_token_text c2 s t /\ two n s ps = Accept (VStr r2) t ps').
Proof.
  intros n [|c s] ps L.
  - left. split; [simpl; auto|]. apply two_none. simpl. auto.
  - destruct (Z.eq_dec c c1) as [->|N1].
    { right. left. destruct (token_text_total c1 s) as (t & T).
      destruct (two_first n _ _ ps T L) as (ps' & E). eauto. }
    destruct (Z.eq_dec c c2) as [->|N2].
    { right. right. destruct (token_text_total c2 s) as (t & T).
      destruct (two_second n _ _ ps T L) as (ps' & E). eauto. }
    left. assert (N : not_starting_with (fun c => c = c1 \/ c = c2) (c :: s)) by (simpl; tauto).
    split; auto. apply two_none. auto.
Qed.
End TwoOps.

Lemma ev_mul_ops : forall n, ev n (opp 1) =
  one_of cfg [ev n (PToken (always_c_str 42 (op_name BMul))); ev n (PToken (always_c_str 47 (op_name BDiv)))].
Proof. intros [|n]; reflexivity. Qed.
Lemma ev_add_ops : forall n, ev n (opp 2) =
  one_of cfg [ev n (PToken (always_c_str 43 (op_name BAdd))); ev n (PToken (always_c_str 45 (op_name BSub)))].
Proof. intros [|n]; reflexivity. Qed.

Lemma not_eq_after : forall u t, Forall space_char u -> not_eq_sign t -> not_eq_sign (u ++ t).
Proof.
  intros [|c u] t F N; auto. inversion F; subst. simpl. unfold space_char in *. slia.
Qed.

Lemma cmp_token : forall n s v u t ps ps1, ev n cmp_inner s ps = Accept v (u ++ t) ps1 -> spaces_then u t ->
  (length u < n)%nat -> exists ps', ev n hs_cmp s ps = Accept v t ps'.
Proof.
  intros n s v u t ps ps1 E S L. rewrite ev_cmp. eexists. eapply token_acc; eauto using fs.
Qed.

Lemma op_acc : forall n k o s t ps, op_level o = S k -> o <> BNe -> lexeme_text (op_text o) s t ->
  not_eq_sign t -> (length s < n)%nat ->
  exists ps', ev n (opp k) s ps = Accept (VStr (op_name o)) t ps'.
Proof.
  intros n k o s t ps Lv Ne T Q L.
  assert (Cmp : k = 3%nat -> exists ps', ev n hs_cmp s ps = Accept (VStr (op_name o)) t ps').
  { intros ->. destruct T as (u & -> & F & N). pose proof (not_eq_after u t F Q) as Q'.
    rewrite !app_length in L. assert (Lu : (length u < n)%nat) by lia.
    destruct o; try discriminate; try congruence.
    - eapply cmp_token; [apply cmp_lt; auto | split; auto | auto].
    - eapply cmp_token; [apply cmp_le | split; auto | auto].
    - eapply cmp_token; [apply cmp_gt; auto | split; auto | auto].
    - eapply cmp_token; [apply cmp_ge | split; auto | auto].
    - eapply cmp_token; [apply cmp_eq | split; auto | auto]. }
  destruct o; injection Lv as <-; try (apply Cmp; reflexivity); clear Cmp.
  - rewrite ev_add_ops. apply two_first; auto. discriminate.
  - rewrite ev_add_ops. apply two_second; auto. discriminate.
  - rewrite ev_mul_ops. apply two_first; auto. discriminate.
  - rewrite ev_mul_ops. apply two_second; auto. discriminate.
Qed.

(** What an operator parser does with [s] *)
Definition op_result (n k : nat) (s : str) (ps : pos) : Prop :=
  (not_starting_with (starter k) s /\ exists m, ev n (opp k) s ps = Reject m ps)
  \/ (exists o t ps', op_level o = S k /\ o <> BNe /\ lexeme_text (op_text o) s t
        /\ ev n (opp k) s ps = Accept (VStr (op_name o)) t ps')
  \/ (exists m pe, ev n (opp k) s ps = Reject m pe /\ pe <> ps).

Lemma next_pos_ne : forall c ps, next_pos c ps <> ps.
Proof.
  intros c ps E. pose proof (next_pos_lt c ps) as H. rewrite E in H. eapply pos_lt_irrefl; eauto.
Qed.

Lemma cmp_total : forall n s ps, not_slash s -> (length s < n)%nat -> op_result n 3 s ps.
Proof.
  intros n s ps Sl L.
  assert (G : forall o r ps1, s = op_text o ++ r -> op_level o = 4%nat -> o <> BNe ->
    ev n cmp_inner s ps = Accept (VStr (op_name o)) r ps1 -> op_result n 3 s ps).
  { intros o r ps1 Es Lo No E. right. left. destruct (spaces_total r) as (u & t & -> & S).
    assert (Lu : (length u < n)%nat) by (rewrite Es, !app_length in L; lia).
    destruct (cmp_token n s _ u t ps ps1 E S Lu) as (ps' & E').
    exists o, t, ps'. splits; auto. exists u. destruct S. splits; auto. }
  destruct s as [|c s].
  { left. split; [simpl; auto|]. destruct (cmp_none n [] ps) as (m & E); [simpl; auto|].
    exists m. cbn [opp]. rewrite ev_cmp. apply token_reject; auto using fs. }
  destruct (Z.eq_dec c 61) as [->|N1].
  { destruct s as [|d s].
    - right. right. destruct (cmp_eq1 n [] ps Logic.I) as (m & E). exists m, (next_pos 61 ps).
      split; [|apply next_pos_ne]. cbn [opp]. rewrite ev_cmp. apply token_reject; auto using fs.
    - destruct (Z.eq_dec d 61) as [->|Nd].
      + apply (G BEq s (next_pos 61 (next_pos 61 ps))); auto; try discriminate. apply cmp_eq.
      + right. right. destruct (cmp_eq1 n (d :: s) ps Nd) as (m & E). exists m, (next_pos 61 ps).
        split; [|apply next_pos_ne]. cbn [opp]. rewrite ev_cmp. apply token_reject; auto using fs. }
  destruct (Z.eq_dec c 60) as [->|N2].
  { destruct s as [|d s].
    - apply (G BLt [] (next_pos 60 ps)); auto; try discriminate. apply cmp_lt. simpl. auto.
    - destruct (Z.eq_dec d 61) as [->|Nd].
      + eapply (G BLe s); auto; try discriminate. apply cmp_le.
      + eapply (G BLt (d :: s)); auto; try discriminate. apply cmp_lt. auto. }
  destruct (Z.eq_dec c 62) as [->|N3].
  { destruct s as [|d s].
    - apply (G BGt [] (next_pos 62 ps)); auto; try discriminate. apply cmp_gt. simpl. auto.
    - destruct (Z.eq_dec d 61) as [->|Nd].
      + eapply (G BGe s); auto; try discriminate. apply cmp_ge.
      + eapply (G BGt (d :: s)); auto; try discriminate. apply cmp_gt. auto. }
  left. simpl in Sl. split; [simpl; tauto|].
  destruct (cmp_none n (c :: s) ps) as (m & E); [simpl; tauto|].
  exists m. cbn [opp]. rewrite ev_cmp. apply token_reject; auto using fs.
Qed.

Lemma op_total : forall n k s ps, (1 <= k <= 3)%nat -> (k = 3%nat -> not_slash s) -> (length s < n)%nat ->
  op_result n k s ps.
Proof.
  intros n k s ps K Sl L.
  assert (C : k = 1%nat \/ k = 2%nat \/ k = 3%nat) by lia.
  destruct C as [-> | [-> | ->]].
  - unfold op_result. rewrite ev_mul_ops.
    destruct (two_total 42 47 (op_name BMul) (op_name BDiv)) with (n := n) (s := s) (ps := ps)
      as [H|[(t & ps' & T & E)|(t & ps' & T & E)]]; auto; try discriminate.
    + right. left. exists BMul, t, ps'. splits; auto; discriminate.
    + right. left. exists BDiv, t, ps'. splits; auto; discriminate.
  - unfold op_result. rewrite ev_add_ops.
    destruct (two_total 43 45 (op_name BAdd) (op_name BSub)) with (n := n) (s := s) (ps := ps)
      as [H|[(t & ps' & T & E)|(t & ps' & T & E)]]; auto; try discriminate.
    + right. left. exists BAdd, t, ps'. splits; auto; discriminate.
    + right. left. exists BSub, t, ps'. splits; auto; discriminate.
  - apply cmp_total; auto.
Qed.

Lemma op_rej : forall n k s ps, (1 <= k <= 3)%nat -> (k = 3%nat -> not_slash s) ->
  not_starting_with (starter k) s -> exists m, ev n (opp k) s ps = Reject m ps.
Proof.
  intros n k s ps K Sl N.
  assert (C : k = 1%nat \/ k = 2%nat \/ k = 3%nat) by lia.
  destruct C as [-> | [-> | ->]].
  - rewrite ev_mul_ops. apply two_none. auto.
  - rewrite ev_add_ops. apply two_none. auto.
  - destruct (cmp_none n s ps) as (m & E).
    { specialize (Sl eq_refl). destruct s; simpl in *; auto. tauto. }
    exists m. cbn [opp]. rewrite ev_cmp. apply token_reject; auto using fs.
Qed.

(** ** Positions *)

Lemma hs_good : forall n e, every (good_native True) e -> good True (ev n e).
Proof.
  intros n e H. apply eval_good; auto.
  intros k. unfold hs_program, cmp_exp, plus_exp, mult_exp, application_exp, single_exp, if_exp, bracket_exp,
    hs_name, hs_int, hs_if, hs_then, hs_else, hs_open, hs_close, hs_cmp, hs_plus, hs_minus, hs_mult, hs_div,
    always_c_str. every_solve; auto.
Qed.

Lemma good_accept : forall p s ps v t ps', good True p -> p s ps = Accept v t ps' ->
  pos_le ps ps' /\ ((length t < length s)%nat -> pos_lt ps ps').
Proof.
  intros p s ps v t ps' G E. specialize (G s ps). rewrite E in G. simpl in G. destruct G as (w & -> & ->).
  split; [apply adv_le|]. intros L. apply adv_lt. intros ->. simpl in L. lia.
Qed.
Lemma good_reject : forall p s ps m pe, good True p -> p s ps = Reject m pe -> pos_le ps pe.
Proof.
  intros p s ps m pe G E. specialize (G s ps). rewrite E in G. simpl in G. destruct (G Logic.I) as (w & _ & ->).
  apply adv_le.
Qed.

Ltac good_solve := apply hs_good;
  unfold cmp_exp, plus_exp, mult_exp, application_exp, single_exp, if_exp, bracket_exp,
    hs_name, hs_int, hs_if, hs_then, hs_else, hs_open, hs_close, hs_cmp, hs_plus, hs_minus, hs_mult, hs_div,
    always_c_str, opp, key_p; every_solve; auto.

Lemma cmp_exp_good : forall n, good True (ev n cmp_exp).
Proof. intros n. good_solve. Qed.
Lemma plus_exp_good : forall n, good True (ev n plus_exp).
Proof. intros n. good_solve. Qed.
Lemma mult_exp_good : forall n, good True (ev n mult_exp).
Proof. intros n. good_solve. Qed.
Lemma application_good : forall n, good True (ev n application_exp).
Proof. intros n. good_solve. Qed.
Lemma key_good : forall n k, good True (ev n (key_p k)).
Proof. intros n k. good_solve. Qed.
Lemma opp_good : forall n k, good True (ev n (opp k)).
Proof. intros n k. destruct k as [|[|[|k]]]; good_solve. Qed.
Lemma char_good : forall n c, good True (ev n (PToken (PLitC c))).
Proof. intros n c. good_solve. Qed.

(** ** Values and what may follow *)

Fixpoint den (e : hexp) : option value :=
  match e with
  | HNum ds => if int_ok (decimal ds) then Some (ast_value (VInt (decimal ds))) else None
  | HVar x => Some (ast_ref (VStr x))
  | HCall f a =>
      match den f, den a with Some x, Some y => Some (ast_application x y) | _, _ => None end
  | HIf c a b =>
      match den c, den a, den b with
      | Some x, Some y, Some z =>
          Some (ast_application (ast_application (ast_application (ast_value curry_lazy_if) x) y) z)
      | _, _, _ => None
      end
  | HOp o a b =>
      match den a, den b with
      | Some x, Some y =>
          Some (ast_application (ast_application (ast_ref (VStr (op_name o))) x) y)
      | _, _ => None
      end
  end.

Lemma den_not_void : forall e, den e <> Some VVoid.
Proof.
  intros [ds|x|f a|c a b|o a b]; cbn [den].
  - destruct (int_ok (decimal ds)); discriminate.
  - discriminate.
  - destruct (den f), (den a); discriminate.
  - destruct (den c), (den a), (den b); discriminate.
  - destruct (den a), (den b); discriminate.
Qed.

Definition single_stop (t : str) : Prop :=
  not_starting_with exp_char t
  \/ exists w r, t = w ++ r /\ (w = text "then" \/ w = text "else") /\ not_starting_with name_char r.
Definition stop (k : nat) (t : str) : Prop :=
  match k with O => single_stop t | S _ => not_starting_with (starter k) t end.
Fixpoint fol (k : nat) (t : str) : Prop :=
  match k with O => True | S k' => fol k' t /\ stop k' t end.

Lemma then_else_fol : forall w r, (w = text "then" \/ w = text "else") -> not_starting_with name_char r ->
  fol 4 (w ++ r).
Proof.
  intros w r W N. cbn [fol]. splits; auto.
  - right. exists w, r. auto.
  - destruct W as [-> | ->]; vm_compute; intuition discriminate.
  - destruct W as [-> | ->]; vm_compute; intuition discriminate.
  - destruct W as [-> | ->]; vm_compute; intuition discriminate.
Qed.
Lemma key_fol : forall k s t, (k = text "then" \/ k = text "else") -> key_text false k s t -> fol 4 s.
Proof.
  intros k s t K (u & -> & _ & _ & N). destruct N as [N|N]; [discriminate|].
  apply then_else_fol; auto.
Qed.
Lemma close_fol : forall t, fol 4 (41 :: t).
Proof.
  intros t. cbn [fol]. splits; auto; [left| | |]; simpl; unfold exp_char, name_char, letter_char, digit_char; slia.
Qed.
Lemma nil_fol : fol 4 [].
Proof. cbn [fol]. splits; auto; [left| | |]; simpl; auto. Qed.

Lemma ends_fol : forall t, ends_expression t <-> fol 4 t.
Proof.
  intros t. split.
  - intros [N|[(u & K)|(u & K)]].
    + assert (G : forall P : char -> Prop, (forall c, P c -> name_char c \/ In c (text "(+-*/<>=")) ->
        not_starting_with P t).
      { intros P HP. destruct t as [|c t]; simpl in *; auto. }
      cbn [fol]. splits; auto; [left| | |]; apply G; intros c; vm_compute text; cbn [In starter].
      * intros [H|H]; [left; auto|right; slia].
      * intros H. right. slia.
      * intros H. right. slia.
      * intros H. right. slia.
    + apply (key_fol (text "then") t u); auto.
    + apply (key_fol (text "else") t u); auto.
  - cbn [fol]. intros ((((_ & S0) & S1) & S2) & S3).
    destruct S0 as [S0|(w & r & -> & W & N)].
    + left. destruct t as [|c t]; simpl in *; auto. unfold exp_char in S0. vm_compute text. cbn [In].
      intros [H|H]; [apply S0; left; auto|].
      assert (c <> 40) by (intros ->; apply S0; right; reflexivity). slia.
    + right. destruct (spaces_total r) as (u & t & -> & F & S).
      destruct W as [-> | ->]; [left|right]; exists t, u; splits; auto.
Qed.

Lemma stop_then_else : forall w r, single_stop (w ++ r) -> (w = text "then" \/ w = text "else") ->
  not_starting_with name_char r.
Proof.
  intros w r [N|(w' & r' & E & W' & N)] W.
  - exfalso. destruct W as [-> | ->]; apply N; left; left; unfold letter_char.
    + change (97 <= 116 <= 122 \/ 65 <= 116 <= 90). lia.
    + change (97 <= 101 <= 122 \/ 65 <= 101 <= 90). lia.
  - destruct W as [-> | ->], W' as [-> | ->]; try discriminate E.
    + apply app_inv_head in E. subst. auto.
    + apply app_inv_head in E. subst. auto.
Qed.
Lemma key_strict : forall k s t, (k = text "then" \/ k = text "else") -> fol 4 s -> key_text true k s t ->
  key_text false k s t.
Proof.
  intros k s t K F (u & -> & Sp & N & _). exists u. splits; auto. right.
  cbn [fol] in F. destruct F as ((((_ & S0) & _) & _) & _). eapply stop_then_else; eauto.
Qed.

(** ** Single expressions *)

Lemma one_of_le : forall l s ps m pe, one_of_11 l s ps = Reject m pe ->
  Forall (fun p : pfun => exists m' p', p s ps = Reject m' p' /\ pos_le p' pe) l.
Proof.
  induction l as [|p l IH]; intros s ps m pe E; constructor; cbn [one_of_11] in E.
  - destruct (p s ps) as [v t q|m1 p1| |]; try discriminate.
    + destruct (one_of_11 l s ps); discriminate.
    + destruct (one_of_11 l s ps) as [|m2 p2| |]; try discriminate. unfold later_result in E.
      destruct (pos_less p2 p1) eqn:Lt; injection E as <- <-.
      * exists m1, p1. split; auto. apply pos_le_refl.
      * exists m1, p1. split; auto. apply pos_less_false_iff; auto.
  - destruct (p s ps) as [v t q|m1 p1| |]; try discriminate.
    + destruct (one_of_11 l s ps); discriminate.
    + destruct (one_of_11 l s ps) as [|m2 p2| |] eqn:E2; try discriminate. unfold later_result in E.
      specialize (IH _ _ _ _ E2).
      destruct (pos_less p2 p1) eqn:Lt; injection E as <- <-; auto.
      eapply Forall_impl; [|exact IH]. intros q (m' & p' & Eq & Le). exists m', p'. split; auto.
      eapply pos_le_trans; eauto. apply pos_less_iff in Lt. left. auto.
Qed.

Lemma one_of_near : forall l s ps, Forall (fun p : pfun => exists m, p s ps = Reject m ps) l ->
  exists m, one_of_11 l s ps = Reject m ps.
Proof.
  intros l s ps H. induction H as [|p l (m & E) H (m' & IH)]; cbn [one_of_11].
  - unfold fail. eauto.
  - rewrite E, IH. apply later_here.
Qed.

Lemma ev_single : forall n, ev n single_exp =
  one_of_11 [ev n if_exp; transform (ev n hs_name) sem_ref; transform (ev n hs_int) sem_value;
             ev n bracket_exp].
Proof. intros n. rewrite <- one_of_eq. destruct n; reflexivity. Qed.

Lemma four_accept : forall (p q r b : pfun) s ps v t ps', one_of_11 [p; q; r; b] s ps = Accept v t ps' ->
  p s ps = Accept v t ps' \/ q s ps = Accept v t ps' \/ r s ps = Accept v t ps' \/ b s ps = Accept v t ps'.
Proof.
  intros p q r b s ps v t ps'. cbn [one_of_11]. unfold fail, later_result.
  destruct (p s ps); auto; destruct (q s ps); auto; destruct (r s ps); auto; destruct (b s ps); auto;
    intros E; try discriminate E; auto;
    repeat match type of E with context [if ?x then _ else _] => destruct x end; try discriminate E; auto.
Qed.

Lemma one_of_skip : forall (p : pfun) l s ps, rejects p s ps ->
  (forall m pe, one_of_11 l s ps <> Reject m pe) -> one_of_11 (p :: l) s ps = one_of_11 l s ps.
Proof.
  intros p l s ps (m & pe & E) N. cbn [one_of_11]. rewrite E. destruct (one_of_11 l s ps); auto.
  exfalso. eapply N. reflexivity.
Qed.
Lemma one_of_take : forall (p : pfun) l s ps v t ps', p s ps = Accept v t ps' ->
  Forall (fun q : pfun => finishes q s ps) l -> one_of_11 (p :: l) s ps = Accept v t ps'.
Proof.
  intros p l s ps v t ps' E F. cbn [one_of_11]. rewrite E.
  destruct (one_of_11_finishes l s ps) as [(a & b & c & ->)|(m & pe & ->)]; auto.
  intros q Q. eapply Forall_forall in F; eauto.
Qed.
Lemma one_of_stop : forall (p : pfun) l s ps, p s ps = Illformed -> one_of_11 (p :: l) s ps = Illformed.
Proof. intros p l s ps E. cbn [one_of_11]. rewrite E. auto. Qed.

Lemma reject_finishes : forall (p : pfun) s ps, (exists m, p s ps = Reject m ps) -> finishes p s ps.
Proof. intros p s ps (m & E). eapply finishes_reject; eauto. Qed.
Lemma reject_rejects : forall (p : pfun) s ps, (exists m, p s ps = Reject m ps) -> rejects p s ps.
Proof. intros p s ps (m & E). do 2 eexists; eauto. Qed.

(** characters *)
Lemma digit_first : forall ds w t s, leading_number ds w t s -> exists c u, s = c :: u /\ digit_char c.
Proof.
  intros ds w t s (-> & (Ne & F) & _). destruct ds as [|c ds]; [congruence|]. inversion F; subst.
  cbn [app]. eauto.
Qed.
Lemma name_first : forall x s t, name_text x s t -> exists c u, s = c :: u /\ lead c.
Proof.
  intros x s t (u & -> & (c & v & -> & C & _) & _). cbn [app]. exists c, (v ++ u ++ t). auto.
Qed.
Lemma digit_not_lead : forall c, digit_char c -> ~ lead c.
Proof. unfold digit_char, lead, letter_char. intros. slia. Qed.

Lemma if_prefix_name : forall x s t, name_text x s t -> prefix (text "if") s -> prefix (text "if") x.
Proof.
  intros x s t (u & -> & (c & v & -> & C & F) & _ & Sp & N & _) (r & E).
  injection E as -> E. destruct v as [|d v].
  - exfalso. cbn [app] in E. rewrite E in N. apply N. left. left.
    change (97 <= 102 <= 122). lia.
  - cbn [app] in E. injection E as -> _. exists v. reflexivity.
Qed.

Section Single.
Variable m : nat.
Let n : nat := S m.
Let ex : pfun := ev m cmp_exp.
Hypothesis IHc : completes m (fol 4) (etext plain 4) den ex.
Hypothesis IHs : sounds m (fol 4) (etext run_on 4) den ex.

Lemma ev_if : forall s ps, ev n if_exp s ps =
  match ev n hs_if s ps with
  | Accept _ s1 p1 =>
    match ex s1 p1 with
    | Accept c s2 p2 =>
      match ev n hs_then s2 p2 with
      | Accept _ s3 p3 =>
        match ex s3 p3 with
        | Accept a s4 p4 =>
          match ev n hs_else s4 p4 with
          | Accept _ s5 p5 =>
            match ex s5 p5 with
            | Accept b t p6 =>
                Accept (ast_application (ast_application (ast_application (ast_value curry_lazy_if) c) a) b) t p6
            | o => o
            end
          | o => o
          end
        | o => o
        end
      | o => o
      end
    | o => o
    end
  | o => o
  end.
Proof.
  intros s ps.
  change (ev n if_exp s ps) with
    (transform (sequence cfg [last_of cfg [ev n hs_if; ex]; last_of cfg [ev n hs_then; ex];
       last_of cfg [ev n hs_else; ex]]) sem_if s ps).
  unfold transform. rewrite sequence_cfg; [|apply fs|discriminate].
  cbn [sequence_11]. unfold transform, return_. rewrite last_2.
  destruct (ev n hs_if s ps) as [v1 s1 p1| | |]; auto.
  destruct (ex s1 p1) as [c s2 p2| | |]; auto. rewrite last_2.
  destruct (ev n hs_then s2 p2) as [v3 s3 p3| | |]; auto.
  destruct (ex s3 p3) as [a s4 p4| | |]; auto. rewrite last_2.
  destruct (ev n hs_else s4 p4) as [v5 s5 p5| | |]; auto.
  destruct (ex s5 p5) as [b t p6| | |]; auto.
Qed.

Lemma if_rej : forall s ps, ~ prefix (text "if") s -> rejects (ev n if_exp) s ps.
Proof.
  intros s ps P. destruct (key_rej n (text "if") s ps P) as (k & pe & E). exists k, pe.
  rewrite ev_if. change (ev n hs_if) with (ev n (key_p (text "if"))). rewrite E. auto.
Qed.
Lemma if_rej_first : forall s ps, not_starting_with (fun c => c = 105) s ->
  exists k, ev n if_exp s ps = Reject k ps.
Proof.
  intros s ps N. destruct (key_rej_first n 105 (text "f") s ps N) as (k & E). exists k.
  rewrite ev_if. change (ev n hs_if s ps = Reject k ps) in E. rewrite E. auto.
Qed.
(** once [if] has been read, a failure is further *)
Lemma if_rej_far : forall s ps k pe, prefix (text "if") s -> (length s < n)%nat ->
  ev n if_exp s ps = Reject k pe -> pos_lt ps pe.
Proof.
  intros s ps k pe (r & ->) L E. destruct (spaces_total r) as (u & t & -> & F & Sp).
  destruct (key_acc n true (text "if") (text "if" ++ u ++ t) t ps) as (p1 & K); auto.
  { exists u. splits; auto. }
  assert (L1 : pos_lt ps p1).
  { eapply good_accept; [apply key_good|exact K|]. rewrite !app_length. simpl. slia. }
  rewrite ev_if in E. change (ev n hs_if) with (ev n (key_p (text "if"))) in E. rewrite K in E.
  eapply pos_lt_le_trans; [exact L1|]. clear K L1.
  destruct (ex t p1) as [c s2 p2|m1 q1| |] eqn:E1; try discriminate.
  2:{ injection E as <- <-. eapply good_reject; [apply cmp_exp_good|exact E1]. }
  apply (good_accept _ _ _ _ _ _ (cmp_exp_good m)) in E1 as (G1 & _).
  eapply pos_le_trans; [exact G1|]. change (ev n hs_then) with (ev n (key_p (text "then"))) in E.
  destruct (ev n (key_p (text "then")) s2 p2) as [v3 s3 p3|m1 q1| |] eqn:E2; try discriminate.
  2:{ injection E as <- <-. eapply good_reject; [apply key_good|exact E2]. }
  apply (good_accept _ _ _ _ _ _ (key_good n _)) in E2 as (G2 & _).
  eapply pos_le_trans; [exact G2|].
  destruct (ex s3 p3) as [a s4 p4|m1 q1| |] eqn:E3; try discriminate.
  2:{ injection E as <- <-. eapply good_reject; [apply cmp_exp_good|exact E3]. }
  apply (good_accept _ _ _ _ _ _ (cmp_exp_good m)) in E3 as (G3 & _).
  eapply pos_le_trans; [exact G3|]. change (ev n hs_else) with (ev n (key_p (text "else"))) in E.
  destruct (ev n (key_p (text "else")) s4 p4) as [v5 s5 p5|m1 q1| |] eqn:E4; try discriminate.
  2:{ injection E as <- <-. eapply good_reject; [apply key_good|exact E4]. }
  apply (good_accept _ _ _ _ _ _ (key_good n _)) in E4 as (G4 & _).
  eapply pos_le_trans; [exact G4|].
  destruct (ex s5 p5) as [b s6 p6|m1 q1| |] eqn:E5; try discriminate.
  injection E as <- <-. eapply good_reject; [apply cmp_exp_good|exact E5].
Qed.

Lemma if_complete : forall c a b s s1 s2 s3 s4 s5 t ps,
  key_text false (text "if") s s1 -> etext plain 4 c s1 s2 -> key_text false (text "then") s2 s3 ->
  etext plain 4 a s3 s4 -> key_text false (text "else") s4 s5 -> etext plain 4 b s5 t ->
  ends_expression t -> (length s < n)%nat ->
  match den (HIf c a b) with
  | Some v => exists ps', ev n if_exp s ps = Accept v t ps'
  | None => ev n if_exp s ps = Illformed
  end.
Proof.
  intros c a b s s1 s2 s3 s4 s5 t ps K1 X1 K2 X2 K3 X3 Et L. unfold n in L. apply ends_fol in Et.
  assert (B1 : (length s1 < length s)%nat) by (eapply key_shorter; eauto; discriminate).
  assert (B2 : (length s2 < length s1)%nat) by (eapply etext_shorter; eauto).
  assert (B3 : (length s3 < length s2)%nat) by (eapply key_shorter; eauto; discriminate).
  assert (B4 : (length s4 < length s3)%nat) by (eapply etext_shorter; eauto).
  assert (B5 : (length s5 < length s4)%nat) by (eapply key_shorter; eauto; discriminate).
  rewrite ev_if.
  destruct (key_acc n false _ _ _ ps K1) as (p1 & E1); [unfold n; lia|].
  change (ev n hs_if) with (ev n (key_p (text "if"))). rewrite E1.
  assert (F2 : fol 4 s2) by (apply (key_fol (text "then") s2 s3); auto).
  assert (F4 : fol 4 s4) by (apply (key_fol (text "else") s4 s5); auto).
  assert (L1 : (length s1 < m)%nat) by lia.
  pose proof (IHc c s1 s2 p1 X1 F2 L1) as C1. cbn [den].
  destruct (den c) as [x|]; [|rewrite C1; auto]. destruct C1 as (p2 & ->).
  destruct (key_acc n false _ _ _ p2 K2) as (p3 & E2); [unfold n; lia|].
  change (ev n hs_then) with (ev n (key_p (text "then"))). rewrite E2.
  assert (L3 : (length s3 < m)%nat) by lia.
  pose proof (IHc a s3 s4 p3 X2 F4 L3) as C2.
  destruct (den a) as [y|]; [|rewrite C2; auto]. destruct C2 as (p4 & ->).
  destruct (key_acc n false _ _ _ p4 K3) as (p5 & E3); [unfold n; lia|].
  change (ev n hs_else) with (ev n (key_p (text "else"))). rewrite E3.
  assert (L5 : (length s5 < m)%nat) by lia.
  pose proof (IHc b s5 t p5 X3 Et L5) as C3.
  destruct (den b) as [z|]; [|rewrite C3; auto]. destruct C3 as (p6 & ->). eauto.
Qed.

Lemma if_sound : forall s ps v t ps', (length s < n)%nat -> ev n if_exp s ps = Accept v t ps' ->
  exists e, etext run_on 0 e s t /\ den e = Some v.
Proof.
  intros s ps v t ps' L E. unfold n in L. rewrite ev_if in E.
  change (ev n hs_if) with (ev n (key_p (text "if"))) in E.
  change (ev n hs_then) with (ev n (key_p (text "then"))) in E.
  change (ev n hs_else) with (ev n (key_p (text "else"))) in E.
  destruct (ev n (key_p (text "if")) s ps) as [v1 s1 p1| | |] eqn:E1; try discriminate.
  apply key_snd in E1.
  assert (B1 : (length s1 < length s)%nat) by (eapply key_shorter; eauto; discriminate).
  destruct (ex s1 p1) as [x s2 p2| | |] eqn:E2; try discriminate.
  destruct (IHs s1 p1 x s2 p2) as (c & X1 & D1 & F2); auto; [lia|].
  assert (B2 : (length s2 < length s1)%nat) by (eapply etext_shorter; eauto).
  destruct (ev n (key_p (text "then")) s2 p2) as [v3 s3 p3| | |] eqn:E3; try discriminate.
  apply key_snd in E3. apply key_strict in E3; auto.
  assert (B3 : (length s3 < length s2)%nat) by (eapply key_shorter; eauto; discriminate).
  destruct (ex s3 p3) as [y s4 p4| | |] eqn:E4; try discriminate.
  destruct (IHs s3 p3 y s4 p4) as (a & X2 & D2 & F4); auto; [lia|].
  assert (B4 : (length s4 < length s3)%nat) by (eapply etext_shorter; eauto).
  destruct (ev n (key_p (text "else")) s4 p4) as [v5 s5 p5| | |] eqn:E5; try discriminate.
  apply key_snd in E5. apply key_strict in E5; auto.
  assert (B5 : (length s5 < length s4)%nat) by (eapply key_shorter; eauto; discriminate).
  destruct (ex s5 p5) as [z s6 p6| | |] eqn:E6; try discriminate.
  destruct (IHs s5 p5 z s6 p6) as (b & X3 & D3 & F6); auto; [lia|].
  injection E as <- <- <-. exists (HIf c a b). split.
  - eapply et_if; eauto. apply ends_fol. auto.
  - cbn [den]. rewrite D1, D2, D3. auto.
Qed.

(** Brackets *)
Lemma ev_bracket : forall s ps, ev n bracket_exp s ps =
  match ev n hs_open s ps with
  | Accept _ s1 ps1 =>
      match ex s1 ps1 with
      | Accept r s2 ps2 =>
          match ev n hs_close s2 ps2 with
          | Accept _ s3 ps3 => Accept r s3 ps3
          | Reject m pe => Reject (unpaired (line ps) (col ps) m) pe
          | o => o
          end
      | o => o
      end
  | o => o
  end.
Proof.
  intros s ps. change (ev n bracket_exp) with (middle_of cfg (ev n hs_open) ex (ev n hs_close)).
  rewrite middle_of_spec by apply fs. reflexivity.
Qed.

Lemma bracket_rej : forall s ps, not_starting_with (fun c => c = 40) s ->
  exists k, ev n bracket_exp s ps = Reject k ps.
Proof.
  intros s ps N. rewrite ev_bracket. destruct (proj2 (char_token_reads n 40) s ps N) as (k & E).
  exists k. change (ev n hs_open) with (ev n (PToken (PLitC 40))). rewrite E. auto.
Qed.
Lemma bracket_rej_far : forall (s : str) ps k pe, (length (40%Z :: s) < n)%nat ->
  ev n bracket_exp (40 :: s) ps = Reject k pe -> pos_lt ps pe.
Proof.
  intros s ps k pe L E. destruct (token_text_total 40 s) as (t & T).
  destruct (proj1 (char_token_reads n 40) _ _ ps T L) as (p1 & K).
  assert (L1 : pos_lt ps p1).
  { eapply good_accept; [apply char_good|exact K|]. apply (token_text_shorter 40). auto. }
  rewrite ev_bracket in E. change (ev n hs_open) with (ev n (PToken (PLitC 40))) in E.
  lazymatch type of E with context [ev n (PToken (PLitC 40)) ?x ps] =>
    change (ev n (PToken (PLitC 40)) x ps = Accept (VChar 40) t p1) in K end.
  rewrite K in E.
  eapply pos_lt_le_trans; [exact L1|]. clear K L1.
  destruct (ex t p1) as [c s2 p2|m1 q1| |] eqn:E1; try discriminate.
  2:{ injection E as <- <-. eapply good_reject; [apply cmp_exp_good|exact E1]. }
  apply (good_accept _ _ _ _ _ _ (cmp_exp_good m)) in E1 as (G1 & _).
  eapply pos_le_trans; [exact G1|]. change (ev n hs_close) with (ev n (PToken (PLitC 41))) in E.
  destruct (ev n (PToken (PLitC 41)) s2 p2) as [v3 s3 p3|m1 q1| |] eqn:E2; try discriminate.
  injection E as <- <-. eapply good_reject; [apply char_good|exact E2].
Qed.

Lemma bracket_complete : forall e s s1 s2 t ps, lexeme_text (text "(") s s1 -> etext plain 4 e s1 s2 ->
  lexeme_text (text ")") s2 t -> (length s < n)%nat ->
  match den e with
  | Some v => exists ps', ev n bracket_exp s ps = Accept v t ps'
  | None => ev n bracket_exp s ps = Illformed
  end.
Proof.
  intros e s s1 s2 t ps T1 X1 T2 L. rewrite ev_bracket. unfold n in L.
  assert (B1 : (length s1 < length s)%nat) by (eapply lexeme_shorter; eauto; discriminate).
  assert (B2 : (length s2 < length s1)%nat) by (eapply etext_shorter; eauto).
  destruct (proj1 (char_token_reads n 40) s s1 ps T1) as (p1 & E1); [unfold n; lia|].
  change (ev n hs_open) with (ev n (PToken (PLitC 40))). rewrite E1.
  assert (F2 : fol 4 s2).
  { destruct T2 as (u & -> & _). apply (close_fol (u ++ t)). }
  assert (L1 : (length s1 < m)%nat) by lia.
  pose proof (IHc e s1 s2 p1 X1 F2 L1) as C1.
  destruct (den e) as [x|]; [|rewrite C1; auto]. destruct C1 as (p2 & ->).
  destruct (proj1 (char_token_reads n 41) s2 t p2 T2) as (p3 & E3); [unfold n; lia|].
  change (ev n hs_close) with (ev n (PToken (PLitC 41))). rewrite E3. eauto.
Qed.

Lemma bracket_sound : forall s ps v t ps', (length s < n)%nat -> ev n bracket_exp s ps = Accept v t ps' ->
  exists e, etext run_on 0 e s t /\ den e = Some v.
Proof.
  intros s ps v t ps' L E. unfold n in L. rewrite ev_bracket in E.
  change (ev n hs_open) with (ev n (PToken (PLitC 40))) in E.
  change (ev n hs_close) with (ev n (PToken (PLitC 41))) in E.
  destruct (ev n (PToken (PLitC 40)) s ps) as [v1 s1 p1| | |] eqn:E1; try discriminate.
  apply (reads_token_sound _ _ _ _ (char_token_reads n 40)) in E1 as (_ & T1); [|unfold n; lia].
  assert (B1 : (length s1 < length s)%nat) by (apply (token_text_shorter 40); auto).
  destruct (ex s1 p1) as [x s2 p2| | |] eqn:E2; try discriminate.
  destruct (IHs s1 p1 x s2 p2) as (e & X1 & D1 & F2); auto; [lia|].
  assert (B2 : (length s2 < length s1)%nat) by (eapply etext_shorter; eauto).
  destruct (ev n (PToken (PLitC 41)) s2 p2) as [v3 s3 p3| | |] eqn:E3; try discriminate.
  apply (reads_token_sound _ _ _ _ (char_token_reads n 41)) in E3 as (_ & T3); [|unfold n; lia].
  injection E as <- <- <-. exists e. split; auto. eapply (et_paren run_on e s s1 s2 s3); [exact T1|exact X1|exact T3].
Qed.

(** Numbers *)
Lemma int_complete : forall ds w t s ps, leading_number ds w t s -> (length s < n)%nat ->
  match den (HNum ds) with
  | Some v => exists ps', transform (ev n hs_int) sem_value s ps = Accept v t ps'
  | None => transform (ev n hs_int) sem_value s ps = Illformed
  end.
Proof.
  intros ds w t s ps Ln L. destruct (int_token_leading cfg hs_program (fs 2) n s ps ds w t Ln L) as (A & B).
  cbn [den]. unfold transform. change (ev n hs_int) with (eval cfg hs_program n (PToken PInt)).
  destruct (int_ok (decimal ds)) eqn:I.
  - apply int_ok_iff in I. rewrite (A I). eexists. reflexivity.
  - rewrite B; auto. intros I'. apply int_ok_iff in I'. congruence.
Qed.
Lemma int_rej : forall s ps, not_starting_with digit_char s ->
  exists k, transform (ev n hs_int) sem_value s ps = Reject k ps.
Proof.
  intros s ps N. exists digit_expected. unfold transform.
  change (ev n hs_int) with (eval cfg hs_program n (PToken PInt)).
  rewrite int_token_none by (auto using fs). auto.
Qed.
Lemma int_sound : forall s ps v t ps', (length s < n)%nat ->
  transform (ev n hs_int) sem_value s ps = Accept v t ps' ->
  exists e, etext run_on 0 e s t /\ den e = Some v.
Proof.
  intros s ps v t ps' L E. destruct (leading_number_cases s) as [N|(ds & w & t' & Ln)].
  - destruct (int_rej s ps N) as (k & E'). congruence.
  - pose proof (int_complete _ _ _ _ ps Ln L) as C. exists (HNum ds).
    destruct (den (HNum ds)) as [v'|]; [|congruence].
    destruct C as (ps1 & C). rewrite E in C. injection C as -> -> _. split; auto. econstructor. eauto.
Qed.

(** Names *)
Lemma ref_complete : forall x s t ps, name_text x s t -> (length s < n)%nat ->
  exists ps', transform (ev n hs_name) sem_ref s ps = Accept (ast_ref (VStr x)) t ps'.
Proof.
  intros x s t ps T L. destruct (name_acc n x s t ps T L) as (ps' & E). exists ps'.
  unfold transform. rewrite E. reflexivity.
Qed.
Lemma ref_rej : forall s ps, not_starting_with lead s ->
  exists k, transform (ev n hs_name) sem_ref s ps = Reject k ps.
Proof.
  intros s ps N. destruct (name_rej_char n s ps N) as (k & E). exists k. unfold transform. rewrite E. auto.
Qed.
Lemma ref_rej_word : forall w r ps, reserved w -> not_starting_with name_char r -> (length w <= n)%nat ->
  exists k, transform (ev n hs_name) sem_ref (w ++ r) ps = Reject k ps.
Proof.
  intros w r ps R N L. destruct (name_rej_word n w r ps R N L) as (k & E). exists k.
  unfold transform. rewrite E. auto.
Qed.
Lemma ref_sound : forall s ps v t ps', (length s < n)%nat ->
  transform (ev n hs_name) sem_ref s ps = Accept v t ps' ->
  exists e, etext run_on 0 e s t /\ den e = Some v.
Proof.
  intros s ps v t ps' L E. unfold transform in E.
  destruct (ev n hs_name s ps) as [x s1 p1| | |] eqn:E1; try discriminate.
  apply name_snd in E1 as (y & -> & T); auto. injection E as <- <- <-.
  exists (HVar y). split; auto. apply et_var; auto. simpl. auto.
Qed.

Lemma single_complete : completes n (fol 0) (etext plain 0) den (ev n single_exp).
Proof.
  intros e s t ps X _ L. rewrite ev_single.
  inversion X as [ds w t0 s0 Ln | x s0 t0 T Nx | e0 s0 s1 s2 t0 T1 X1 T2 | c a b s0 s1 s2 s3 s4 s5 t0 K1 X1 K2 X2 K3 X3 Et | | | ];
    subst.
  - destruct (digit_first _ _ _ _ Ln) as (c & u & -> & D).
    pose proof (int_complete _ _ _ _ ps Ln L) as C.
    assert (R1 : exists k, ev n if_exp (c :: u) ps = Reject k ps).
    { apply if_rej_first. simpl. unfold digit_char in D. slia. }
    assert (R2 : exists k, transform (ev n hs_name) sem_ref (c :: u) ps = Reject k ps).
    { apply ref_rej. simpl. apply digit_not_lead. auto. }
    assert (R4 : exists k, ev n bracket_exp (c :: u) ps = Reject k ps).
    { apply bracket_rej. simpl. unfold digit_char in D. slia. }
    destruct R1 as (k1 & R1). destruct R2 as (k2 & R2). destruct R4 as (k4 & R4).
    destruct (den (HNum ds)) as [v|].
    + destruct C as (ps' & C). exists ps'. cbn [one_of_11]. rewrite R1, R2, C, R4.
      unfold fail, later_result. repeat (destruct (pos_less _ _)); reflexivity.
    + cbn [one_of_11]. rewrite R1, R2, C. reflexivity.
  - cbn [den]. destruct (ref_complete x s t ps T L) as (ps' & E). exists ps'.
    destruct (if_rej s ps) as (k1 & q1 & R1).
    { intros P. apply Nx. eapply if_prefix_name; eauto. }
    destruct (name_first _ _ _ T) as (c & u & -> & C).
    destruct (int_rej (c :: u) ps) as (k3 & R3).
    { simpl. intros D. eapply digit_not_lead; eauto. }
    destruct (bracket_rej (c :: u) ps) as (k4 & R4).
    { simpl. unfold lead, letter_char in C. slia. }
    cbn [one_of_11]. rewrite R1, E, R3, R4. unfold fail, later_result. repeat (destruct (pos_less _ _)); reflexivity.
  - pose proof (bracket_complete e s s1 s2 t ps T1 X1 T2 L) as C.
    assert (S : exists u, s = 40 :: u) by (destruct T1 as (u & -> & _); eexists; reflexivity).
    destruct S as (u & ->).
    destruct (if_rej_first (40 :: u) ps) as (k1 & R1); [simpl; lia|].
    destruct (ref_rej (40 :: u) ps) as (k2 & R2); [simpl; unfold lead, letter_char; slia|].
    destruct (int_rej (40 :: u) ps) as (k3 & R3); [simpl; unfold digit_char; slia|].
    destruct (den e) as [v|].
    + destruct C as (ps' & C). exists ps'. cbn [one_of_11]. rewrite R1, R2, R3, C. reflexivity.
    + cbn [one_of_11]. rewrite R1, R2, R3, C. reflexivity.
  - pose proof (if_complete c a b s s1 s2 s3 s4 s5 t ps K1 X1 K2 X2 K3 X3 Et L) as C.
    destruct (den (HIf c a b)) as [v|]; [|cbn [one_of_11]; rewrite C; reflexivity].
    destruct C as (ps' & C). exists ps'. apply one_of_take; auto.
    destruct K1 as (u & -> & F & Sp & N). destruct N as [N|N]; [discriminate|].
    apply Forall_cons; [|apply Forall_cons; [|apply Forall_cons; [|apply Forall_nil]]]; apply reject_finishes.
    + apply ref_rej_word; auto; [left; auto|]. rewrite app_length in L. slia.
    + apply int_rej. unfold not_starting_with, digit_char. simpl. lia.
    + apply bracket_rej. unfold not_starting_with. simpl. lia.
Qed.

Lemma single_sound : sounds n (fol 0) (etext run_on 0) den (ev n single_exp).
Proof.
  intros s ps v t ps' L E. rewrite ev_single in E.
  assert (G : exists e, etext run_on 0 e s t /\ den e = Some v).
  { apply four_accept in E as [E|[E|[E|E]]].
    - eapply if_sound; eauto.
    - eapply ref_sound; eauto.
    - eapply int_sound; eauto.
    - eapply bracket_sound; eauto. }
  destruct G as (e & X & D). exists e. splits; auto. simpl. auto.
Qed.

Lemma exp_char_cases : forall c, exp_char c -> digit_char c \/ lead c \/ c = 40.
Proof. unfold exp_char, name_char, lead. tauto. Qed.

Lemma single_rej : forall s ps, (length s < n)%nat -> single_stop s ->
  exists k, ev n single_exp s ps = Reject k ps.
Proof.
  intros s ps L [N|(w & r & -> & W & N)]; rewrite ev_single; apply one_of_near;
    (apply Forall_cons; [|apply Forall_cons; [|apply Forall_cons; [|apply Forall_cons; [|apply Forall_nil]]]]).
  - apply if_rej_first. destruct s as [|c s]; simpl in *; auto. intros ->. apply N. left. left.
    unfold letter_char. lia.
  - apply ref_rej. destruct s as [|c s]; simpl in *; auto. intros C. apply N. left. unfold lead, name_char in *. tauto.
  - apply int_rej. destruct s as [|c s]; simpl in *; auto. intros C. apply N. left. unfold name_char. tauto.
  - apply bracket_rej. destruct s as [|c s]; simpl in *; auto. intros C. apply N. right. auto.
  - apply if_rej_first. destruct W as [-> | ->]; simpl; discriminate.
  - apply ref_rej_word; auto; [unfold reserved; tauto|]. rewrite app_length in L. lia.
  - apply int_rej. destruct W as [-> | ->]; simpl; unfold digit_char; slia.
  - apply bracket_rej. destruct W as [-> | ->]; simpl; discriminate.
Qed.

Lemma single_rej_here : forall s ps k, (length s < n)%nat -> ev n single_exp s ps = Reject k ps -> single_stop s.
Proof.
  intros s ps k L E. rewrite ev_single in E. apply one_of_le in E.
  inversion E as [|? ? (k1 & p1 & R1 & B1) E1]; subst. inversion E1 as [|? ? (k2 & p2 & R2 & B2) E2]; subst.
  inversion E2 as [|? ? (k3 & p3 & R3 & B3) E3]; subst. inversion E3 as [|? ? (k4 & p4 & R4 & B4) _]; subst.
  clear E E1 E2 E3.
  assert (Far : forall p, pos_lt ps p -> pos_le p ps -> False).
  { intros p A B. apply (pos_lt_irrefl ps). eapply pos_lt_le_trans; eauto. }
  destruct s as [|c s]; [left; simpl; auto|].
  assert (Dec : {exp_char c} + {~ exp_char c}).
  { apply or_dec; [apply name_char_dec|apply eq_char_dec]. }
  destruct Dec as [C|C]; [|left; auto].
  apply exp_char_cases in C as [C|[C| ->]].
  - exfalso. destruct (leading_number_cases (c :: s)) as [N|(ds & w & t & Ln)]; [simpl in N; auto|].
    pose proof (int_complete _ _ _ _ ps Ln L) as K. destruct (den (HNum ds)); [destruct K as (? & K)|]; congruence.
  - destruct (name_cases (c :: s)) as [N|[(w & r & Es & R & N)|(x & t & T)]].
    + exfalso. simpl in N. auto.
    + destruct R as [-> | R].
      * exfalso. apply (Far p1); auto. eapply if_rej_far; eauto. exists r. auto.
      * right. exists w, r. auto.
    + exfalso. destruct (ref_complete x (c :: s) t ps T L) as (? & K). congruence.
  - exfalso. apply (Far p4); auto. eapply bracket_rej_far; eauto.
Qed.

End Single.
End Hs.
